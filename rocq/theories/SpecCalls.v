(** What an [SmsSubmit] object sends after any sequence of assignments and calls of
    [to_pdu], told from the sequence alone (C126). *)
From Verif Require Import Py Utils Submit Setters SpecGsm SpecPack SpecAddress SpecTime SpecSubmit
  SpecUnsent SpecPdus.
Open Scope Z_scope.

(** What a program does with the object.  [PutX] is an assignment, which may be refused;
    [Convert] is a call of [to_pdu], which may raise. *)
Inductive call :=
| PutNumber (v : option (list Z)) | PutCentre (v : option (list Z)) | PutClass (v : value)
| PutValidity (v : value) | PutStatus (b : bool) | PutRef (v : option Z) | PutPartsRef (v : option Z)
| PutPid (p : Z) | PutText (t : pystr) | PutCoding (v : option Z) | Convert.

(** * Settings *)

(** What a call sets an attribute to, if it does: refused values set nothing. *)
Definition phone_number (v : option (list Z)) : Prop :=
  v = None \/ v = Some [] \/ exists intl ds n, v = Some n /\ number_syntax intl ds n.

Inductive gives_number : call -> option (list Z) -> Prop :=
| give_number v : phone_number v -> gives_number (PutNumber v) v.
Inductive gives_centre : call -> option (list Z) -> Prop :=
| give_centre v : phone_number v -> gives_centre (PutCentre v) v.
Inductive gives_class : call -> option Z -> Prop :=
| give_class n : 0 <= n <= 3 -> gives_class (PutClass (VInt n)) (Some n)
| give_class_bool b : gives_class (PutClass (VBool b)) (Some (if b then 1 else 0)).
Inductive gives_validity : call -> validity -> Prop :=
| give_none : gives_validity (PutValidity VNone) NoValidity
| give_period t : gives_validity (PutValidity (VTimedelta t)) (Relative t)
| give_date d : gives_validity (PutValidity (VDatetime d)) (Absolute d).
Inductive gives_status : call -> bool -> Prop := give_status b : gives_status (PutStatus b) b.
Inductive gives_parts_ref : call -> option Z -> Prop :=
  give_parts_ref v : gives_parts_ref (PutPartsRef v) v.
Inductive gives_pid : call -> Z -> Prop := give_pid p : gives_pid (PutPid p) p.
Inductive gives_text : call -> pystr -> Prop := give_text t : gives_text (PutText t) t.

(** The last value given, or the one at the beginning. *)
Inductive last_given {A} (P : call -> A -> Prop) (init : A) : list call -> A -> Prop :=
| given_never cs : (forall c a, In c cs -> ~ P c a) -> last_given P init cs init
| given_last before c a after : P c a -> (forall c' a', In c' after -> ~ P c' a') ->
    last_given P init (before ++ c :: after) a.

(** * What the calls of [to_pdu] leave behind *)

(** A call of [to_pdu] gets as far as looking at the text: there is a number to send to,
    and the protocol identifier is an octet. *)
Definition reaches_text (number : option (list Z)) (cs : list call) : Prop :=
  (exists n c, last_given gives_number number cs (Some (c :: n))) /\
  (exists p, last_given gives_pid 0 cs p /\ octet p).

(** The coding before and after it. *)
Inductive chosen (number : option (list Z)) (text : pystr) (cs : list call)
  : option Z -> option Z -> Prop :=
| ch_fixed c : chosen number text cs (Some c) (Some c)
| ch_early : ~ reaches_text number cs -> chosen number text cs None None
| ch_gsm t : reaches_text number cs -> last_given gives_text text cs t -> in_gsm t ->
    chosen number text cs None (Some 0)
| ch_ucs2 t : reaches_text number cs -> last_given gives_text text cs t -> ~ in_gsm t ->
    chosen number text cs None (Some 8).

(** Texts that are too long for one PDU. *)
Inductive takes_parts (t : pystr) : Z -> Prop :=
| tp_gsm g : in_gsm t -> gsm_text (chars t) g -> (160 < length g)%nat -> takes_parts t 0
| tp_8bit : (140 < length (chars t))%nat -> takes_parts t 4
| tp_ucs2 : (70 < length (chars t))%nat -> takes_parts t 8.

Definition expressible (v : validity) : Prop :=
  match v with
  | NoValidity => True
  | Relative t => 5 * 60 * 1000000 <= t <= 63 * 7 * 86400 * 1000000
  | Absolute d => 1900 <= dt_year d
  end.

(** It draws a reference for the parts of the text, even if that is refused later. *)
Inductive draws_for_parts (number : option (list Z)) (text : pystr) (cs : list call)
  : option Z -> Prop :=
| dp_draws v t coding : reaches_text number cs ->
    last_given gives_validity NoValidity cs v -> expressible v ->
    last_given gives_text text cs t -> takes_parts t coding ->
    last_given gives_parts_ref None cs None -> draws_for_parts number text cs (Some coding).

(** After the calls: the coding, the reference, and how many references were drawn. *)
Inductive stands (number : option (list Z)) (text : pystr)
  : list call -> option Z -> option Z -> Z -> Prop :=
| sd_new : stands number text [] None None 0
| sd_coding cs c r k v : stands number text cs c r k ->
    stands number text (cs ++ [PutCoding v]) v r k
| sd_ref cs c r k v : stands number text cs c r k -> stands number text (cs ++ [PutRef v]) c v k
| sd_convert cs c r k c' a b : stands number text cs c r k -> chosen number text cs c c' ->
    (r = None /\ a = 1 \/ r <> None /\ a = 0) ->
    (draws_for_parts number text cs c' /\ b = 1 \/ ~ draws_for_parts number text cs c' /\ b = 0) ->
    stands number text (cs ++ [Convert]) c'
      (Some match r with Some x => x mod 256 | None => k mod 255 end) (k + a + b)
| sd_other cs c r k x : stands number text cs c r k ->
    (forall v, x <> PutCoding v) -> (forall v, x <> PutRef v) -> x <> Convert ->
    stands number text (cs ++ [x]) c r k.

(** * The object *)

(** The attributes of a message created with this number and text, after the calls. *)
Record tells (number : option (list Z)) (text : pystr) (cs : list call) (s : submit) : Prop := Tells {
  t_number : last_given gives_number number cs (s_number s);
  t_centre : last_given gives_centre None cs (s_csca s);
  t_class : last_given gives_class None cs (s_klass s);
  t_validity : last_given gives_validity NoValidity cs (s_validity s);
  t_status : last_given gives_status false cs (s_request_status s);
  t_parts_ref : last_given gives_parts_ref None cs (s_rand_id s);
  t_pid : last_given gives_pid 0 cs (s_pid s);
  t_text : last_given gives_text text cs (s_text s);
  t_stands : exists k, stands number text cs (s_fmt s) (s_ref s) k /\
    nth 0 (to_draw s) 0 = k mod 255 /\ nth 1 (to_draw s) 0 = (k + 1) mod 255 }.
