(** Vocabulary for C87: what becomes of the parts of several messages. *)
From Coq Require Import Permutation.
From Verif Require Import Py SpecGsm SpecPack SpecAddress SpecTime SpecSubmit SpecDeliver
  SpecAssembly Utils Gsm Submit SubmitClaims Deliver.
Open Scope Z_scope.

(** The reference number of the parts of the next message sent with [s]: [rand_id]
    modulo 256, or the next id once the message reference has got one. *)
Definition rest_of (ids : list Z) : list Z :=
  match ids with _ :: l => l | [] => tl id_range end.
Definition next_of (ids : list Z) : Z := match ids with i :: _ => i | [] => 0 end.
Definition parts_ref (s : submit) : Z :=
  match s_rand_id s with
  | Some x => x mod 256
  | None => next_of (match s_ref s with Some _ => s_id_list s | None => rest_of (s_id_list s) end)
  end.

(** [pdus] were made by [to_pdu] from [s], in several parts, in the GSM alphabet or
    UCS-2. *)
Definition sent_in_parts (s : submit) (pdus : list pdu) : Prop :=
  reachable s /\ validity_ok (s_validity s) /\ (coding_of s = 0 \/ coding_of s = 8) /\
  (exists s', to_pdu s = (Ok pdus, s')) /\ zlen pdus <> 1.

(** The network delivers [p], sent with [s], as [pdu]: any SMS-DELIVER with the
    same coding and user data. *)
Definition relayed (s : submit) (p : pdu) (pdu : list Z) : Prop :=
  exists udl ud o, carries s (coding_of s) (message_ref s) true udl ud p /\
    delivers (coding_of s) true udl ud o /\ reads_hex pdu o.

(** What the receiver reads from a received message, if it is a part. *)
Definition arrival (d : deliver) : list arrived :=
  match d_text d, concat_data d with
  | Some t, Some (ref, cnt, seq) => [Arrived t ref cnt seq]
  | _, _ => []
  end.
