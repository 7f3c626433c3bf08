(** C117: what the decoders do with any octets whatever. *)
From Coq Require Import Lia.
From Verif Require Import Py Iter Tables WspDec Message MmsDec SpecWsp SpecMms SpecSmil WspClaims
  PyFacts IterFacts MmsTotal MessageFacts SpecReader ReaderFacts.
Open Scope Z_scope.

(** The decoder [m] does what the reader [x] does, on every iterator that is not
    looking ahead: it returns the value or raises the exception, leaves the octets the
    reader leaves, and does not look ahead. *)
Definition follows {A} (m : ST piter A) (x : reader A) : Prop :=
  forall it, all_octets (remaining it) -> it_pos it = 0%nat ->
  exists it', it_pos it' = 0%nat /\ match x (remaining it) with
    | Reads a rest => m it = (Ok a, it') /\ remaining it' = rest
    | Fails e rest => m it = (Err e, it') /\ remaining it' = rest
    end.

(** MMSMessage.from_data: every string of octets gives the message or the exception
    that the reader of SpecReader gives. *)
Theorem C117_message : forall data, all_octets data ->
  decode_data data = result (a_message data).
Proof. exact message_sim. Qed.
Print Assumptions C117_message.

(** MMSMessage.from_file, for files of octets. *)
Theorem C117_file : forall w filename,
  match w_file w filename with
  | None => decode_file w filename = Err OSError
  | Some data => all_octets data -> decode_file w filename = result (a_message data)
  end.
Proof.
  intros w filename. unfold decode_file. destruct (w_file w filename) as [data|]; [|reflexivity].
  apply message_sim.
Qed.
Print Assumptions C117_file.

(** The reader never gives up for lack of steps. *)
Theorem C117_ends : forall data, all_octets data ->
  result (a_message data) <> Err OutOfFuel.
Proof.
  intros data H. rewrite <- message_sim by exact H. pose proof (decode_data_exn data) as E.
  destruct (decode_data data) as [m|e]; [discriminate|]. intros X. injection X as ->.
  destruct E as [[E|[E|[E|E]]]|E]; discriminate E.
Qed.
Print Assumptions C117_ends.

(** One header; the look-ahead is given up except at the end of the data. *)
Theorem C117_header : forall it, all_octets (remaining it) -> it_pos it = 0%nat ->
  exists it', match a_header (remaining it) with
    | Reads a rest => decode_header it = (Ok a, it') /\ remaining it' = rest /\ it_pos it' = 0%nat
    | Fails e rest => decode_header it = (Err e, it') /\ remaining it' = rest /\
                      (e <> StopIteration -> it_pos it' = 0%nat)
    end.
Proof.
  intros it Hl Hp.
  destruct (header_sim (remaining it) Hl it) as (r & it1 & l1 & p1 & E & HR & E2 & Hp1 & Ho).
  { unfold R. rewrite Hp. repeat split; auto. apply Nat.le_0_l. }
  exists it1. destruct HR as (R1 & R2 & _). rewrite <- E2, E. destruct r as [a|e]; cbn [out].
  - repeat split; [exact R1|]. rewrite R2. apply Hp1. discriminate.
  - repeat split; [exact R1|]. intros N. rewrite R2. apply Hp1. congruence.
Qed.
Print Assumptions C117_header.

(** The decoders of class Decoder, wsp_pdu.py. *)
Theorem C117_decoders :
  follows decode_uint_8 a_uint8 /\
  follows decode_uint_var a_uintvar /\
  follows decode_short_integer a_short_integer /\
  follows decode_long_integer a_long_integer /\
  follows decode_integer_value an_integer /\
  follows decode_value_length a_value_length /\
  follows decode_text_string a_text /\
  follows decode_quoted_string a_quoted /\
  follows decode_token_text a_token /\
  follows decode_text_value a_text_value /\
  follows decode_uri_value a_text /\
  follows decode_version_value a_version /\
  follows decode_date_value a_date /\
  follows decode_delta_seconds_value an_integer /\
  follows decode_well_known_charset a_charset /\
  follows decode_q_value a_quality /\
  follows decode_no_value no_value /\
  follows decode_untyped_value untyped /\
  follows decode_compact_value typed /\
  follows decode_typed_value typed /\
  follows decode_extension_media media_by_name /\
  follows decode_constrained_media constrained_media /\
  follows decode_media_type media_type /\
  follows decode_parameter a_parameter /\
  follows decode_content_type_value a_content_type /\
  follows decode_accept_value an_accept /\
  follows decode_application_header named_header /\
  follows wsp_decode_header wsp_header.
Proof.
  unfold follows. repeat split; apply sim_follows.
  - apply uint8_sim.
  - apply sim_of_any, uint_var_sim.
  - apply short_integer_sim.
  - apply long_integer_sim.
  - apply integer_sim.
  - apply value_length_sim.
  - apply text_sim.
  - apply quoted_sim.
  - apply token_sim.
  - apply text_value_sim.
  - apply text_sim.
  - apply version_sim.
  - apply date_sim.
  - apply integer_sim.
  - apply charset_sim.
  - apply quality_sim.
  - apply no_value_sim.
  - apply untyped_sim.
  - apply compact_sim.
  - apply typed_sim.
  - apply media_by_name_sim.
  - apply constrained_media_sim.
  - apply media_type_sim.
  - apply parameter_sim.
  - apply content_type_sim.
  - apply accept_sim.
  - apply named_header_sim.
  - apply wsp_header_sim.
Qed.
Print Assumptions C117_decoders.

(** The decoders of class MMSDecoder, mms_pdu.py. *)
Theorem C117_fields :
  follows decode_encoded_string_value an_encoded_string /\
  follows decode_boolean_value a_flag /\
  follows ('(k, n) <~ decode_delivery_time_value ;; st_ret (HTime k n)) a_delivery_time /\
  follows (v <~ decode_expiry_value ;; st_ret (HP v)) an_expiry /\
  follows decode_from_value a_sender /\
  follows decode_message_class_value a_message_class /\
  follows decode_message_type_value a_message_type /\
  follows decode_priority_value (a_name priority_names) /\
  follows (v <~ decode_response_status_value ;; st_ret (HP v)) (a_status response_names 129) /\
  follows decode_sender_visibility_value (a_name visibility_names) /\
  follows (v <~ decode_status_value ;; st_ret (HP v)) (a_status status_names 132).
Proof.
  unfold follows. repeat split; apply sim_follows.
  - apply encoded_string_sim.
  - apply flag_sim.
  - apply delivery_time_sim.
  - apply expiry_sim.
  - apply sender_sim.
  - apply message_class_sim.
  - apply message_type_sim.
  - apply priority_sim.
  - apply response_sim.
  - apply visibility_sim.
  - apply status_sim.
Qed.
Print Assumptions C117_fields.

(** [py_dec] is the decimal notation. *)
Theorem C117_decimal : forall n, 0 <= n -> natural_notation n (py_dec n).
Proof. exact py_dec_notation. Qed.
Print Assumptions C117_decimal.

(** * Cases *)

(** An unknown type of message is left unread, so that the next header begins with it:
    octet 137 is the field From, whose value is missing. *)
Example C117_unknown_type :
  decode_data [140; 137] = Err RuntimeError /\
  a_header [140; 137] = Reads (str "Message-Type", HStr (str "<unknown>")) [137].
Proof. vm_compute. auto. Qed.

(** Unknown statuses. *)
Example C117_statuses :
  a_header [149; 7; 1] = Reads (str "Status", HInt 132) [1] /\
  a_header [146; 7; 1] = Reads (str "Response-Status", HInt 129) [1].
Proof. vm_compute. auto. Qed.

(** A priority that is none is taken for the header by name that begins there. *)
Example C117_priority :
  a_header ([143] ++ str "abc" ++ [0] ++ str "x" ++ [0; 5]) = Reads (str "abc", HStr (str "x")) [5].
Proof. vm_compute. reflexivity. Qed.

(** A name whose second octet is not ASCII. *)
Example C117_second_octet :
  a_header [14; 200; 65; 0; 9] = Reads (str "Content-Location", HStr [200; 65]) [9].
Proof. vm_compute. reflexivity. Qed.

(** One octet left over is the number of parts. *)
Example C117_one_octet :
  result (a_message [0]) = Ok (Message default_headers [] [] 176 220) /\
  result (a_message [1]) = Err StopIteration.
Proof. vm_compute. auto. Qed.

(** A message with a part. *)
Example C117_part : exists m p,
  result (a_message ([140; 132; 132; 163] ++ [1; 1; 3; 131; 104; 105; 33])) = Ok m /\
  m_parts m = [p] /\ dp_data p = Some [104; 105; 33].
Proof. eexists _, _. split; [vm_compute; reflexivity|]. split; reflexivity. Qed.
