(** C12-C14: telephone numbers.  Strings are the codes of their characters. *)
From Coq Require Import Lia.
From Verif Require Import Py SpecPack SpecAddress SpecSubmit Utils Submit SubmitClaims
  NumberFacts SubmitFacts ToPduFacts.
Open Scope Z_scope.

(** C12: the destination field: digit count, type of number, swapped digits. *)
Theorem C12_destination : forall s intl ds n,
  s_number s = Some n -> number_syntax intl ds n ->
  exists os, semi_octets (map digit_value ds) os /\
    get_phone_pdu s = Ok (hex_of (zlen ds :: address_type intl :: os)).
Proof. exact phone_pdu_spec. Qed.
Print Assumptions C12_destination.

(** C12: the service centre field: octet count, type of number, digits. *)
Theorem C12_service_centre : forall s intl ds n,
  s_csca s = Some n -> number_syntax intl ds n ->
  exists os, semi_octets (map digit_value ds) os /\
    get_smsc_pdu s = Ok (hex_of (1 + zlen os :: address_type intl :: os)).
Proof. exact smsc_pdu_spec. Qed.
Print Assumptions C12_service_centre.

(** C12: reading the semi-octets back gives the digits. *)
Theorem C12_reads_back : forall ds os, semi_octets ds os -> read_semi os = ds.
Proof. exact read_semi_spec. Qed.
Print Assumptions C12_reads_back.
Example C12_case_syntax : number_syntax true (str "34616585119") (str "+34616585119").
Proof.
  split; [repeat constructor; cbv; discriminate|]. split; [cbv; split; discriminate|].
  exists []. split; [now left|reflexivity].
Qed.
Example C12_case : get_phone_pdu (Submit (Some (str "+34616585119")) None None NoValidity
    false None None id_range 0 (PyStr true []) None None None) = Ok (str "0b914316565811f9").
Proof. reflexivity. Qed.

(** C13: a non-empty number is stored exactly when it has the syntax; otherwise
    ValueError and the object is unchanged.  Only the number changes. *)
Theorem C13_number : forall n s, n <> [] ->
  ((exists intl ds, number_syntax intl ds n) ->
     set_number (Some n) s = (Ok tt, with_number (Some n) s)) /\
  (~ (exists intl ds, number_syntax intl ds n) ->
     set_number (Some n) s = (Err ValueError, s)).
Proof. exact set_number_valid. Qed.
Print Assumptions C13_number.

Theorem C13_csca : forall n s, n <> [] ->
  ((exists intl ds, number_syntax intl ds n) ->
     set_csca (Some n) s = (Ok tt, with_csca (Some n) s)) /\
  (~ (exists intl ds, number_syntax intl ds n) ->
     set_csca (Some n) s = (Err ValueError, s)).
Proof. exact set_csca_valid. Qed.
Print Assumptions C13_csca.

(** C13: None and the empty string are stored unchecked. *)
Theorem C13_empty : forall v s, v = None \/ v = Some [] ->
  set_number v s = (Ok tt, with_number v s) /\ set_csca v s = (Ok tt, with_csca v s).
Proof. intros v s [->| ->]; split; reflexivity. Qed.
Print Assumptions C13_empty.
Example C13_case : fst (set_number (Some (str "12a4")) (Submit None None None NoValidity
    false None None id_range 0 (PyStr true []) None None None)) = Err ValueError.
Proof. reflexivity. Qed.

(** C14: [swap_number] on the hexadecimal semi-octets returns the digits. *)
Theorem C14_swap_number : forall ds os, semi_octets ds os ->
  swap_number (hex_of os) = map (fun d => 48 + d) ds.
Proof. exact swap_number_semi. Qed.
Print Assumptions C14_swap_number.
(** Every digit string has such semi-octets. *)
Theorem C14_semi_octets_exist : forall ds, Forall (fun d => 0 <= d <= 9) ds ->
  exists os, semi_octets ds os.
Proof. exact semi_octets_exists. Qed.
Print Assumptions C14_semi_octets_exist.
Example C14_case : swap_number (str "4316565811f9") = str "34616585119".
Proof. reflexivity. Qed.
