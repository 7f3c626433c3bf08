(** Vocabulary of the theorems about SmsDeliver. *)
From Verif Require Import Py SpecGsm SpecPack SpecAddress SpecTime SpecSubmit SpecDeliver.
Open Scope Z_scope.

(** How SmsDeliver shows the sender in the field [f]: a number as its text, a name
    (of 11 septets at most in TS 23.040; 150 are allowed for here) as its text, but
    with a commercial at appended to a name of 7 modulo 8 septets (C32_exact). *)
Definition shown_as (snd f : list Z) : Prop :=
  sender_field false snd f \/
  exists name g, sender_field true name f /\ gsm_text name g /\ Z.of_nat (length g) <= 150 /\
    snd = name ++ if Z.of_nat (length g) mod 8 =? 7 then str "@" else [].
