(* Specification: field names that differ only in the case of ASCII letters. *)
From Verif Require Import Base M_Cbor.

(* The same character, or the upper and the lower case form of one letter. *)
Definition same_letter (a b : N) : Prop :=
  a = b \/ (97 <= a <= 122 /\ b = a - 32) \/ (97 <= b <= 122 /\ a = b - 32).
Definition recased (s t : bytes) : Prop := Forall2 same_letter s t.
Definition ascii (s : bytes) : Prop := Forall (fun b => b < 128) s.

(* Two maps that differ only in the case of their text keys. *)
Definition recased_entry (p q : cbor * cbor) : Prop :=
  snd p = snd q /\
  (fst p = fst q \/ exists s t, fst p = CText s /\ fst q = CText t /\ ascii s /\ recased s t).
