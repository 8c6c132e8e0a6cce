(* Field names are matched without regard to case. *)
From Verif Require Import Base M_Utf8 M_Cbor M_Ctap S_Fold.
From Coq Require Import Lia.

Lemma utf8_ascii s : ascii s -> utf8_valid s = true.
Proof. induction 1; [reflexivity|]. cbn [utf8_valid]. now replace (x <? 128) with true by lia. Qed.

Definition lower (b : N) : N := if (65 <=? b) && (b <=? 90) then b + 32 else b.

Lemma fold_ascii s : ascii s -> fold_case s = map lower s.
Proof.
  induction 1 as [|a s A F IH]; [reflexivity|]. cbn [map]. rewrite <- IH. unfold lower. cbn [fold_case].
  destruct ((65 <=? a) && (a <=? 90)) eqn:E; [reflexivity|].
  destruct s as [|b s]; [reflexivity|]. replace (a =? 197) with false by lia. cbn [andb].
  destruct s as [|c s]; [reflexivity|]. replace (a =? 226) with false by lia. reflexivity.
Qed.

Lemma lower_same a b : same_letter a b -> lower a = lower b.
Proof.
  unfold same_letter, lower. intros [->|[[A ->]|[A ->]]]; [reflexivity| |].
  - replace ((65 <=? a) && (a <=? 90)) with false by lia. replace ((65 <=? a - 32) && (a - 32 <=? 90)) with true by lia. lia.
  - replace ((65 <=? b) && (b <=? 90)) with false by lia. replace ((65 <=? b - 32) && (b - 32 <=? 90)) with true by lia. lia.
Qed.

Lemma recased_ascii s t : recased s t -> ascii s -> ascii t.
Proof.
  induction 1 as [|a b s t S R IH]; intro A; [constructor|]. apply Forall_cons_iff in A as [A B].
  constructor; [|exact (IH B)]. unfold same_letter in S. lia.
Qed.

Lemma recased_fold s t : ascii s -> recased s t -> fold_case s = fold_case t.
Proof.
  intros A R. rewrite !fold_ascii by eauto using recased_ascii. clear A.
  induction R as [|a b s t S R IH]; [reflexivity|]. cbn [map]. now rewrite (lower_same a b S), IH.
Qed.

Lemma recased_length s t : recased s t -> length s = length t.
Proof. induction 1; cbn [length]; congruence. Qed.

Lemma recased_key n p q : recased_entry p q -> text_key n (fst p) = text_key n (fst q).
Proof.
  intros [_ [->|(s & t & -> & -> & A & R)]]; [reflexivity|]. cbn [text_key].
  rewrite (recased_length s t R). unfold equal_fold. now rewrite (recased_fold s t A R).
Qed.

Lemma recased_lookup n l m : Forall2 recased_entry l m -> lookup (text_key n) l = lookup (text_key n) m.
Proof.
  induction 1 as [|[k v] [k' v'] l m R F IH]; [reflexivity|]. cbn [lookup]. rewrite <- IH.
  pose proof (recased_key n _ _ R) as K. cbn [fst] in K. rewrite K. destruct R as [V _]. cbn [snd] in V. now rewrite V.
Qed.

Lemma recased_ok l m : Forall2 recased_entry l m ->
  forallb (fun p => key_ok (fst p)) l = forallb (fun p => key_ok (fst p)) m.
Proof.
  induction 1 as [|p q l m [_ R] F IH]; [reflexivity|]. cbn [forallb]. rewrite IH. f_equal.
  destruct R as [->|(s & t & -> & -> & A & R)]; [reflexivity|]. cbn [key_ok]. rewrite !utf8_ascii; eauto using recased_ascii.
Qed.

Lemma recased_structs l m : Forall2 recased_entry l m ->
  dec_rp (CMap l) = dec_rp (CMap m) /\ dec_user (CMap l) = dec_user (CMap m) /\
  dec_descriptor (CMap l) = dec_descriptor (CMap m) /\ dec_param (CMap l) = dec_param (CMap m) /\
  dec_options (CMap l) = dec_options (CMap m) /\ dec_get_options (CMap l) = dec_get_options (CMap m).
Proof.
  intro R.
  assert (E : forall A (f : list (cbor * cbor) -> option A), f l = f m ->
    (let! x := dec_entries (CMap l) in f x) = (let! x := dec_entries (CMap m) in f x)).
  { intros A f F. change (dec_entries (CMap l)) with (if forallb (fun p => key_ok (fst p)) l then Some l else None).
    change (dec_entries (CMap m)) with (if forallb (fun p => key_ok (fst p)) m then Some m else None).
    rewrite (recased_ok l m R). now destruct (forallb _ m). }
  assert (G : forall A n (f : cbor -> option A), get_text n f l = get_text n f m).
  { intros. unfold get_text. now rewrite (recased_lookup n l m R). }
  repeat split; apply E; now rewrite !G.
Qed.
