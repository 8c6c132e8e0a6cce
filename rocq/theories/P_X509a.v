(* DER written by the model is read by the specification. *)
From Verif Require Import Base M_Crypto P_Crypto M_Cose M_Str M_X509 S_X509.

Lemma big_bytes_ge n : 0 < n -> 256 ^ (len (big_bytes n) - 1) <= n.
Proof.
  intro P. rewrite big_bytes_len.
  assert (S : N.size n = N.succ (N.log2 n)) by (apply N.size_log2; lia).
  pose proof (N.log2_spec n P) as [L _]. rewrite S.
  change 256 with (2 ^ 8). rewrite <- N.pow_mul_r. eapply N.le_trans; [|exact L].
  apply N.pow_le_mono_r; [lia|].
  assert ((N.succ (N.log2 n) + 7) / 8 * 8 <= N.succ (N.log2 n) + 7) by (rewrite N.mul_comm; apply N.mul_div_le; lia).
  remember ((N.succ (N.log2 n) + 7) / 8) as q. destruct (N.eq_dec q 0) as [->|]; lia.
Qed.

Lemma element_asn1 tag c rest : tag mod 32 <> 31 -> len c < 4294967296 ->
  element (asn1 tag c ++ rest) = Some (tag, c, asn1 tag c, rest).
Proof.
  intros T L. unfold asn1, asn1_length. destruct (len c <? 128) eqn:S.
  - cbn [app element]. rewrite S. cbn iota beta. rewrite dropN_0, (proj2 (N.eqb_neq _ _) T).
    replace (len c <=? len (c ++ rest)) with true by (rewrite len_app; lia). cbn [negb andb].
    rewrite takeN_exact, dropN_exact, takeN_0 by reflexivity. reflexivity.
  - cbn [app element]. set (b := big_bytes (len c)).
    assert (Lb : 1 <= len b <= 4).
    { split; [|apply (big_bytes_le 4); exact L]. unfold b. rewrite big_bytes_len.
      assert (N.size (len c) <> 0) by (destruct (len c); [discriminate S|discriminate]). apply N.div_le_lower_bound; lia. }
    replace (128 + len b <? 128) with false by lia. replace (128 + len b - 128) with (len b) by lia.
    rewrite <- !app_assoc. rewrite takeN_exact, dropN_exact by reflexivity.
    assert (BD : be_dec b = len c) by apply big_set_bytes. rewrite !BD.
    replace (1 <=? len b) with true by lia. replace (len b <=? 4) with true by lia.
    replace (len b <=? len (b ++ c ++ rest)) with true by (rewrite len_app; lia).
    replace (128 <=? len c) with true by lia.
    replace (256 ^ (len b - 1) <=? len c) with true by (symmetry; apply N.leb_le, big_bytes_ge; lia).
    cbn [andb]. rewrite (proj2 (N.eqb_neq _ _) T).
    replace (len c <=? len (c ++ rest)) with true by (rewrite len_app; lia). cbn [negb andb].
        rewrite takeN_exact, dropN_exact by reflexivity. reflexivity.
Qed.

Lemma element_split b t c e rest : element b = Some (t, c, e, rest) ->
  b = e ++ rest /\ (2 <= length e)%nat /\ len c < len e /\ forall r, element (e ++ r) = Some (t, c, e, r).
Proof.
  destruct b as [|tag [|l b]]; try discriminate. unfold element. cbn iota beta.
  destruct (l <? 128) eqn:L.
  - cbn iota beta. rewrite dropN_0, takeN_0. destruct (negb _ && _) eqn:G; [|discriminate].
    intro H. injection H as <- <- <- <-. apply andb_prop in G as [G1 G2]. apply N.leb_le in G2. cbn [app].
    split; [now rewrite takeN_dropN|]. split; [cbn; lia|]. split; [rewrite !len_cons; lia|]. intro r. rewrite L. cbn iota beta.
    rewrite dropN_0, takeN_0. assert (T : len (takeN l b) = l) by (rewrite takeN_len; lia).
    rewrite G1. replace (l <=? len (takeN l b ++ r)) with true by (rewrite len_app; lia). cbn [andb app].
    now rewrite takeN_exact, dropN_exact by exact T.
  - set (n := l - 128). set (v := be_dec (takeN n b)). destruct (_ && _ && _ && _ && _) eqn:G; [|discriminate]. cbn iota beta.
    destruct (negb _ && _) eqn:G'; [|discriminate]. intro H. injection H as <- <- <- <-.
    apply andb_prop in G' as [G1 G2]. apply N.leb_le in G2.
    repeat match goal with H : (_ && _)%bool = true |- _ => apply andb_prop in H as [? ?] end.
    repeat match goal with H : (_ <=? _) = true |- _ => apply N.leb_le in H end.
    assert (Tn : len (takeN n b) = n) by (rewrite takeN_len; lia).
    assert (Tv : len (takeN v (dropN n b)) = v) by (rewrite takeN_len; lia).
    cbn [app]. split; [now rewrite <- app_assoc, !takeN_dropN|]. split; [cbn; lia|].
    split; [rewrite !len_cons, len_app; lia|]. intro r. rewrite L. fold n. rewrite <- app_assoc.
    rewrite (takeN_exact (takeN n b)), (dropN_exact (takeN n b)) by exact Tn. fold v.
    replace ((1 <=? n) && (n <=? 4) && (n <=? len (takeN n b ++ takeN v (dropN n b) ++ r)) && (128 <=? v) && (256 ^ (n - 1) <=? v)) with true.
    2:{ symmetry. rewrite !andb_true_iff, !N.leb_le, len_app. repeat split; lia. }
    rewrite G1. replace (v <=? len (takeN v (dropN n b) ++ r)) with true by (rewrite len_app; lia). cbn [andb].
    now rewrite takeN_exact, dropN_exact by exact Tv.
Qed.

Lemma elements_fuel f : forall g b, (length b <= f)%nat -> (length b <= g)%nat -> elements_upto f b = elements_upto g b.
Proof.
  induction f as [|f IH]; intros g b F G; destruct b as [|x b]; cbn [length] in *.
  - destruct g; reflexivity.
  - lia.
  - destruct g; reflexivity.
  - destruct g as [|g]; [lia|]. cbn [elements_upto]. destruct (element (x :: b)) as [[[[t c] e] rest]|] eqn:E; [|reflexivity].
    destruct (element_split _ _ _ _ _ E) as (Q & Le & _).
    assert (S (length b) = length e + length rest)%nat by (apply (f_equal (@length N)) in Q; rewrite app_length in Q; exact Q).
    now rewrite (IH g rest) by lia.
Qed.

Lemma elements_whole e t c rest : element e = Some (t, c, e, []) ->
  elements (e ++ rest) = match elements rest with Some l => Some ((t, c) :: l) | None => None end.
Proof.
  intro E. destruct (element_split _ _ _ _ _ E) as (_ & Le & _ & Er). unfold elements.
  destruct (e ++ rest) as [|x b] eqn:Q; [destruct e; [cbn in Le; lia|discriminate Q]|].
  cbn [length elements_upto]. rewrite <- Q, (Er rest). rewrite (elements_fuel (length b) (length rest)); [reflexivity| |lia].
  apply (f_equal (@length N)) in Q. rewrite app_length in Q. cbn in Q. lia.
Qed.

Lemma whole_asn1 tag c : tag mod 32 <> 31 -> len c < 4294967296 -> element (asn1 tag c) = Some (tag, c, asn1 tag c, []).
Proof. intros T L. rewrite <- (app_nil_r (asn1 tag c)) at 1. now apply element_asn1. Qed.

Lemma elements_asn1 tag c rest : tag mod 32 <> 31 -> len c < 4294967296 ->
  elements (asn1 tag c ++ rest) = match elements rest with Some l => Some ((tag, c) :: l) | None => None end.
Proof. intros T L. now apply elements_whole, whole_asn1. Qed.

Lemma len_asn1 tag c : len c + 2 <= len (asn1 tag c).
Proof.
  unfold asn1, asn1_length. rewrite len_cons, len_app. destruct (len c <? 128); [change (len [len c]) with 1; lia|]. rewrite len_cons. lia.
Qed.

(* the reader of the model is the one of the specification *)
Lemma read_asn1_element b : read_asn1 b = element b.
Proof.
  destruct b as [|tag [|l b]]; try reflexivity. unfold read_asn1, element. destruct (tag mod 32 =? 31) eqn:T.
  { destruct (l <? 128).
    - cbn [negb andb]. reflexivity.
    - destruct (_ && _ && _ && _ && _); cbn [negb andb]; reflexivity. }
  cbn [negb andb]. destruct (l <? 128) eqn:L.
  - cbn iota beta. rewrite dropN_0, takeN_0. cbn [app]. destruct (len b <? l) eqn:Sz.
    + replace (l <=? len b) with false by lia. reflexivity.
    + replace (l <=? len b) with true by lia. do 3 f_equal. unfold takeN. replace (N.to_nat (2 + l)) with (S (S (N.to_nat l))) by lia. reflexivity.
  - set (n := l - 128). set (v := be_dec (takeN n b)).
    destruct (n =? 0) eqn:N0; [replace (1 <=? n) with false by lia; reflexivity|].
    replace (1 <=? n) with true by lia. destruct (4 <? n) eqn:N4; [replace (n <=? 4) with false by lia; reflexivity|].
    replace (n <=? 4) with true by lia. destruct (len b <? n) eqn:Nb; [replace (n <=? len b) with false by lia; reflexivity|].
    replace (n <=? len b) with true by lia. cbn [orb andb]. destruct (v <? 128) eqn:V; [replace (128 <=? v) with false by lia; reflexivity|].
    replace (128 <=? v) with true by lia. cbn [orb andb].
    assert (P : 256 ^ (n - 1) <> 0) by (apply N.pow_nonzero; lia).
    destruct (v / 256 ^ (n - 1) =? 0) eqn:D.
    + apply N.eqb_eq in D. replace (256 ^ (n - 1) <=? v) with false; [reflexivity|]. symmetry. apply N.leb_gt.
      apply N.div_small_iff in D; assumption.
    + apply N.eqb_neq in D. replace (256 ^ (n - 1) <=? v) with true.
      2:{ symmetry. apply N.leb_le. destruct (N.le_gt_cases (256 ^ (n - 1)) v) as [|G]; [assumption|]. now apply N.div_small in G. }
      destruct (len (dropN n b) <? v) eqn:Sz.
      * replace (v <=? len (dropN n b)) with false by lia. reflexivity.
      * replace (v <=? len (dropN n b)) with true by lia. do 3 f_equal.
        replace (2 + n + v) with (2 + (n + v)) by lia. unfold takeN at 1. replace (N.to_nat (2 + (n + v))) with (S (S (N.to_nat (n + v)))) by lia.
        cbn [firstn]. do 2 f_equal. fold (takeN (n + v) b). rewrite <- (takeN_dropN n b) at 1. rewrite takeN_app.
        assert (Tn : len (takeN n b) = n) by (rewrite takeN_len; lia). rewrite Tn, takeN_all by lia. do 2 f_equal. lia.
Qed.
