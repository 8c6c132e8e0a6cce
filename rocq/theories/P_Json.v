(* Proofs about the JSON model: what the encoder writes is read back. *)
From Verif Require Import Base M_Utf8 M_Cbor M_Json S_Cbor P_Cbor P_Cbor2.

(* ------------------------------------------------------------------ *)
(* Runes                                                               *)

Lemma cont_of b : 128 <= b -> b < 192 -> cont b = true.
Proof. intros. unfold cont. apply andb_true_intro. split; [apply N.leb_le|apply N.ltb_lt]; lia. Qed.

Definition decodes (s : bytes) (c : N) (r : bytes) : Prop :=
  match s with b :: t => decode_rune b t = (Some c, r) | [] => False end.

Lemma decode_utf8 c r : scalar c -> decodes (utf8_enc c ++ r) c r.
Proof.
  intro H. unfold scalar in H. unfold utf8_enc.
  destruct (N.ltb_spec c 128).
  { cbn [app decodes]. unfold decode_rune. now replace (c <? 128) with true by (symmetry; now apply N.ltb_lt). }
  destruct (N.ltb_spec c 2048).
  { cbn [app decodes]. unfold decode_rune.
    replace (192 + c / 64 <? 128) with false by (symmetry; apply N.ltb_ge; lia).
    rewrite cont_of by lia.
    replace (194 <=? 192 + c / 64) with true by (symmetry; apply N.leb_le; lia).
    replace (192 + c / 64 <? 224) with true by (symmetry; apply N.ltb_lt; lia).
    cbn [andb]. do 2 f_equal. lia. }
  destruct (N.ltb_spec c 65536).
  { cbn [app decodes]. unfold decode_rune.
    replace (224 + c / 4096 <? 128) with false by (symmetry; apply N.ltb_ge; lia).
    replace (224 + c / 4096 <? 224) with false by (symmetry; apply N.ltb_ge; lia).
    rewrite andb_false_r. cbn [andb].
    replace (224 <=? 224 + c / 4096) with true by (symmetry; apply N.leb_le; lia).
    replace (224 + c / 4096 <? 240) with true by (symmetry; apply N.ltb_lt; lia).
    rewrite !cont_of by lia. cbn [andb].
    replace (if 224 + c / 4096 =? 224 then 160 <=? 128 + c / 64 mod 64
             else if 224 + c / 4096 =? 237 then 128 + c / 64 mod 64 <? 160 else true) with true.
    2:{ destruct (N.eqb_spec (224 + c / 4096) 224); [symmetry; apply N.leb_le; lia|].
        destruct (N.eqb_spec (224 + c / 4096) 237); [symmetry; apply N.ltb_lt; lia|reflexivity]. }
    do 2 f_equal. lia. }
  cbn [app decodes]. unfold decode_rune.
  replace (240 + c / 262144 <? 128) with false by (symmetry; apply N.ltb_ge; lia).
  replace (240 + c / 262144 <? 224) with false by (symmetry; apply N.ltb_ge; lia).
  replace (240 + c / 262144 <? 240) with false by (symmetry; apply N.ltb_ge; lia).
  rewrite !andb_false_r. cbn [andb].
  replace (240 <=? 240 + c / 262144) with true by (symmetry; apply N.leb_le; lia).
  replace (240 + c / 262144 <? 245) with true by (symmetry; apply N.ltb_lt; lia).
  rewrite !cont_of by lia. cbn [andb].
  replace (if 240 + c / 262144 =? 240 then 144 <=? 128 + c / 4096 mod 64
           else if 240 + c / 262144 =? 244 then 128 + c / 4096 mod 64 <? 144 else true) with true.
  2:{ destruct (N.eqb_spec (240 + c / 262144) 240); [symmetry; apply N.leb_le; lia|].
      destruct (N.eqb_spec (240 + c / 262144) 244); [symmetry; apply N.ltb_lt; lia|reflexivity]. }
  do 2 f_equal. lia.
Qed.

Lemma encode_rune_utf8 c : scalar c -> encode_rune c = utf8_enc c.
Proof.
  intro H. unfold scalar in H. unfold encode_rune, utf8_enc.
  destruct (N.ltb_spec c 128); [reflexivity|].
  destruct (N.ltb_spec c 2048); [reflexivity|].
  replace (1114112 <=? c) with false by (symmetry; apply N.leb_gt; lia).
  replace ((55296 <=? c) && (c <? 57344)) with false; [reflexivity|].
  symmetry. apply andb_false_iff. destruct (N.leb_spec 55296 c); [right|now left]. apply N.ltb_ge. lia.
Qed.

Lemma utf8_enc_cons c : exists b r, utf8_enc c = b :: r.
Proof.
  unfold utf8_enc. destruct (c <? 128); [eauto|]. destruct (c <? 2048); [eauto|].
  destruct (c <? 65536); eauto.
Qed.

Lemma runes_utf8 cs : Forall scalar cs -> forall f, (length (flat_map utf8_enc cs) <= f)%nat ->
  runes f (flat_map utf8_enc cs) = map Some cs.
Proof.
  induction 1 as [|c cs Hc _ IH]; intros f Hf; cbn [flat_map map] in *; [now destruct f|].
  pose proof (decode_utf8 c (flat_map utf8_enc cs) Hc) as D.
  destruct (utf8_enc_cons c) as (b & t & E). rewrite E in *. cbn [app] in *. cbn in D.
  destruct f; [cbn in Hf; lia|]. cbn [runes]. rewrite D.
  f_equal. apply IH. cbn in Hf. rewrite app_length in Hf. lia.
Qed.

(* ------------------------------------------------------------------ *)
(* Strings                                                             *)

Lemma hex_val_digit n : n < 16 -> hex_val (hex_digit n) = Some n.
Proof.
  intro H.
  assert (C : n = 0 \/ n = 1 \/ n = 2 \/ n = 3 \/ n = 4 \/ n = 5 \/ n = 6 \/ n = 7 \/ n = 8 \/ n = 9 \/
    n = 10 \/ n = 11 \/ n = 12 \/ n = 13 \/ n = 14 \/ n = 15) by lia.
  repeat (destruct C as [->|C]; [reflexivity|]). now subst.
Qed.

Lemma hex4_uesc c r : c < 65536 ->
  hex4 (hex_digit (c / 4096 mod 16) :: hex_digit (c / 256 mod 16) :: hex_digit (c / 16 mod 16) ::
        hex_digit (c mod 16) :: r) = Some (c, r).
Proof.
  intro H. unfold hex4. rewrite !hex_val_digit by lia. cbn [obind]. do 2 f_equal. lia.
Qed.

Lemma parse_esc c r f : scalar c ->
  parse_str (S f) (esc_rune (Some c) ++ r) =
  pbind (parse_str f r) (fun t r => POk (utf8_enc c ++ t) r).
Proof.
  intro H. unfold esc_rune.
  assert (U : forall c, c < 55296 -> parse_str (S f) (uesc c ++ r) =
     pbind (parse_str f r) (fun t r => POk (encode_rune c ++ t) r)).
  { intros d Hd. unfold uesc. cbn [app parse_str]. change (92 =? 34) with false. change (92 =? 92) with true.
    change ((117 =? 34) || (117 =? 92) || (117 =? 47)) with false.
    change (117 =? 98) with false. change (117 =? 102) with false. change (117 =? 110) with false.
    change (117 =? 114) with false. change (117 =? 116) with false. change (117 =? 117) with true.
    cbv iota. unfold unescape_u. rewrite hex4_uesc by lia. cbn [obind].
    now replace (55296 <=? d) with false by (symmetry; apply N.leb_gt; lia). }
  destruct (N.eqb_spec c 34) as [->|n1]; [reflexivity|].
  destruct (N.eqb_spec c 92) as [->|n2]; [reflexivity|].
  destruct (N.eqb_spec c 10) as [->|n3]; [reflexivity|].
  destruct (N.eqb_spec c 13) as [->|n4]; [reflexivity|].
  destruct (N.eqb_spec c 9) as [->|n5]; [reflexivity|].
  cbn [orb].
  destruct ((c <? 32) || (c =? 60) || (c =? 62) || (c =? 38)) eqn:E1.
  { rewrite U, encode_rune_utf8; [reflexivity|assumption|].
    rewrite !orb_true_iff, N.ltb_lt, !N.eqb_eq in E1. lia. }
  destruct ((c =? 8232) || (c =? 8233)) eqn:E2.
  { rewrite U, encode_rune_utf8; [reflexivity|assumption|].
    rewrite !orb_true_iff, !N.eqb_eq in E2. lia. }
  apply orb_false_iff in E1. destruct E1 as [E1 _]. apply orb_false_iff in E1. destruct E1 as [E1 _].
  apply orb_false_iff in E1. destruct E1 as [E1 _]. apply N.ltb_ge in E1.
  rewrite encode_rune_utf8 by assumption.
  pose proof (decode_utf8 c r H) as D.
  assert (B : exists b t, utf8_enc c = b :: t /\ b <> 34 /\ b <> 92 /\ 32 <= b).
  { unfold utf8_enc. destruct (N.ltb_spec c 128); [|destruct (N.ltb_spec c 2048); [|destruct (N.ltb_spec c 65536)]];
      (do 2 eexists; split; [reflexivity|]); lia. }
  destruct B as (b & t & E & B1 & B2 & B3). rewrite E in D |- *. cbn [app] in D |- *. cbn [decodes] in D.
  cbn [parse_str].
  replace (b =? 34) with false by (symmetry; now apply N.eqb_neq).
  replace (b =? 92) with false by (symmetry; now apply N.eqb_neq).
  replace (b <? 32) with false by (symmetry; now apply N.ltb_ge).
  rewrite D. cbn [or_error]. rewrite encode_rune_utf8 by assumption. now rewrite E.
Qed.

Lemma esc_len r : (1 <= length (esc_rune r))%nat.
Proof.
  unfold esc_rune, encode_rune. destruct r as [c|]; [|cbn; lia].
  repeat match goal with |- context [if ?b then _ else _] => destruct b end; cbn; lia.
Qed.

Lemma parse_str_ok cs r : Forall scalar cs -> forall f,
  (length (flat_map esc_rune (map Some cs)) < f)%nat ->
  parse_str f (flat_map esc_rune (map Some cs) ++ 34 :: r) = POk (flat_map utf8_enc cs) r.
Proof.
  induction 1 as [|c cs Hc _ IH]; intros f Hf; destruct f; try lia; [reflexivity|].
  cbn [map flat_map] in *. rewrite <- app_assoc, parse_esc by assumption.
  rewrite app_length in Hf. pose proof (esc_len (Some c)).
  rewrite IH by lia. reflexivity.
Qed.

Lemma parse_enc_string s r : utf8_text s ->
  exists t, enc_string s ++ r = 34 :: t /\ parse_str (S (length t)) t = POk s r.
Proof.
  intros (cs & H & ->). unfold enc_string. rewrite runes_utf8 by (assumption || lia).
  cbn [app]. rewrite <- app_assoc. cbn [app]. eexists. split; [reflexivity|].
  apply parse_str_ok; [assumption|]. rewrite app_length. cbn. lia.
Qed.

(* ------------------------------------------------------------------ *)
(* Numbers                                                             *)

Definition no_digit (r : bytes) : Prop := match r with b :: _ => is_digit b = false | [] => True end.

Lemma span_app d r : Forall (fun b => is_digit b = true) d -> no_digit r -> span_digits (d ++ r) = (d, r).
Proof.
  intros H Hr. induction H as [|b d Hb _ IH]; cbn [app].
  - destruct r as [|b r]; [reflexivity|]. cbn in *. now rewrite Hr.
  - cbn [span_digits]. now rewrite Hb, IH.
Qed.

Lemma digit_ok n : n < 10 -> is_digit (48 + n) = true.
Proof. intro. unfold is_digit. apply andb_true_intro. split; apply N.leb_le; lia. Qed.

Lemma digits_ok f n : n < 2 ^ N.of_nat f ->
  Forall (fun b => is_digit b = true) (digits (S f) n) /\ digits_val (digits (S f) n) = n /\
  (exists b t, digits (S f) n = b :: t /\ ((b = 48 /\ t = [] /\ n = 0) \/ (b <> 48 /\ 0 < n))).
Proof.
  revert n. induction f as [|f IH]; intros n Hn.
  { assert (n = 0) by (change (2 ^ N.of_nat 0) with 1 in Hn; lia). subst. cbn.
    split; [repeat constructor|]. split; [reflexivity|]. do 2 eexists. split; [reflexivity|]. left. auto. }
  remember (S f) as g. cbn [digits]. destruct (N.ltb_spec n 10) as [L|L].
  - split; [constructor; [now apply digit_ok|constructor]|].
    split; [unfold digits_val; cbn [fold_left]; lia|]. do 2 eexists. split; [reflexivity|].
    destruct (N.eq_dec n 0) as [->|]; [left; auto|right; lia].
  - subst g. destruct (IH (n / 10)) as (A & B & b & t & E & C).
    { rewrite Nat2N.inj_succ, N.pow_succ_r' in Hn. lia. }
    split; [apply Forall_app; split; [exact A|constructor; [|constructor]]; apply digit_ok; lia|].
    split.
    + unfold digits_val in *. rewrite fold_left_app, B. cbn [fold_left]. lia.
    + rewrite E. exists b, (t ++ [48 + n mod 10]). split; [reflexivity|].
      destruct C as [(_ & _ & C)|C]; [lia|right; lia].
Qed.

Lemma size_bound n : n < 2 ^ N.size n.
Proof. destruct n; [reflexivity|]. apply N.size_gt. Qed.

(* What may follow a number: neither a digit nor '.', 'e' or 'E'. *)
Definition num_end (r : bytes) : Prop :=
  match r with b :: _ => is_digit b = false /\ b <> 46 /\ b <> 101 /\ b <> 69 | [] => True end.

Lemma parse_unsigned_ok n r : num_end r -> parse_unsigned (enc_nat n ++ r) = POk (Some n) r.
Proof.
  intro Hr. unfold enc_nat. destruct (digits_ok (N.to_nat (N.size n)) n) as (A & B & b & t & E & C).
  { rewrite N2Nat.id. apply size_bound. }
  remember (digits (S (N.to_nat (N.size n))) n) as d. clear Heqd.
  unfold parse_unsigned. rewrite span_app; [|assumption|destruct r; cbn in *; tauto].
  subst d.
  assert (R : parse_frac r = Some (false, r)).
  { destruct r as [|c r]; [reflexivity|]. destruct Hr as (_ & Hr & _).
    destruct c as [|p]; [reflexivity|]. do 6 (destruct p as [p|p|]; try reflexivity). congruence. }
  assert (K : (b =? 48) = true -> t = []).
  { intro K. apply N.eqb_eq in K. destruct C as [(_ & -> & _)|[C _]]; [reflexivity|congruence]. }
  destruct (b =? 48) eqn:Eb; [rewrite (K eq_refl) in *; cbn [app]|]; rewrite R, B;
  (destruct r as [|c r]; [reflexivity|]); destruct Hr as (_ & _ & H1 & H2);
  replace (c =? 101) with false by (symmetry; now apply N.eqb_neq);
  now replace (c =? 69) with false by (symmetry; now apply N.eqb_neq).
Qed.

Lemma enc_nat_head n : exists b t, enc_nat n = b :: t /\ is_digit b = true.
Proof.
  unfold enc_nat. destruct (digits_ok (N.to_nat (N.size n)) n) as (A & B & b & t & E & C).
  { rewrite N2Nat.id. apply size_bound. }
  rewrite E in *. exists b, t. split; [reflexivity|]. now inversion A.
Qed.

(* ------------------------------------------------------------------ *)
(* Values                                                              *)

Fixpoint jok (v : json) : Prop :=
  match v with
  | JReal => False
  | JStr s => utf8_text s
  | JArr l => (fix all l := match l with [] => True | v :: l => jok v /\ all l end) l
  | JObj l => (fix all l := match l with [] => True | (k, v) :: l => utf8_text k /\ jok v /\ all l end) l
  | _ => True
  end.

Lemma jok_arr l : jok (JArr l) <-> Forall jok l.
Proof.
  cbn. induction l as [|v l IH]; [split; intro; auto|]. split; intro H.
  - constructor; [apply H|apply IH, H].
  - inversion H; subst. tauto.
Qed.

Lemma jok_obj l : jok (JObj l) <-> Forall (fun p => utf8_text (fst p) /\ jok (snd p)) l.
Proof.
  cbn. induction l as [|(k, v) l IH]; [split; intro; auto|]. split; intro H.
  - constructor; [cbn; tauto|apply IH, H].
  - inversion H; subst. cbn in *. tauto.
Qed.

Fixpoint jsize (v : json) : nat :=
  match v with
  | JArr l => S (fold_right (fun v n => S (jsize v + n)) O l)
  | JObj l => S (fold_right (fun p n => S (jsize (snd p) + n)) O l)
  | _ => 1%nat
  end.

(* First bytes of encoded values. *)
Lemma is_digit_range b : is_digit b = true -> 48 <= b /\ b <= 57.
Proof. unfold is_digit. intro H. apply andb_prop in H. now rewrite !N.leb_le in H. Qed.

Lemma jenc_head v : jok v -> exists b t, jenc v = b :: t /\ is_ws b = false /\ b <> 93 /\ b <> 125.
Proof.
  assert (W : forall b, 33 <= b -> is_ws b = false).
  { intros b Hb. unfold is_ws. rewrite !orb_false_iff, !N.eqb_neq. lia. }
  destruct v as [|[]|z| |s|l|l]; intro H; cbn [jenc]; try contradiction;
    try (do 2 eexists; split; [reflexivity|]; split; [reflexivity|split; discriminate]).
  unfold enc_int. destruct (z <? 0)%Z.
  - do 2 eexists; split; [reflexivity|]; split; [reflexivity|split; discriminate].
  - destruct (enc_nat_head (Z.to_N z)) as (b & t & E & D). rewrite E.
    apply is_digit_range in D. do 2 eexists. split; [reflexivity|]. split; [apply W; lia|lia].
Qed.

Lemma skip_ws_hd b r : is_ws b = false -> skip_ws (b :: r) = b :: r.
Proof. intro H. cbn. now rewrite H. Qed.

Lemma eat_not c b r : b <> c -> eat [c] (b :: r) = None.
Proof. intro H. cbn [eat]. now replace (c =? b) with false by (symmetry; apply N.eqb_neq; congruence). Qed.

Definition member (p : bytes * json) : bytes := enc_string (fst p) ++ 58 :: jenc (snd p).

Lemma sep_cons a l : l <> [] -> sep (a :: l) = a ++ 44 :: sep l.
Proof. destruct l; [congruence|reflexivity]. Qed.

Lemma parse_jenc f :
  (forall v r, (jsize v <= f)%nat -> jok v -> num_end r -> parse_val f (jenc v ++ r) = POk v r) /\
  (forall l r, l <> [] -> (fold_right (fun p n => S (jsize (snd p) + n)) O l <= f)%nat ->
     Forall (fun p => utf8_text (fst p) /\ jok (snd p)) l ->
     parse_members f (sep (map member l) ++ 125 :: r) = POk l r) /\
  (forall l r, l <> [] -> (fold_right (fun v n => S (jsize v + n)) O l <= f)%nat -> Forall jok l ->
     parse_elems f (sep (map jenc l) ++ 93 :: r) = POk l r).
Proof.
  induction f as [|f (IHv & IHm & IHe)].
  { split; [|split].
    - intros v r H. destruct v; cbn in H; lia.
    - intros [|p l] r Hl H; [congruence|cbn in H; lia].
    - intros [|p l] r Hl H; [congruence|cbn in H; lia]. }
  split; [|split].
  - intros v r Hf Hok Hr. destruct v as [|[]|z| |s|l|l].
    + reflexivity.
    + reflexivity.
    + reflexivity.
    + cbn [jenc]. unfold enc_int. destruct (Z.ltb_spec z 0) as [L|L].
      * cbn [app parse_val skip_ws]. change (is_ws 45) with false. cbv iota.
        change (45 =? 123) with false. change (45 =? 91) with false. change (45 =? 34) with false.
        change (45 =? 110) with false. change (45 =? 116) with false. change (45 =? 102) with false.
        change (45 =? 45) with true. cbv iota. rewrite parse_unsigned_ok by assumption. cbn [pbind].
        do 2 f_equal. lia.
      * destruct (enc_nat_head (Z.to_N z)) as (b & t & E & D).
        pose proof (parse_unsigned_ok (Z.to_N z) r Hr) as P. rewrite E in *. cbn [app] in *.
        cbn [parse_val]. pose proof (is_digit_range b D).
        rewrite skip_ws_hd by (unfold is_ws; rewrite !orb_false_iff, !N.eqb_neq; lia).
        replace (b =? 123) with false by (symmetry; apply N.eqb_neq; lia).
        replace (b =? 91) with false by (symmetry; apply N.eqb_neq; lia).
        replace (b =? 34) with false by (symmetry; apply N.eqb_neq; lia).
        replace (b =? 110) with false by (symmetry; apply N.eqb_neq; lia).
        replace (b =? 116) with false by (symmetry; apply N.eqb_neq; lia).
        replace (b =? 102) with false by (symmetry; apply N.eqb_neq; lia).
        replace (b =? 45) with false by (symmetry; apply N.eqb_neq; lia).
        rewrite D, P. cbn [pbind]. do 2 f_equal. lia.
    + contradiction.
    + cbn [jenc]. destruct (parse_enc_string s r Hok) as (t & E & P). rewrite E.
      cbn [parse_val skip_ws]. change (is_ws 34) with false. cbv iota.
      change (34 =? 123) with false. change (34 =? 91) with false. change (34 =? 34) with true. cbv iota.
      rewrite P. reflexivity.
    + apply jok_arr in Hok. cbn [jenc]. rewrite <- app_comm_cons, <- app_assoc.
      change ([93] ++ r) with (93 :: r).
      cbn [parse_val skip_ws]. change (is_ws 91) with false. cbv iota.
      change (91 =? 123) with false. change (91 =? 91) with true. cbv iota.
      destruct l as [|v l]; [reflexivity|].
      assert (P := IHe (v :: l) r ltac:(discriminate) ltac:(cbn in Hf |- *; lia) Hok).
      destruct (jenc_head v) as (b & t & E & W & N1 & N2); [now inversion Hok|].
      assert (Q : exists u, sep (map jenc (v :: l)) ++ 93 :: r = b :: u).
      { cbn [map]. destruct l as [|w l]; [cbn; rewrite E; eexists; reflexivity|].
        rewrite sep_cons by discriminate. rewrite E. eexists; reflexivity. }
      destruct Q as (u & Q). rewrite Q in *. rewrite skip_ws_hd by assumption.
      rewrite eat_not by assumption. rewrite P. reflexivity.
    + apply jok_obj in Hok. cbn [jenc]. rewrite <- app_comm_cons, <- app_assoc.
      change ([125] ++ r) with (125 :: r).
      cbn [parse_val skip_ws]. change (is_ws 123) with false. cbv iota.
      change (123 =? 123) with true. cbv iota.
      destruct l as [|p l]; [reflexivity|].
      assert (P := IHm (p :: l) r ltac:(discriminate) ltac:(cbn in Hf |- *; lia) Hok).
      change (map (fun p0 => enc_string (fst p0) ++ 58 :: jenc (snd p0)) (p :: l)) with (map member (p :: l)).
      assert (Q : exists u, sep (map member (p :: l)) ++ 125 :: r = 34 :: u).
      { cbn [map]. destruct l as [|w l]; [cbn; eexists; reflexivity|].
        rewrite sep_cons by discriminate. eexists; reflexivity. }
      destruct Q as (u & Q). rewrite Q in *. rewrite skip_ws_hd by reflexivity.
      rewrite eat_not by discriminate. rewrite P. reflexivity.
  - intros [|(k, v) l] r Hl Hf Hok; [congruence|]. inversion Hok as [|? ? [Hk Hv] Hrest]; subst.
    cbn [fst snd] in *. cbn [fold_right] in Hf. cbn [snd] in Hf.
    assert (T : exists c tl, sep (map member ((k, v) :: l)) ++ 125 :: r =
        enc_string k ++ 58 :: jenc v ++ c :: tl /\ ((c = 125 /\ tl = r /\ l = []) \/
          (c = 44 /\ tl = sep (map member l) ++ 125 :: r /\ l <> []))).
    { destruct l as [|q l].
      - exists 125, r. split; [|left; auto]. cbn [map sep]. unfold member. cbn [fst snd].
        rewrite <- app_assoc. reflexivity.
      - exists 44. eexists. split; [|right; split; [reflexivity|split; [reflexivity|discriminate]]].
        rewrite (map_cons member (k, v)). rewrite sep_cons by discriminate. unfold member at 1. cbn [fst snd].
        rewrite <- !app_assoc. cbn [app]. now rewrite <- ?app_assoc. }
    destruct T as (c & tl & -> & C).
    destruct (parse_enc_string k (58 :: jenc v ++ c :: tl) Hk) as (t & E & P). rewrite E.
    cbn [parse_members]. change (34 =? 34) with true. cbv iota. rewrite P. cbn [pbind].
    rewrite skip_ws_hd by reflexivity.
    rewrite IHv; [|lia|assumption|].
    2:{ destruct C as [(-> & _)|(-> & _)]; cbn; split; try reflexivity; split; try discriminate; split; discriminate. }
    cbn [pbind]. destruct C as [(-> & -> & ->)|(-> & -> & Hl')].
    + reflexivity.
    + rewrite skip_ws_hd by reflexivity. change (44 =? 44) with true. cbv iota.
      assert (Q : exists u, sep (map member l) ++ 125 :: r = 34 :: u).
      { destruct l as [|w [|w' l]]; [congruence| |]; eexists; reflexivity. }
      destruct Q as (u & Q).
      assert (M := IHm l r Hl' ltac:(lia) Hrest). rewrite Q in *.
      rewrite skip_ws_hd by reflexivity. rewrite M. reflexivity.
  - intros [|v l] r Hl Hf Hok; [congruence|]. inversion Hok as [|? ? Hv Hrest]; subst.
    cbn [fold_right] in Hf.
    assert (T : exists c tl, sep (map jenc (v :: l)) ++ 93 :: r =
        jenc v ++ c :: tl /\ ((c = 93 /\ tl = r /\ l = []) \/
          (c = 44 /\ tl = sep (map jenc l) ++ 93 :: r /\ l <> []))).
    { destruct l as [|q l].
      - exists 93, r. split; [|left; auto]. reflexivity.
      - exists 44. eexists. split; [|right; split; [reflexivity|split; [reflexivity|discriminate]]].
        rewrite (map_cons jenc v). rewrite sep_cons by discriminate. rewrite <- app_assoc. reflexivity. }
    destruct T as (c & tl & -> & C).
    cbn [parse_elems].
    rewrite IHv; [|lia|assumption|].
    2:{ destruct C as [(-> & _)|(-> & _)]; cbn; split; try reflexivity; split; try discriminate; split; discriminate. }
    cbn [pbind]. destruct C as [(-> & -> & ->)|(-> & -> & Hl')].
    + reflexivity.
    + rewrite skip_ws_hd by reflexivity. change (44 =? 44) with true. cbv iota.
      rewrite IHe by (assumption || lia). reflexivity.
Qed.

(* The fuel of [parse_json] suffices for encoded values. *)
Lemma enc_string_len s : (2 <= length (enc_string s))%nat.
Proof. unfold enc_string. cbn. rewrite app_length. cbn. lia. Qed.

Fixpoint jsize_len (v : json) : jok v -> (jsize v <= 2 * length (jenc v))%nat.
Proof.
  destruct v as [|b|z| |s|l|l]; intro H.
  - cbn; lia.
  - destruct b; cbn; lia.
  - destruct (jenc_head (JInt z) H) as (b & t & E & _). rewrite E. cbn. lia.
  - contradiction.
  - cbn [jsize jenc]. pose proof (enc_string_len s). lia.
  - cbn [jsize jenc]. cbn [length]. rewrite app_length. cbn [length].
    assert (G : (fold_right (fun v n => S (jsize v + n)) O l <= 2 * length (sep (map jenc l)) + 1)%nat).
    { apply jok_arr in H. induction l as [|v l IH]; [cbn; lia|].
      inversion H as [|? ? Hv Hl]; subst. pose proof (jsize_len v Hv) as L. specialize (IH Hl).
      cbn [fold_right map]. destruct l as [|w l].
      - cbn [fold_right map sep]. lia.
      - rewrite sep_cons by discriminate. rewrite app_length. cbn [length]. lia. }
    lia.
  - cbn [jsize jenc]. cbn [length]. rewrite app_length. cbn [length].
    change (map (fun p => enc_string (fst p) ++ 58 :: jenc (snd p)) l) with (map member l).
    assert (G : (fold_right (fun p n => S (jsize (snd p) + n)) O l <= 2 * length (sep (map member l)) + 1)%nat).
    { apply jok_obj in H. induction l as [|(k, v) l IH]; [cbn; lia|].
      inversion H as [|? ? [_ Hv] Hl]; subst. cbn [snd] in Hv. pose proof (jsize_len v Hv) as L. specialize (IH Hl).
      cbn [fold_right map snd].
      assert (ML : (length (member (k, v)) >= 1 + length (jenc v))%nat).
      { unfold member. cbn [fst snd]. rewrite app_length. cbn. pose proof (enc_string_len k). lia. }
      destruct l as [|w l].
      - cbn [fold_right map sep]. lia.
      - rewrite sep_cons by discriminate. rewrite app_length. cbn [length]. lia. }
    lia.
Qed.

Theorem parse_json_jenc v : jok v -> parse_json (jenc v) = Some v.
Proof.
  intro H. unfold parse_json.
  pose proof (proj1 (parse_jenc (S (2 * length (jenc v)))) v [] ) as P. rewrite app_nil_r in P.
  rewrite P; [reflexivity| |assumption|exact I]. pose proof (jsize_len v H). lia.
Qed.

(* ------------------------------------------------------------------ *)
(* Base64                                                              *)

Lemma b64_val_char n : n < 64 -> b64_val (b64_char n) = Some n.
Proof.
  intro H. unfold b64_char, b64_val.
  destruct (N.ltb_spec n 26).
  { replace (65 <=? 65 + n) with true by (symmetry; apply N.leb_le; lia).
    replace (65 + n <=? 90) with true by (symmetry; apply N.leb_le; lia). cbn [andb]. f_equal; lia. }
  destruct (N.ltb_spec n 52).
  { replace (71 + n <=? 90) with false by (symmetry; apply N.leb_gt; lia). rewrite andb_false_r.
    replace (97 <=? 71 + n) with true by (symmetry; apply N.leb_le; lia).
    replace (71 + n <=? 122) with true by (symmetry; apply N.leb_le; lia). cbn [andb]. f_equal; lia. }
  destruct (N.ltb_spec n 62).
  { replace (65 <=? n - 4) with false by (symmetry; apply N.leb_gt; lia).
    replace (97 <=? n - 4) with false by (symmetry; apply N.leb_gt; lia).
    replace (48 <=? n - 4) with true by (symmetry; apply N.leb_le; lia).
    replace (n - 4 <=? 57) with true by (symmetry; apply N.leb_le; lia). cbn [andb]. f_equal; lia. }
  destruct (N.eqb_spec n 62) as [->|]; [reflexivity|]. assert (n = 63) by lia. now subst.
Qed.

Lemma b64_char_range n : n < 64 -> 43 <= b64_char n /\ b64_char n <> 61 /\ b64_char n <= 122.
Proof.
  intro H. unfold b64_char.
  destruct (N.ltb_spec n 26); [lia|]. destruct (N.ltb_spec n 52); [lia|].
  destruct (N.ltb_spec n 62); [lia|]. destruct (n =? 62); lia.
Qed.

Lemma list3_ind (P : bytes -> Prop) :
  P [] -> (forall a, P [a]) -> (forall a b, P [a; b]) ->
  (forall a b c r, P r -> P (a :: b :: c :: r)) -> forall s, P s.
Proof.
  intros H0 H1 H2 H3. fix F 1. intros [|a [|b [|c r]]]; [exact H0|apply H1|apply H2|apply H3, F].
Qed.

Lemma b64_chars s : wfb s -> Forall (fun b => 43 <= b /\ b <= 122) (b64_enc s).
Proof.
  assert (K : forall n, n < 64 -> 43 <= b64_char n /\ b64_char n <= 122).
  { intros n Hn. pose proof (b64_char_range n Hn). tauto. }
  assert (E : 43 <= 61 /\ 61 <= 122) by lia.
  induction s as [|a|a b|a b c r IH] using list3_ind; intro H.
  - constructor.
  - apply wfb_cons in H. destruct H as [Ha _]. cbn [b64_enc].
    repeat (constructor; [first [exact E | apply K; lia]|]). constructor.
  - apply wfb_cons in H. destruct H as [Ha H]. apply wfb_cons in H. destruct H as [Hb _]. cbn [b64_enc].
    repeat (constructor; [first [exact E | apply K; lia]|]). constructor.
  - apply wfb_cons in H. destruct H as [Ha H]. apply wfb_cons in H. destruct H as [Hb H].
    apply wfb_cons in H. destruct H as [Hc Hr]. cbn [b64_enc].
    do 4 (constructor; [apply K; lia|]). auto.
Qed.

Lemma b64_groups_enc s : wfb s -> b64_groups (b64_enc s) = Some s.
Proof.
  assert (K : forall n, n < 64 -> (b64_char n =? 61) = false).
  { intros n Hn. apply N.eqb_neq. now apply b64_char_range. }
  induction s as [|a|a b|a b c r IH] using list3_ind; intro H.
  - reflexivity.
  - apply wfb_cons in H. destruct H as [Ha _]. cbn [b64_enc b64_groups].
    rewrite !b64_val_char by lia. cbn [obind]. change (61 =? 61) with true. cbv iota. do 2 f_equal. lia.
  - apply wfb_cons in H. destruct H as [Ha H]. apply wfb_cons in H. destruct H as [Hb _].
    cbn [b64_enc b64_groups].
    rewrite !b64_val_char by lia. cbn [obind]. rewrite K by lia. change (61 =? 61) with true. cbv iota.
    do 2 f_equal; [lia|f_equal; lia].
  - apply wfb_cons in H. destruct H as [Ha H]. apply wfb_cons in H. destruct H as [Hb H].
    apply wfb_cons in H. destruct H as [Hc Hr].
    cbn [b64_enc b64_groups].
    rewrite !b64_val_char by lia. cbn [obind]. rewrite !K by lia. rewrite IH by assumption. cbn [obind].
    f_equal. f_equal; [lia|]. f_equal; [lia|]. f_equal. lia.
Qed.

Lemma filter_id {A} (p : A -> bool) l : Forall (fun x => p x = true) l -> filter p l = l.
Proof. induction 1 as [|x l E _ IH]; cbn; [reflexivity|now rewrite E, IH]. Qed.

Theorem b64_round_trip s : wfb s -> b64_dec (b64_enc s) = Some s.
Proof.
  intro H. unfold b64_dec. rewrite filter_id; [now apply b64_groups_enc|].
  eapply Forall_impl; [|apply b64_chars, H]. cbn. intros b Hb.
  apply negb_true_iff, orb_false_iff. rewrite !N.eqb_neq. lia.
Qed.

Lemma ascii_text s : Forall (fun b => b < 128) s -> utf8_text s.
Proof.
  induction 1 as [|b s Hb _ IH]; [apply utf8_text_nil|].
  replace (b :: s) with (utf8_enc b ++ s).
  2:{ unfold utf8_enc. now replace (b <? 128) with true by (symmetry; now apply N.ltb_lt). }
  apply utf8_text_cons; [unfold scalar; lia|assumption].
Qed.

Lemma b64_text s : wfb s -> utf8_text (b64_enc s).
Proof.
  intro H. apply ascii_text. eapply Forall_impl; [|apply b64_chars, H]. cbn. intros; lia.
Qed.
