(* Proofs about CBOR: sorting of struct fields, canonical form, UTF-8, decoders. *)
From Coq Require Import Sorting.Sorted Permutation.
From Verif Require Import Base M_Utf8 M_Cbor S_Cbor P_Cbor.

(* ------------------------------------------------------------------ *)
(* Lexicographic order                                                 *)

Lemma lex_le_total a b : lex_le a b = true \/ lex_le b a = true.
Proof.
  revert b; induction a as [|x a IH]; intros [|y b]; cbn [lex_le]; auto.
  destruct (IH b) as [H|H]; destruct (N.ltb_spec x y); destruct (N.ltb_spec y x);
    destruct (N.eqb_spec x y); destruct (N.eqb_spec y x); cbn; auto; lia.
Qed.

Lemma lex_le_lt a b : lex_le a b = true -> a <> b -> lex_lt a b.
Proof.
  revert b; induction a as [|x a IH]; intros [|y b] H Hn; cbn [lex_le] in H.
  - congruence.
  - left. now exists y, b.
  - discriminate.
  - apply orb_true_iff in H as [H|H].
    + right. exists [], x, y, a, b. repeat split. lia.
    + apply andb_true_iff in H as [H1 H2]. assert (x = y) by lia. subst y.
      destruct (IH b H2) as [(z & r & ->)|(p & u & v & r & s & -> & -> & L)]; [congruence| |].
      * left. now exists z, r.
      * right. exists (x :: p), u, v, r, s. auto.
Qed.

Lemma lex_lt_le a b : lex_lt a b -> lex_le a b = true.
Proof.
  intros [(x & r & ->)|(p & x & y & r & s & -> & -> & L)].
  - induction a as [|z a IH]; cbn; auto. rewrite N.eqb_refl, IH, orb_true_r. reflexivity.
  - induction p as [|z p IH]; cbn [app lex_le].
    + destruct (N.ltb_spec x y); [reflexivity|lia].
    + rewrite N.eqb_refl, IH, orb_true_r. reflexivity.
Qed.

Lemma lex_lt_irrefl a : ~ lex_lt a a.
Proof.
  intros [(x & r & E)|(p & x & y & r & s & E1 & E2 & L)].
  - apply (f_equal (@length N)) in E. rewrite app_length in E. cbn in E. lia.
  - rewrite E1 in E2. apply app_inv_head in E2. injection E2 as E _. lia.
Qed.

Lemma lex_lt_trans a b c : lex_lt a b -> lex_lt b c -> lex_lt a c.
Proof.
  revert b c; induction a as [|x a IH]; intros b c H1 H2.
  - assert (c <> []).
    { destruct H2 as [(z & r & ->)|(p & z & y & r & s & _ & -> & _)]; destruct b + destruct p; discriminate. }
    destruct c as [|z c]; [congruence|]. left. now exists z, c.
  - assert (E1 : exists y b', b = y :: b' /\ (x < y \/ (x = y /\ lex_lt a b'))).
    { destruct H1 as [(z & r & ->)|(p & u & v & r & s & E & -> & L)].
      - exists x, (a ++ z :: r). split; [reflexivity|]. right. split; [reflexivity|]. left. now exists z, r.
      - destruct p as [|q p]; cbn in E; injection E as -> ->.
        + now exists v, s; auto.
        + exists q, (p ++ v :: s). split; [reflexivity|]. right. split; [reflexivity|].
          right. now exists p, u, v, r, s. }
    destruct E1 as (y & b' & -> & D1).
    assert (E2 : exists w c', c = w :: c' /\ (y < w \/ (y = w /\ lex_lt b' c'))).
    { destruct H2 as [(z & r & ->)|(p & u & v & r & s & E & -> & L)].
      - exists y, (b' ++ z :: r). split; [reflexivity|]. right. split; [reflexivity|]. left. now exists z, r.
      - destruct p as [|q p]; cbn in E; injection E as -> ->.
        + now exists v, s; auto.
        + exists q, (p ++ v :: s). split; [reflexivity|]. right. split; [reflexivity|].
          right. now exists p, u, v, r, s. }
    destruct E2 as (w & c' & -> & D2).
    destruct D1 as [D1|[-> D1]]; destruct D2 as [D2|[-> D2]].
    + right. exists [], x, w, a, c'. repeat split; lia.
    + right. exists [], x, w, a, c'. repeat split; auto.
    + right. exists [], y, w, a, c'. repeat split; auto.
    + destruct (IH _ _ D1 D2) as [(z & r & ->)|(p & u & v & r & s & -> & -> & L)].
      * left. now exists z, r.
      * right. exists (w :: p), u, v, r, s. auto.
Qed.

(* ------------------------------------------------------------------ *)
(* Sorting                                                             *)

Definition ekey (p : cbor * cbor) : bytes := cenc (fst p).

Lemma insert_pair_perm p l : Permutation (p :: l) (insert_pair p l).
Proof.
  induction l as [|q l IH]; cbn [insert_pair]; auto.
  destruct (lex_le (cenc (fst p)) (cenc (fst q))); auto.
  rewrite perm_swap. now constructor.
Qed.

Lemma sort_pairs_perm l : Permutation l (sort_pairs l).
Proof.
  induction l as [|p l IH]; cbn [sort_pairs]; auto.
  rewrite <- insert_pair_perm. now constructor.
Qed.

Lemma insert_pair_sorted p l :
  StronglySorted lex_lt (map ekey l) -> ~ In (ekey p) (map ekey l) ->
  StronglySorted lex_lt (map ekey (insert_pair p l)).
Proof.
  induction l as [|q l IH]; intros Hs Hn; cbn [insert_pair].
  - cbn. constructor; constructor.
  - cbn [map] in Hs. apply StronglySorted_inv in Hs as [Hs Hq].
    fold (ekey p) (ekey q).
    destruct (lex_le (ekey p) (ekey q)) eqn:E.
    + cbn [map]. assert (L : lex_lt (ekey p) (ekey q)).
      { apply lex_le_lt; auto. intro K. apply Hn. left. now symmetry. }
      constructor; [constructor; auto|]. constructor; auto.
      rewrite Forall_forall in *. intros x Hx. eapply lex_lt_trans; eauto.
    + cbn [map]. constructor.
      * apply IH; auto. intro K. apply Hn. now right.
      * assert (L : lex_lt (ekey q) (ekey p)).
        { apply lex_le_lt. destruct (lex_le_total (ekey p) (ekey q)); congruence.
          intro K. apply Hn. now left. }
        rewrite Forall_forall in *. intros x Hx.
        apply in_map_iff in Hx as (y & <- & Hy).
        apply (Permutation_in _ (Permutation_sym (insert_pair_perm p l))) in Hy.
        destruct Hy as [<-|Hy]; auto. apply Hq. now apply in_map.
Qed.

Lemma sort_pairs_sorted l :
  NoDup (map ekey l) -> StronglySorted lex_lt (map ekey (sort_pairs l)).
Proof.
  induction l as [|p l IH]; intro H; cbn [sort_pairs].
  - constructor.
  - inversion H as [|? ? Hn Hd]; subst. apply insert_pair_sorted; auto.
    intro K. apply Hn. eapply Permutation_in; [|exact K].
    apply Permutation_map, Permutation_sym, sort_pairs_perm.
Qed.

(* ------------------------------------------------------------------ *)
(* Canonical form                                                      *)

(* Items which encode canonically. *)
Fixpoint cgood (v : cbor) : Prop :=
  match v with
  | CUint n | CNint n => n < 256 ^ 8
  | CBytes b => wfb b /\ len b < 256 ^ 8
  | CText b => utf8_text b /\ len b < 256 ^ 8
  | CArr l => len l < 256 ^ 8 /\ fold_right (fun v P => cgood v /\ P) True l
  | CMap l => len l < 256 ^ 8 /\
      fold_right (fun p P => cgood (fst p) /\ cgood (snd p) /\ P) True l /\
      StronglySorted lex_lt (map ekey l)
  | CTag _ _ => False
  | CSimple n => n = 20 \/ n = 21 \/ n = 22
  | CFloat _ => False
  end.

Lemma be_1 n : n < 256 -> be 1 n = [n].
Proof. intro H. unfold be. cbn [le rev app]. f_equal. lia. Qed.

Lemma chead_spec mt n : n < 256 ^ 8 -> Head mt n (chead mt n).
Proof.
  intro H. unfold chead.
  destruct (N.ltb_spec n 24).
  { replace (mt * 32 + n) with (32 * mt + n) by lia. now constructor. }
  destruct (N.ltb_spec n 256).
  { replace (mt * 32 + 24) with (32 * mt + 24) by lia. rewrite <- (be_1 n) by lia. now apply Head1. }
  destruct (N.ltb_spec n 65536).
  { replace (mt * 32 + 25) with (32 * mt + 25) by lia. apply Head2; auto. }
  destruct (N.ltb_spec n 4294967296).
  { replace (mt * 32 + 26) with (32 * mt + 26) by lia. apply Head4; auto. }
  replace (mt * 32 + 27) with (32 * mt + 27) by lia. apply Head8; auto.
Qed.

Lemma Head_chead mt n h : Head mt n h -> h = chead mt n.
Proof.
  intro H. change (256 ^ 2) with 65536 in *. unfold chead.
  inversion H as [A|A B|A B|A B|A B]; subst; change (256 ^ 2) with 65536 in *;
    change (256 ^ 4) with 4294967296 in *;
    repeat match goal with |- context [N.ltb ?a ?b] => destruct (N.ltb_spec a b); try lia end;
    f_equal; try lia.
  now rewrite be_1.
Qed.

Lemma combine_pairs l :
  concat (map (fun p => fst p ++ snd p) (combine (map cenc (map fst l)) (map cenc (map snd l)))) =
  flat_map (fun p => cenc (fst p) ++ cenc (snd p)) l.
Proof. induction l as [|p l IH]; cbn; auto. now rewrite IH. Qed.

Lemma concat_cenc l : concat (map cenc l) = flat_map cenc l.
Proof. symmetry. apply flat_map_concat_map. Qed.

Lemma cenc_canonical v : cgood v -> canonical v (cenc v).
Proof.
  induction v using cbor_ind'; cbn [cgood cenc]; intro Hg.
  - constructor. now apply chead_spec.
  - constructor. now apply chead_spec.
  - constructor; [tauto|]. now apply chead_spec.
  - constructor; [tauto|]. now apply chead_spec.
  - rewrite <- concat_cenc. constructor; [now apply chead_spec|].
    destruct Hg as [_ Hg]. clear -H Hg. induction H as [|v l Hv Hl IH]; cbn in *; constructor.
    + apply Hv. tauto.
    + apply IH. tauto.
  - rewrite <- combine_pairs. destruct Hg as (Hg1 & Hg2 & Hg3).
    constructor; [now apply chead_spec| | |].
    + clear -H Hg2. induction H as [|v l Hv Hl IH]; cbn in *; constructor.
      * apply Hv. tauto.
      * apply IH. tauto.
    + clear -H Hg2. induction H as [|v l Hv Hl IH]; cbn in *; constructor.
      * apply Hv. tauto.
      * apply IH. tauto.
    + rewrite map_map. exact Hg3.
  - contradiction.
  - destruct Hg as [-> | [-> | ->]]; constructor.
  - contradiction.
Qed.

(* A document has one canonical form. *)
Lemma canonical_cenc v : forall b, canonical v b -> b = cenc v.
Proof.
  induction v using cbor_ind'; intros b' Hb; inversion Hb; subst; cbn [cenc].
  - now apply Head_chead.
  - now apply Head_chead.
  - f_equal. now apply Head_chead.
  - f_equal. now apply Head_chead.
  - f_equal; [now apply Head_chead|]. rewrite <- concat_cenc. f_equal.
    match goal with F : Forall2 canonical l bs |- _ => clear -H F; revert bs F end.
    induction H as [|v l Hv Hl IH]; intros bs Hf; inversion Hf; subst; cbn; auto.
    f_equal; auto.
  - f_equal; [now apply Head_chead|]. rewrite <- combine_pairs.
    assert (E : forall ks, Forall2 canonical (map fst l) ks -> ks = map cenc (map fst l)).
    { clear -H. induction H as [|v l Hv Hl IH]; intros bs Hf; cbn in *; inversion Hf; subst; cbn; auto.
      f_equal; auto. now apply Hv. }
    assert (E2 : forall ks, Forall2 canonical (map snd l) ks -> ks = map cenc (map snd l)).
    { clear -H. induction H as [|v l Hv Hl IH]; intros bs Hf; cbn in *; inversion Hf; subst; cbn; auto.
      f_equal; auto. now apply Hv. }
    now rewrite (E ks), (E2 vs).
  - reflexivity.
  - reflexivity.
  - reflexivity.
Qed.

(* Struct encoding: fields with distinct keys, each good. *)
Definition goods (l : list (cbor * cbor)) : Prop :=
  fold_right (fun p P => cgood (fst p) /\ cgood (snd p) /\ P) True l.

Lemma goods_forall l : goods l <-> Forall (fun p => cgood (fst p) /\ cgood (snd p)) l.
Proof.
  induction l as [|p l IH]; cbn; split; intro H; auto.
  - destruct H as (A & B & C). constructor; [auto|]. now apply IH.
  - inversion H as [|? ? [A B] C]; subst. repeat split; auto. now apply IH.
Qed.

Lemma cstruct_good l :
  goods (present l) -> NoDup (map ekey (present l)) -> len (present l) < 256 ^ 8 ->
  cgood (cstruct l).
Proof.
  intros Hg Hd Hl. unfold cstruct. cbn [cgood]. split; [|split].
  - unfold len in *. rewrite <- (Permutation_length (sort_pairs_perm (present l))). exact Hl.
  - apply goods_forall. apply goods_forall in Hg. rewrite Forall_forall in *.
    intros p Hp. apply Hg. eapply Permutation_in; [|exact Hp].
    apply Permutation_sym, sort_pairs_perm.
  - now apply sort_pairs_sorted.
Qed.

(* Good items are within the decoder's ranges, if not too large. *)
Fixpoint clim (v : cbor) : Prop :=
  match v with
  | CArr l => len l <= max_elems /\ fold_right (fun v P => clim v /\ P) True l
  | CMap l => len l <= max_elems /\ fold_right (fun p P => clim (fst p) /\ clim (snd p) /\ P) True l
  | CTag t v => clim v
  | _ => True
  end.

Lemma cgood_cok v : cgood v -> clim v -> cok v.
Proof.
  induction v using cbor_ind'; cbn [cgood clim cok]; intros Hg Hl; try tauto.
  - destruct Hg as [_ Hg]. destruct Hl as [Hl1 Hl2]. split; auto.
    induction H as [|v l Hv Hl IH]; cbn in *; auto. rewrite len_cons in Hl1. split; [tauto|]. apply IH; try tauto. lia.
  - destruct Hg as (_ & Hg & _). destruct Hl as [Hl1 Hl2]. split; auto.
    induction H as [|v l Hv Hl IH]; cbn in *; auto. rewrite len_cons in Hl1. split; [tauto|].
    split; [tauto|]. apply IH; try tauto. lia.
  - lia.
Qed.

(* A document in canonical form is parsed back by the library's decoder, whatever
   follows it. *)
Lemma canonical_parse v b rest :
  canonical v b -> cok v -> (cdepth v <= max_nested)%nat -> parse_top (b ++ rest) = POk v rest.
Proof. intros H1 H2 H3. rewrite (canonical_cenc _ _ H1). now apply parse_top_ok. Qed.

Lemma canonical_unique v v' b :
  canonical v b -> canonical v' b -> cok v -> cok v' ->
  (cdepth v <= max_nested)%nat -> (cdepth v' <= max_nested)%nat -> v = v'.
Proof.
  intros H1 H2 K1 K2 D1 D2.
  pose proof (canonical_parse v b [] H1 K1 D1) as E1.
  pose proof (canonical_parse v' b [] H2 K2 D2) as E2. congruence.
Qed.

(* ------------------------------------------------------------------ *)
(* UTF-8                                                               *)

Lemma cont_ok b : 128 <= b -> b < 192 -> cont b = true.
Proof. intros. unfold cont. lia. Qed.

Lemma valid2 b0 b1 r :
  194 <= b0 -> b0 < 224 -> 128 <= b1 -> b1 < 192 ->
  utf8_valid (b0 :: b1 :: r) = utf8_valid r.
Proof.
  intros. cbn [utf8_valid]. rewrite cont_ok by auto.
  replace (b0 <? 128) with false by lia.
  replace ((194 <=? b0) && (b0 <? 224)) with true by lia. reflexivity.
Qed.

Lemma valid3 b0 b1 b2 r :
  224 <= b0 -> b0 < 240 -> 128 <= b1 -> b1 < 192 -> 128 <= b2 -> b2 < 192 ->
  (b0 = 224 -> 160 <= b1) -> (b0 = 237 -> b1 < 160) ->
  utf8_valid (b0 :: b1 :: b2 :: r) = utf8_valid r.
Proof.
  intros. cbn [utf8_valid]. rewrite !cont_ok by auto.
  replace (b0 <? 128) with false by lia.
  replace ((194 <=? b0) && (b0 <? 224)) with false by lia.
  replace ((224 <=? b0) && (b0 <? 240)) with true by lia.
  replace (if b0 =? 224 then 160 <=? b1 else if b0 =? 237 then b1 <? 160 else true) with true;
    [reflexivity|].
  destruct (N.eqb_spec b0 224); [lia|]. destruct (N.eqb_spec b0 237); [lia|reflexivity].
Qed.

Lemma valid4 b0 b1 b2 b3 r :
  240 <= b0 -> b0 < 245 -> 128 <= b1 -> b1 < 192 -> 128 <= b2 -> b2 < 192 -> 128 <= b3 -> b3 < 192 ->
  (b0 = 240 -> 144 <= b1) -> (b0 = 244 -> b1 < 144) ->
  utf8_valid (b0 :: b1 :: b2 :: b3 :: r) = utf8_valid r.
Proof.
  intros. cbn [utf8_valid]. rewrite !cont_ok by auto.
  replace (b0 <? 128) with false by lia.
  replace ((194 <=? b0) && (b0 <? 224)) with false by lia.
  replace ((224 <=? b0) && (b0 <? 240)) with false by lia.
  replace ((240 <=? b0) && (b0 <? 245)) with true by lia.
  replace (if b0 =? 240 then 144 <=? b1 else if b0 =? 244 then b1 <? 144 else true) with true;
    [reflexivity|].
  destruct (N.eqb_spec b0 240); [lia|]. destruct (N.eqb_spec b0 244); [lia|reflexivity].
Qed.

Lemma utf8_enc_valid c r : scalar c -> utf8_valid (utf8_enc c ++ r) = utf8_valid r.
Proof.
  intro H. unfold utf8_enc. unfold scalar in H.
  destruct (N.ltb_spec c 128).
  { cbn [app utf8_valid]. destruct (N.ltb_spec c 128); [reflexivity|lia]. }
  destruct (N.ltb_spec c 2048); [apply valid2; lia|].
  destruct (N.ltb_spec c 65536); [apply valid3; lia|].
  apply valid4; lia.
Qed.

Lemma utf8_text_valid s : utf8_text s -> utf8_valid s = true.
Proof.
  intros (cs & H & ->). induction H as [|c cs Hc Hcs IH]; [reflexivity|].
  cbn [flat_map]. now rewrite utf8_enc_valid.
Qed.

Ltac bool_lia :=
  repeat match goal with
  | H : (_ && _)%bool = true |- _ => apply andb_true_iff in H; destruct H
  end.

Lemma utf8_text_nil : utf8_text [].
Proof. exists []. split; [constructor|reflexivity]. Qed.

Lemma utf8_text_cons c s : scalar c -> utf8_text s -> utf8_text (utf8_enc c ++ s).
Proof.
  intros Hc (cs & H & ->). exists (c :: cs). split; [now constructor|reflexivity].
Qed.

Lemma utf8_valid_text s : utf8_valid s = true -> utf8_text s.
Proof.
  remember (length s) as n eqn:En. assert (Hn : (length s <= n)%nat) by lia. clear En.
  revert s Hn. induction n as [|n IH]; intros s Hn Hv.
  { destruct s; [apply utf8_text_nil | cbn in Hn; lia]. }
  destruct s as [|b0 r0]; [apply utf8_text_nil|].
  cbn [utf8_valid] in Hv. cbn [length] in Hn.
  destruct (N.ltb_spec b0 128).
  { replace (b0 :: r0) with (utf8_enc b0 ++ r0).
    apply utf8_text_cons; [left; lia | apply IH; auto; lia].
    unfold utf8_enc. destruct (N.ltb_spec b0 128); [reflexivity|lia]. }
  destruct r0 as [|b1 r1]; [discriminate|]. cbn [length] in Hn.
  destruct ((194 <=? b0) && (b0 <? 224)) eqn:E2.
  { bool_lia. unfold cont in *. bool_lia.
    set (c := (b0 - 192) * 64 + (b1 - 128)).
    replace (b0 :: b1 :: r1) with (utf8_enc c ++ r1).
    apply utf8_text_cons; [left; unfold c; lia | apply IH; auto; lia].
    unfold utf8_enc. subst c.
    destruct (N.ltb_spec ((b0 - 192) * 64 + (b1 - 128)) 128); [lia|].
    destruct (N.ltb_spec ((b0 - 192) * 64 + (b1 - 128)) 2048); [|lia].
    cbn [app]. f_equal; [lia|]. f_equal; lia. }
  destruct r1 as [|b2 r2]; [discriminate|]. cbn [length] in Hn.
  destruct ((224 <=? b0) && (b0 <? 240)) eqn:E3.
  { bool_lia. unfold cont in *. bool_lia.
    set (c := (b0 - 224) * 4096 + (b1 - 128) * 64 + (b2 - 128)).
    assert (K : 2048 <= c /\ c < 65536 /\ (c < 55296 \/ 57344 <= c)).
    { unfold c. destruct (N.eqb_spec b0 224); [lia|]. destruct (N.eqb_spec b0 237); lia. }
    replace (b0 :: b1 :: b2 :: r2) with (utf8_enc c ++ r2).
    apply utf8_text_cons; [unfold scalar; lia | apply IH; auto; lia].
    unfold utf8_enc.
    destruct (N.ltb_spec c 128); [lia|]. destruct (N.ltb_spec c 2048); [lia|].
    destruct (N.ltb_spec c 65536); [|lia].
    cbn [app]. f_equal; [unfold c; lia|]. f_equal; [unfold c; lia|]. f_equal; unfold c; lia. }
  destruct r2 as [|b3 r3]; [discriminate|]. cbn [length] in Hn.
  bool_lia. unfold cont in *. bool_lia.
  set (c := (b0 - 240) * 262144 + (b1 - 128) * 4096 + (b2 - 128) * 64 + (b3 - 128)).
  assert (K : 65536 <= c /\ c < 1114112).
  { unfold c. destruct (N.eqb_spec b0 240); [lia|]. destruct (N.eqb_spec b0 244); lia. }
  replace (b0 :: b1 :: b2 :: b3 :: r3) with (utf8_enc c ++ r3).
  apply utf8_text_cons; [unfold scalar; lia | apply IH; auto; lia].
  unfold utf8_enc.
  destruct (N.ltb_spec c 128); [lia|]. destruct (N.ltb_spec c 2048); [lia|].
  destruct (N.ltb_spec c 65536); [lia|].
  cbn [app]. f_equal; [unfold c; lia|]. f_equal; [unfold c; lia|].
  f_equal; [unfold c; lia|]. f_equal; unfold c; lia.
Qed.

Lemma utf8_valid_iff s : utf8_valid s = true <-> utf8_text s.
Proof. split; [apply utf8_valid_text | apply utf8_text_valid]. Qed.

Lemma utf8_enc_wf c : scalar c -> wfb (utf8_enc c).
Proof.
  intro H. unfold scalar in H. unfold utf8_enc.
  destruct (N.ltb_spec c 128); [|destruct (N.ltb_spec c 2048); [|destruct (N.ltb_spec c 65536)]];
    repeat (apply wfb_cons; split; [lia|]); apply wfb_nil.
Qed.

Lemma utf8_text_wf s : utf8_text s -> wfb s.
Proof.
  intros (cs & H & ->). induction H; cbn [flat_map]; [apply wfb_nil|].
  apply wfb_app. split; [now apply utf8_enc_wf|auto].
Qed.

Lemma utf8_valid_wf s : utf8_valid s = true -> wfb s.
Proof. intro H. now apply utf8_text_wf, utf8_valid_text. Qed.

(* ------------------------------------------------------------------ *)
(* Decoders                                                            *)

Lemma dec_z_int lo hi z :
  (lo <= z < hi)%Z -> dec_z lo hi (CInt z) = Some z.
Proof.
  intro H. unfold CInt. destruct (Z.ltb_spec z 0); unfold dec_z, dec_nullable; cbn [untag obind is_null].
  - replace (- Z.of_N (Z.to_N (- z - 1)) - 1)%Z with z by lia.
    destruct (Z.leb_spec lo z); [|lia]. destruct (Z.ltb_spec z hi); [reflexivity|lia].
  - rewrite Z2N.id by lia.
    destruct (Z.leb_spec lo z); [|lia]. destruct (Z.ltb_spec z hi); [reflexivity|lia].
Qed.

Lemma dec_bytes_cbytes b : dec_bytes (cbytes b) = Some b.
Proof. destruct b; reflexivity. Qed.

Lemma dec_bytes_bytes b : dec_bytes (CBytes b) = Some (Some b).
Proof. reflexivity. Qed.

Lemma dec_text_text b : utf8_text b -> dec_text (CText b) = Some b.
Proof.
  intro H. unfold dec_text, dec_nullable. cbn [untag obind is_null].
  now rewrite (proj2 (utf8_valid_iff b) H).
Qed.

Lemma dec_bool_bool b : dec_bool (CBool b) = Some b.
Proof. destruct b; reflexivity. Qed.

Lemma dec_text_valid v s : dec_text v = Some s -> utf8_text s.
Proof.
  unfold dec_text, dec_nullable. destruct (untag v) as [w|]; cbn [obind]; [|discriminate].
  destruct (is_null w); [intro H; injection H as <-; apply utf8_text_nil|].
  destruct w; try discriminate. destruct (utf8_valid b) eqn:E; [|discriminate].
  intro H; injection H as <-. now apply utf8_valid_iff.
Qed.

Lemma dec_z_range lo hi v z : (lo <= 0 < hi)%Z -> dec_z lo hi v = Some z -> (lo <= z < hi)%Z.
Proof.
  intro H0. unfold dec_z, dec_nullable. destruct (untag v) as [w|]; cbn [obind]; [|discriminate].
  destruct (is_null w); [intro H; injection H as <-; lia|].
  destruct w; try discriminate; cbv zeta.
  - destruct ((lo <=? Z.of_N n)%Z && (Z.of_N n <? hi)%Z) eqn:E; [|discriminate].
    intro H; injection H as <-; lia.
  - destruct ((lo <=? - Z.of_N n - 1)%Z && (- Z.of_N n - 1 <? hi)%Z) eqn:E; [|discriminate].
    intro H; injection H as <-; lia.
  - destruct ((n =? 20) || (n =? 21)); [discriminate|].
    destruct ((lo <=? Z.of_N n)%Z && (Z.of_N n <? hi)%Z) eqn:E; [|discriminate].
    intro H; injection H as <-; lia.
Qed.

(* The decoder produces bytes from bytes. *)
Fixpoint cwf (v : cbor) : Prop :=
  match v with
  | CBytes b | CText b => wfb b
  | CArr l => fold_right (fun v P => cwf v /\ P) True l
  | CMap l => fold_right (fun p P => cwf (fst p) /\ cwf (snd p) /\ P) True l
  | CTag _ v => cwf v
  | _ => True
  end.


Lemma wfb_skipn k l : wfb l -> wfb (skipn k l).
Proof. intro H. rewrite <- (firstn_skipn k l) in H. apply wfb_app in H. tauto. Qed.

Lemma carg_wf ai r n r' : wfb r -> carg ai r = POk n r' -> wfb r'.
Proof.
  intro Hw. unfold carg; cbv zeta.
  repeat match goal with
  | |- context [if ?c then _ else _] => destruct c eqn:?
  end; intro H; try discriminate;
  (match type of H with POk _ ?b = _ => assert (E : b = r') by congruence; rewrite <- E end); auto;
  now apply wfb_skipn.
Qed.

Lemma parse_chunks_wf f mt bs s r :
  wfb bs -> parse_chunks f mt bs = POk s r -> wfb s /\ wfb r.
Proof.
  revert bs s r. induction f as [|f IH]; intros bs s r Hw; cbn [parse_chunks]; [discriminate|].
  destruct bs as [|b t]; [discriminate|]. apply wfb_cons in Hw as [Hb Ht].
  destruct (b =? 255); [intro H; injection H as <- <-; split; auto using wfb_nil|].
  destruct ((b / 32 =? mt) && negb (b mod 32 =? 31)); [|discriminate].
  destruct (carg (b mod 32) t) as [n r1| |] eqn:E; cbn [pbind]; try discriminate.
  apply carg_wf in E; auto.
  destruct (len r1 <? n) eqn:E2; [discriminate|].
  destruct (parse_chunks f mt (dropN n r1)) as [s2 r2| |] eqn:E3; cbn [pbind]; try discriminate.
  intro H; injection H as <- <-. apply IH in E3 as [? ?]; [|auto with wf].
  split; auto. apply wfb_app. auto with wf.
Qed.

Lemma parse_wf_all f :
  (forall d bs v r, wfb bs -> parse_item f d bs = POk v r -> cwf v /\ wfb r) /\
  (forall d n bs v r, wfb bs -> parse_items f d n bs = POk v r -> cwf (CArr v) /\ wfb r) /\
  (forall d n bs v r, wfb bs -> parse_pairs f d n bs = POk v r -> cwf (CMap v) /\ wfb r) /\
  (forall d bs v r, wfb bs -> parse_items_indef f d bs = POk v r -> cwf (CArr v) /\ wfb r) /\
  (forall d bs v r, wfb bs -> parse_pairs_indef f d bs = POk v r -> cwf (CMap v) /\ wfb r).
Proof.
  induction f as [|f (IH1 & IH2 & IH3 & IH4 & IH5)].
  { repeat match goal with |- _ /\ _ => split end; intros; discriminate. }
  split; [|split; [|split; [|split]]].
  - intros d bs v r Hw. cbn [parse_item]. destruct bs as [|b t]; [discriminate|].
    apply wfb_cons in Hw as [_ Hw]. cbv zeta.
    destruct (b mod 32 =? 31).
    + destruct (b / 32 =? 2).
      { destruct (parse_chunks f 2 t) eqn:E; cbn [pbind]; try discriminate.
        intro H; injection H as <- <-. now apply parse_chunks_wf in E. }
      destruct (b / 32 =? 3).
      { destruct (parse_chunks f 3 t) eqn:E; cbn [pbind]; try discriminate.
        intro H; injection H as <- <-. now apply parse_chunks_wf in E. }
      destruct (b / 32 =? 4).
      { destruct d; [discriminate|].
        destruct (parse_items_indef f d t) eqn:E; cbn [pbind]; try discriminate.
        intro H; injection H as <- <-. now apply IH4 in E. }
      destruct (b / 32 =? 5); [|discriminate].
      destruct d; [discriminate|].
      destruct (parse_pairs_indef f d t) eqn:E; cbn [pbind]; try discriminate.
      intro H; injection H as <- <-. now apply IH5 in E.
    + destruct (carg (b mod 32) t) as [n r1| |] eqn:E; cbn [pbind]; try discriminate.
      apply carg_wf in E; auto.
      destruct (b / 32 =? 0); [intro H; injection H as <- <-; cbn; auto|].
      destruct (b / 32 =? 1); [intro H; injection H as <- <-; cbn; auto|].
      destruct (b / 32 =? 2).
      { destruct (len r1 <? n); [discriminate|].
        intro H; injection H as <- <-. cbn; auto with wf. }
      destruct (b / 32 =? 3).
      { destruct (len r1 <? n); [discriminate|].
        intro H; injection H as <- <-. cbn; auto with wf. }
      destruct (b / 32 =? 4).
      { destruct d; [discriminate|]. destruct (max_elems <? n); [discriminate|].
        destruct (parse_items f d n r1) eqn:E2; cbn [pbind]; try discriminate.
        intro H; injection H as <- <-. now apply IH2 in E2. }
      destruct (b / 32 =? 5).
      { destruct d; [discriminate|]. destruct (max_elems <? n); [discriminate|].
        destruct (parse_pairs f d n r1) eqn:E2; cbn [pbind]; try discriminate.
        intro H; injection H as <- <-. now apply IH3 in E2. }
      destruct (b / 32 =? 6).
      { destruct (parse_item f d r1) eqn:E2; cbn [pbind]; try discriminate.
        intro H; injection H as <- <-. now apply IH1 in E2. }
      destruct (b mod 32 <? 24); [intro H; injection H as <- <-; cbn; auto|].
      destruct (b mod 32 =? 24).
      { destruct (n <? 32); [discriminate|]. intro H; injection H as <- <-; cbn; auto. }
      intro H; injection H as <- <-; cbn; auto.
  - intros d n bs v r Hw. cbn [parse_items].
    destruct (n =? 0); [intro H; injection H as <- <-; cbn; auto|].
    destruct (parse_item f d bs) as [a r1| |] eqn:E; cbn [pbind]; try discriminate.
    apply IH1 in E as [? ?]; auto.
    destruct (parse_items f d (n - 1) r1) as [l r2| |] eqn:E2; cbn [pbind]; try discriminate.
    intro H1; injection H1 as <- <-. apply IH2 in E2 as [? ?]; auto. cbn; auto.
  - intros d n bs v r Hw. cbn [parse_pairs].
    destruct (n =? 0); [intro H; injection H as <- <-; cbn; auto|].
    destruct (parse_item f d bs) as [a r1| |] eqn:E; cbn [pbind]; try discriminate.
    apply IH1 in E as [? ?]; auto.
    destruct (parse_item f d r1) as [a2 r12| |] eqn:E1; cbn [pbind]; try discriminate.
    apply IH1 in E1 as [? ?]; auto.
    destruct (parse_pairs f d (n - 1) r12) as [l r2| |] eqn:E2; cbn [pbind]; try discriminate.
    intro H3; injection H3 as <- <-. apply IH3 in E2 as [? ?]; auto. cbn; auto.
  - intros d bs v r Hw. cbn [parse_items_indef]. destruct bs as [|b t]; [discriminate|].
    destruct (b =? 255).
    { intro H; injection H as <- <-. apply wfb_cons in Hw. cbn; tauto. }
    destruct (parse_item f d (b :: t)) as [a r1| |] eqn:E; cbn [pbind]; try discriminate.
    apply IH1 in E as [? ?]; auto.
    destruct (parse_items_indef f d r1) as [l r2| |] eqn:E2; cbn [pbind]; try discriminate.
    intro H1; injection H1 as <- <-. apply IH4 in E2 as [? ?]; auto. cbn; auto.
  - intros d bs v r Hw. cbn [parse_pairs_indef]. destruct bs as [|b t]; [discriminate|].
    destruct (b =? 255).
    { intro H; injection H as <- <-. apply wfb_cons in Hw. cbn; tauto. }
    destruct (parse_item f d (b :: t)) as [a r1| |] eqn:E; cbn [pbind]; try discriminate.
    apply IH1 in E as [? ?]; auto.
    destruct (parse_item f d r1) as [a2 r12| |] eqn:E1; cbn [pbind]; try discriminate.
    apply IH1 in E1 as [? ?]; auto.
    destruct (parse_pairs_indef f d r12) as [l r2| |] eqn:E2; cbn [pbind]; try discriminate.
    intro H3; injection H3 as <- <-. apply IH5 in E2 as [? ?]; auto. cbn; auto.
Qed.

Lemma unmarshal_wf {A} (f : cbor -> option A) bs a :
  wfb bs -> unmarshal f bs = Some a -> exists v, cwf v /\ f v = Some a.
Proof.
  intros Hw. unfold unmarshal. destruct (parse_top bs) as [v r| |] eqn:E; try discriminate.
  intro H. exists v. split; auto. unfold parse_top in E. eapply parse_wf_all; eauto.
Qed.

Lemma untag_wf v w : cwf v -> untag v = Some w -> cwf w.
Proof.
  induction v using cbor_ind'; cbn [untag]; intros Hw H'; try (injection H' as <-; exact Hw).
  destruct (t <? 4); [discriminate|]. apply IHv; auto.
Qed.

Lemma dec_uint8_lt v n : dec_uint8 v = Some n -> n < 256.
Proof.
  unfold dec_uint8, dec_uint. destruct (dec_z 0 (Z.of_N 256) v) as [z|] eqn:E; cbn [obind]; [|discriminate].
  intro H; injection H as <-. apply dec_z_range in E; lia.
Qed.

Lemma mapo_forall {A B} (f : A -> option B) (P : B -> Prop) l r :
  (forall a b, f a = Some b -> P b) -> mapo f l = Some r -> Forall P r.
Proof.
  intro Hf. revert r; induction l as [|a l IH]; cbn [mapo]; intros r H.
  - injection H as <-. constructor.
  - destruct (f a) as [b|] eqn:E; cbn [obind] in H; [|discriminate].
    destruct (mapo f l) as [bs|]; cbn [obind] in H; [|discriminate].
    injection H as <-. constructor; eauto.
Qed.

Lemma dec_bytes_wf v b : cwf v -> dec_bytes v = Some (Some b) -> wfb b.
Proof.
  intro Hw. unfold dec_bytes, dec_nullable. destruct (untag v) as [w|] eqn:E; cbn [obind]; [|discriminate].
  apply untag_wf in E; auto.
  destruct (is_null w); [discriminate|]. destruct w; try discriminate.
  - intro H; injection H as <-. exact E.
  - destruct (mapo dec_uint8 l) as [bs|] eqn:E2; cbn [obind]; [|discriminate].
    intro H; injection H as <-. eapply mapo_forall; [|exact E2]. apply dec_uint8_lt.
Qed.

Lemma lookup_wf m l : fold_right (fun p P => cwf (fst p) /\ cwf (snd p) /\ P) True l -> cwf (lookup m l).
Proof.
  induction l as [|[k v] l IH]; cbn [lookup fold_right fst snd]; intro H; [exact I|].
  destruct (m k); [tauto|]. apply IH. tauto.
Qed.

Lemma dec_entries_wf v l :
  cwf v -> dec_entries v = Some l -> fold_right (fun p P => cwf (fst p) /\ cwf (snd p) /\ P) True l.
Proof.
  intro Hw. unfold dec_entries, dec_nullable. destruct (untag v) as [w|] eqn:E; cbn [obind]; [|discriminate].
  apply untag_wf in E; auto.
  destruct (is_null w); [intro H; injection H as <-; exact I|]. destruct w; try discriminate.
  destruct (forallb (fun p => key_ok (fst p)) l0); [|discriminate].
  intro H; injection H as <-. exact E.
Qed.

(* Deciding that literal keys are sorted. *)
Fixpoint increasing (l : list bytes) : bool :=
  match l with
  | [] => true
  | a :: r => forallb (fun b => lex_le a b && negb (bytes_eqb a b)) r && increasing r
  end.

Lemma increasing_sorted l : increasing l = true -> StronglySorted lex_lt l.
Proof.
  induction l as [|a r IH]; cbn [increasing]; intro H; constructor; apply andb_true_iff in H; destruct H as [H1 H2].
  - auto.
  - rewrite forallb_forall in H1. apply Forall_forall. intros b Hb. specialize (H1 b Hb).
    apply andb_true_iff in H1. destruct H1 as [A B]. apply lex_le_lt; auto.
    intros ->. rewrite bytes_eqb_refl in B. discriminate.
Qed.
