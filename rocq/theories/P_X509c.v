(* What relying parties find in the certificates. *)
From Verif Require Import Base M_Crypto S_Crypto P_Crypto M_Cose M_Str M_X509 S_X509 P_X509a P_X509b.

Lemma elements_inv b t c l : elements b = Some ((t, c) :: l) ->
  exists e rest, element b = Some (t, c, e, rest) /\ is_element e (t, c) /\ b = e ++ rest /\ elements rest = Some l.
Proof.
  unfold elements. intro H. destruct b as [|x b]; [discriminate H|]. cbn [length elements_upto] in H.
  destruct (element (x :: b)) as [[[[t' c'] e] rest]|] eqn:E; [|discriminate H].
  destruct (elements_upto (length b) rest) as [l'|] eqn:E'; [|discriminate H]. injection H as <- <- <-.
  destruct (element_split _ _ _ _ _ E) as (Q & Le & _ & Er). exists e, rest. split; [reflexivity|].
  split; [unfold is_element; specialize (Er []); now rewrite app_nil_r in Er|]. split; [exact Q|].
  rewrite <- E'. apply elements_fuel; [lia|]. apply (f_equal (@length N)) in Q. rewrite app_length in Q. cbn in Q. lia.
Qed.
Lemma elements_nil b : elements b = Some [] -> b = [].
Proof.
  destruct b as [|x b]; [reflexivity|]. unfold elements. cbn [length elements_upto]. destruct (element (x :: b)) as [[[[t c] e] rest]|]; [|discriminate].
  destruct (elements_upto (length b) rest); discriminate.
Qed.

Lemma read_tag_ok tag b c e rest : element b = Some (tag, c, e, rest) -> read_tag tag b = Some (c, rest) /\ read_element tag b = Some (e, rest).
Proof. intro E. unfold read_tag, read_element. rewrite read_asn1_element, E. cbn [obind]. now rewrite N.eqb_refl. Qed.
Lemma has_tag_ok tag b t c e rest : element b = Some (t, c, e, rest) -> has_tag tag b = (t =? tag).
Proof.
  intro E. destruct b as [|x b]; [discriminate E|]. unfold element in E. destruct b as [|y b]; [discriminate E|].
  destruct (if y <? 128 then _ else _) as [h s]. destruct s; [|discriminate E]. destruct (_ && _); [|discriminate E]. now injection E as -> _ _ _.
Qed.

Lemma element_tail b t c e rest : element b = Some (t, c, e, rest) -> exists h, e = h ++ c.
Proof.
  destruct b as [|tag [|l b]]; try discriminate. unfold element. destruct (if l <? 128 then _ else _) as [h s].
  destruct s as [s|]; [|discriminate]. destruct (_ && _); [|discriminate]. intro H. injection H as _ Hc He _. rewrite Hc in He.
  exists (tag :: l :: takeN h b). now rewrite <- He.
Qed.
Lemma element_within b t c e rest : element b = Some (t, c, e, rest) -> len c <= len b /\ (wfb b -> wfb c).
Proof.
  intro E. destruct (element_split _ _ _ _ _ E) as (Q & _). destruct (element_tail _ _ _ _ _ E) as (h & ->). rewrite Q. split.
  - rewrite !len_app. lia.
  - intro W. apply Forall_app in W as [W _]. now apply Forall_app in W.
Qed.
Lemma elements_within : forall l b t c, elements b = Some l -> In (t, c) l -> len c <= len b /\ (wfb b -> wfb c).
Proof.
  induction l as [|[t0 c0] l IH]; intros b t c E I; [destruct I|]. destruct (elements_inv _ _ _ _ E) as (e & rest & E1 & _ & Q & E2).
  destruct I as [I|I].
  - injection I as -> ->. exact (element_within _ _ _ _ _ E1).
  - destruct (IH _ _ _ E2 I) as [L W]. rewrite Q, len_app. split; [lia|]. intro Wb. apply W. now apply Forall_app in Wb.
Qed.

(* ---------------------------------------------------- the parent certificate *)
Lemma all_some_cons {A B} (f : A -> option B) x l r : all_some f (x :: l) = Some r ->
  exists y r', f x = Some y /\ all_some f l = Some r' /\ r = y :: r'.
Proof. cbn [all_some]. destruct (f x); [|discriminate]. destruct (all_some f l); [|discriminate]. intro H. injection H as <-. eauto. Qed.

Lemma read_extension_inv tc o k v : read_extension tc = Some (o, (k, v)) ->
  exists c, tc = (48, c) /\ (elements c = Some [(6, o); (4, v)] \/ elements c = Some [(6, o); (1, [255]); (4, v)]).
Proof.
  unfold read_extension. destruct tc as [t c]. intro H.
  assert (t = 48) as ->.
  { destruct t as [|p]; [discriminate|]. repeat (destruct p as [p|p|]; try discriminate H). reflexivity. }
  exists c. split; [reflexivity|]. destruct (elements c) as [l|]; [|discriminate H].
  destruct l as [|[t1 o1] l]; [discriminate H|].
  assert (t1 = 6) as ->.
  { destruct t1 as [|p]; [discriminate|]. repeat (destruct p as [p|p|]; try discriminate H). reflexivity. }
  destruct l as [|[t2 v2] l]; [discriminate H|].
  destruct (N.eq_dec t2 4) as [->|N4].
  - destruct l; [|discriminate H]. injection H as <- _ <-. now left.
  - assert (t2 = 1) as ->.
    { destruct t2 as [|p]; [discriminate H|]. repeat (destruct p as [p|p|]; try discriminate H); [congruence|reflexivity]. }
    assert (v2 = [255]) as ->.
    { destruct v2 as [|x v2]; [discriminate H|]. destruct (N.eq_dec x 255) as [->|Nx].
      - destruct v2; [reflexivity|discriminate H].
      - exfalso. destruct x as [|p]; [discriminate H|]. repeat (destruct p as [p|p|]; try discriminate H). congruence. }
    destruct l as [|[t3 v3] l]; [discriminate H|].
    assert (t3 = 4) as ->.
    { destruct t3 as [|p]; [discriminate H|]. repeat (destruct p as [p|p|]; try discriminate H). reflexivity. }
    destruct l; [|discriminate H]. injection H as <- _ <-. now right.
Qed.

(* The identifier the model reads: the last one. *)
Lemma key_id_read : forall exts l b fuel id, elements b = Some l -> all_some read_extension l = Some exts -> NoDup (map fst exts) ->
  (length b <= fuel)%nat ->
  match ext_value oid_subject_key_id exts with
  | None => read_key_id fuel id b = Some id
  | Some v => forall i, elements v = Some [(4, i)] -> read_key_id fuel id b = Some i
  end.
Proof.
  induction exts as [|[o [k v]] exts IH]; intros l b fuel id E A ND F.
  - destruct l as [|x l]; [|apply all_some_cons in A as (? & ? & _ & _ & Q); discriminate Q]. apply elements_nil in E. subst b.
    cbn [ext_value]. destruct fuel; reflexivity.
  - destruct l as [|tc l]; [discriminate A|]. apply all_some_cons in A as (y & r' & R & A & Q). injection Q as <- <-.
    destruct (read_extension_inv _ _ _ _ R) as (c & -> & Ec).
    destruct (elements_inv _ _ _ _ E) as (e & rest & E1 & _ & Eb & E2). inversion_clear ND as [|? ? NI ND'].
    assert (Lr : (length rest < length b)%nat).
    { destruct (element_split _ _ _ _ _ E1) as (_ & Le & _). rewrite Eb, app_length. lia. }
    destruct b as [|x b]; [discriminate E1|]. destruct fuel as [|fuel]; [cbn in F; lia|]. cbn [read_key_id].
    rewrite (proj1 (read_tag_ok _ _ _ _ _ E1)). cbn [obind].
    assert (exists vr, read_tag 6 c = Some (o, vr) /\ exists vr', skip_optional 1 vr = Some vr' /\ exists z, read_tag 4 vr' = Some (v, z)) as (vr & V1 & vr' & V2 & z & V3).
    { destruct Ec as [Ec|Ec]; destruct (elements_inv _ _ _ _ Ec) as (e1 & r1 & G1 & _ & _ & G2); exists r1;
        (split; [apply (read_tag_ok _ _ _ _ _ G1)|]); destruct (elements_inv _ _ _ _ G2) as (e2 & r2 & G3 & _ & _ & G4).
      - exists r1. split; [unfold skip_optional; now rewrite (has_tag_ok _ _ _ _ _ _ G3)|]. exists r2. apply (read_tag_ok _ _ _ _ _ G3).
      - exists r2. split; [unfold skip_optional; rewrite (has_tag_ok _ _ _ _ _ _ G3), (proj1 (read_tag_ok _ _ _ _ _ G3)); reflexivity|].
        destruct (elements_inv _ _ _ _ G4) as (e3 & r3 & G5 & _). exists r3. apply (read_tag_ok _ _ _ _ _ G5). }
    rewrite V1. cbn [obind]. rewrite V2. cbn [obind]. rewrite V3. cbn [obind ext_value].
    specialize (IH l rest fuel) as IH'. cbn [length] in F, Lr.
    destruct (bytes_eqb o oid_subject_key_id) eqn:O.
    + intros i Ei. destruct (elements_inv _ _ _ _ Ei) as (e4 & r4 & G6 & _). rewrite (proj1 (read_tag_ok _ _ _ _ _ G6)). cbn [obind].
      specialize (IH' i E2 A ND' ltac:(lia)). apply bytes_eqb_eq in O. subst o.
      destruct (ext_value oid_subject_key_id exts) as [v'|] eqn:X; [|exact IH']. exfalso. apply NI. cbn [fst].
      clear - X. induction exts as [|[o [k v]] exts IHe]; [discriminate X|]. cbn [ext_value] in X. destruct (bytes_eqb o oid_subject_key_id) eqn:B.
      * apply bytes_eqb_eq in B. now left.
      * right. auto.
    + specialize (IH' id E2 A ND' ltac:(lia)). destruct (ext_value oid_subject_key_id exts) as [v'|]; exact IH'.
Qed.

Ltac dtag t := destruct t as [|t]; [discriminate|]; repeat (destruct t as [t|t|]; try discriminate).

(* What read_certificate says about the bytes. *)
Lemma read_certificate_inv b v : read_certificate b = Some v -> exists c tbs sgn r1 rest,
  element b = Some (48, c, b, []) /\ element c = Some (48, tbs, sgn, r1) /\
  exists ver serial validity info x xl, elements tbs = Some [(160, ver); (2, serial); (48, ce_algorithm v); (48, ce_issuer v); (48, validity); (48, ce_subject v); (48, info); (163, x)] /\
    elements ver = Some [(2, [ce_version v - 1])] /\ 1 <= ce_version v /\
    elements info = Some [(48, ce_key_algorithm v); (3, 0 :: ce_key v)] /\ elements x = Some [(48, xl)] /\
    (exists l, elements xl = Some l /\ all_some read_extension l = Some (ce_extensions v)) /\ rest = r1 /\ ce_serial v = serial /\ ce_signed v = sgn.
Proof.
  unfold read_certificate. intro H.
  destruct (elements b) as [lb|] eqn:Eb; [|discriminate H]. destruct lb as [|[t0 c] lb]; [discriminate H|].
  assert (t0 = 48) as -> by (clear -H; dtag t0; reflexivity). destruct lb; [|discriminate H].
  destruct (element c) as [[[[t1 c1] sgn] r1]|] eqn:E1; [|discriminate H].
  destruct (elements c) as [lc|] eqn:Ec; [|discriminate H].
  destruct lc as [|[t2 tbs] lc]; [discriminate H|]. assert (t2 = 48) as -> by (clear -H; dtag t2; reflexivity).
  destruct lc as [|[t3 alg] lc]; [discriminate H|]. assert (t3 = 48) as -> by (clear -H; dtag t3; reflexivity).
  destruct lc as [|[t4 sg] lc]; [discriminate H|]. assert (t4 = 3) as -> by (clear -H; dtag t4; reflexivity).
  destruct sg as [|z sig]; [discriminate H|]. assert (z = 0) as -> by (clear -H; destruct z; [reflexivity|discriminate]).
  destruct lc; [|discriminate H].
  destruct (elements tbs) as [lt|] eqn:Et; [|discriminate H].
  destruct lt as [|[t5 ver] lt]; [discriminate H|]. assert (t5 = 160) as -> by (clear -H; dtag t5; reflexivity).
  destruct lt as [|[t6 serial] lt]; [discriminate H|]. assert (t6 = 2) as -> by (clear -H; dtag t6; reflexivity).
  destruct lt as [|[t7 alg'] lt]; [discriminate H|]. assert (t7 = 48) as -> by (clear -H; dtag t7; reflexivity).
  destruct lt as [|[t8 issuer] lt]; [discriminate H|]. assert (t8 = 48) as -> by (clear -H; dtag t8; reflexivity).
  destruct lt as [|[t9 validity] lt]; [discriminate H|]. assert (t9 = 48) as -> by (clear -H; dtag t9; reflexivity).
  destruct lt as [|[t10 subject] lt]; [discriminate H|]. assert (t10 = 48) as -> by (clear -H; dtag t10; reflexivity).
  destruct lt as [|[t11 info] lt]; [discriminate H|]. assert (t11 = 48) as -> by (clear -H; dtag t11; reflexivity).
  destruct lt as [|[t12 x] lt]; [discriminate H|]. assert (t12 = 163) as -> by (clear -H; dtag t12; reflexivity).
  destruct lt; [|discriminate H].
  destruct (elements ver) as [lv|] eqn:Ev; [|discriminate H].
  destruct lv as [|[t13 vb] lv]; [discriminate H|]. assert (t13 = 2) as -> by (clear -H; dtag t13; reflexivity).
  destruct vb as [|version vb]; [discriminate H|]. destruct vb; [|discriminate H]. destruct lv; [|discriminate H].
  destruct (elements validity) as [lva|] eqn:Eva; [|discriminate H]. destruct lva as [|tm1 [|tm2 [|? ?]]]; try discriminate H.
  destruct (elements info) as [li|] eqn:Ei; [|discriminate H].
  destruct li as [|[t14 ka] li]; [discriminate H|]. assert (t14 = 48) as -> by (clear -H; dtag t14; reflexivity).
  destruct li as [|[t15 kb] li]; [discriminate H|]. assert (t15 = 3) as -> by (clear -H; dtag t15; reflexivity).
  destruct kb as [|z kb]; [discriminate H|]. assert (z = 0) as -> by (clear -H; destruct z; [reflexivity|discriminate]).
  destruct li; [|discriminate H].
  destruct (elements x) as [lx|] eqn:Ex; [|discriminate H].
  destruct lx as [|[t16 xl] lx]; [discriminate H|]. assert (t16 = 48) as -> by (clear -H; dtag t16; reflexivity). destruct lx; [|discriminate H].
  destruct (read_time tm1); [|discriminate H]. destruct (read_time tm2); [|discriminate H]. destruct (elements xl) as [l|] eqn:Exl; [|discriminate H].
  destruct (all_some read_extension l) as [exts|] eqn:Ax; [|discriminate H]. destruct (bytes_eqb alg alg') eqn:Ba; [|discriminate H].
  apply bytes_eqb_eq in Ba. subst alg'. injection H as <-.
  destruct (elements_inv _ _ _ _ Eb) as (eb & rb & G1 & G2 & G3 & G4). apply elements_nil in G4. subst rb. rewrite app_nil_r in G3. subst eb.
  destruct (elements_inv _ _ _ _ Ec) as (ec & rc & G5 & _). rewrite E1 in G5. injection G5 as -> -> -> ->.
  exists c, tbs, ec, rc, rc. split; [exact G1|]. split; [exact E1|].
  exists ver, serial, validity, info, x, xl. cbn [ce_algorithm ce_issuer ce_subject ce_version ce_key_algorithm ce_key ce_extensions ce_serial ce_signed].
  split; [exact Et|]. split; [rewrite Ev; do 4 f_equal; lia|]. split; [lia|]. split; [exact Ei|]. split; [exact Ex|]. split; [eauto|auto].
Qed.

Lemma parent_read ca va : read_certificate ca = Some va -> ce_version va = 3 -> NoDup (map fst (ce_extensions va)) ->
  (forall v, ext_value oid_subject_key_id (ce_extensions va) = Some v -> subject_key_id va <> None) ->
  exists a info, parse_authority ca = Some a /\ is_element (au_subject a) (48, ce_subject va) /\
    is_element (au_key a) (48, info) /\ elements info = Some [(48, ce_key_algorithm va); (3, 0 :: ce_key va)] /\
    au_key_id a = match subject_key_id va with Some i => i | None => [] end /\
    (wfb ca -> wfb (au_key a) /\ wfb (au_subject a) /\ wfb (au_key_id a)) /\ len (au_subject a) <= len ca /\ len (au_key_id a) <= len ca.
Proof.
  intros R V3 ND SK. destruct (read_certificate_inv _ _ R) as (c & tbs & sgn & r1 & rest & E0 & E1 & ver & serial & validity & info & x & xl & Et & Ev & Vp & Ei & Ex & (l & El & Al) & _ & _ & _).
  assert (exists a, parse_authority ca = Some a /\ is_element (au_subject a) (48, ce_subject va) /\ is_element (au_key a) (48, info) /\
    au_key_id a = match subject_key_id va with Some i => i | None => [] end /\
    (wfb ca -> wfb (au_key a) /\ wfb (au_subject a) /\ wfb (au_key_id a)) /\ len (au_subject a) <= len ca /\
    len (au_key_id a) <= len ca) as (a & A1 & A2 & A3 & A4 & A5);
    [|exists a, info; exact (conj A1 (conj A2 (conj A3 (conj Ei (conj A4 A5)))))].
  unfold parse_authority. rewrite (proj1 (read_tag_ok _ _ _ _ _ E0)). cbn [obind]. rewrite (proj1 (read_tag_ok _ _ _ _ _ E1)). cbn [obind].
  destruct (elements_inv _ _ _ _ Et) as (e1 & tbs1 & F1 & _ & B1 & Et1).
  rewrite (has_tag_ok _ _ _ _ _ _ F1), N.eqb_refl, (proj1 (read_tag_ok _ _ _ _ _ F1)). cbn [obind].
  destruct (elements_inv _ _ _ _ Ev) as (e2 & rv & F2 & _). rewrite (proj1 (read_tag_ok _ _ _ _ _ F2)). cbn [obind].
  rewrite V3. change (be_dec [3 - 1]) with 2.
  destruct (elements_inv _ _ _ _ Et1) as (e3 & tbs2 & F3 & _ & B3 & Et2). rewrite (proj1 (read_tag_ok _ _ _ _ _ F3)). cbn [obind].
  destruct (elements_inv _ _ _ _ Et2) as (e4 & tbs3 & F4 & _ & B4 & Et3). rewrite (proj1 (read_tag_ok _ _ _ _ _ F4)). cbn [obind].
  destruct (elements_inv _ _ _ _ Et3) as (e5 & tbs4 & F5 & _ & B5 & Et4). rewrite (proj1 (read_tag_ok _ _ _ _ _ F5)). cbn [obind].
  destruct (elements_inv _ _ _ _ Et4) as (e6 & tbs5 & F6 & _ & B6 & Et5). rewrite (proj1 (read_tag_ok _ _ _ _ _ F6)). cbn [obind].
  destruct (elements_inv _ _ _ _ Et5) as (e7 & tbs6 & F7 & I7 & B7 & Et6). rewrite (proj2 (read_tag_ok _ _ _ _ _ F7)). cbn [obind].
  destruct (elements_inv _ _ _ _ Et6) as (e8 & tbs7 & F8 & I8 & B8 & Et7). rewrite (proj2 (read_tag_ok _ _ _ _ _ F8)). cbn [obind].
  change (0 <? 2) with true. change (2 =? 2) with true. cbv iota.
  destruct (elements_inv _ _ _ _ Et7) as (e9 & tbs8 & F9 & _ & B9 & Et8).
  assert (forall t, t <> 163 -> skip_optional t tbs7 = Some tbs7) as Sk.
  { intros t Ht. unfold skip_optional. rewrite (has_tag_ok _ _ _ _ _ _ F9). destruct (N.eqb_spec 163 t); [congruence|reflexivity]. }
  rewrite (Sk 129) by discriminate. cbn [obind]. rewrite (Sk 130) by discriminate. cbn [obind].
  rewrite (has_tag_ok _ _ _ _ _ _ F9). change (163 =? 163) with true. cbn [andb].
  rewrite (proj1 (read_tag_ok _ _ _ _ _ F9)). cbn [obind].
  destruct (elements_inv _ _ _ _ Ex) as (e10 & rx & F10 & _). rewrite (proj1 (read_tag_ok _ _ _ _ _ F10)). cbn [obind].
  pose proof (key_id_read _ _ xl (length xl) [] El Al ND (le_n _)) as K.
  assert (read_key_id (length xl) [] xl = Some (match subject_key_id va with Some i => i | None => [] end)) as K'.
  { unfold subject_key_id in *. change [85; 29; 14] with oid_subject_key_id in *. destruct (ext_value oid_subject_key_id (ce_extensions va)) as [v|] eqn:X; [|exact K].
    specialize (SK v eq_refl). destruct (elements v) as [lv|]; [|congruence]. destruct lv as [|[tv i] lv]; [congruence|].
    destruct (N.eq_dec tv 4) as [->|NT].
    - destruct lv; [|congruence]. now apply K.
    - exfalso. apply SK. destruct tv as [|p]; [reflexivity|]. repeat (destruct p as [p|p|]; try reflexivity). congruence. }
  rewrite K'. cbn [obind]. eexists. split; [reflexivity|]. cbn [au_subject au_key au_key_id].
  split; [exact I7|]. split; [exact I8|]. split; [reflexivity|].
  destruct (element_within _ _ _ _ _ E0) as [L0 W0]. destruct (element_within _ _ _ _ _ E1) as [L1 W1].
  assert (Q : tbs = (e1 ++ e3 ++ e4 ++ e5 ++ e6) ++ e7 ++ e8 ++ tbs7) by (rewrite <- !app_assoc; congruence).
  assert (Key : len (match subject_key_id va with Some i => i | None => [] end) <= len tbs /\
                (wfb tbs -> wfb (match subject_key_id va with Some i => i | None => [] end))).
  { destruct (subject_key_id va) as [i|] eqn:SI; [|split; [change (len []) with 0; lia|intros _; constructor]]. clear K K' Sk.
    unfold subject_key_id in SI. change [85; 29; 14] with oid_subject_key_id in SI. destruct (ext_value oid_subject_key_id (ce_extensions va)) as [v|] eqn:X; [|discriminate SI].
    assert (len i <= len v /\ (wfb v -> wfb i)) as [Liv Wiv].
    { destruct (elements v) as [lv|] eqn:Elv; [|discriminate SI]. destruct lv as [|[tv i'] lv]; [discriminate SI|].
      assert (i' = i) as ->.
      { destruct (N.eq_dec tv 4) as [->|NT]; [destruct lv; [congruence|discriminate SI]|].
        exfalso. destruct tv as [|p]; [discriminate SI|]. repeat (destruct p as [p|p|]; try discriminate SI). congruence. }
      apply (elements_within _ _ tv i Elv). now left. }
    assert (exists o k, In (o, (k, v)) (ce_extensions va)) as (o & k & Iv).
    { clear -X. induction (ce_extensions va) as [|[o [k x]] r IH]; [discriminate X|]. cbn [ext_value] in X. destruct (bytes_eqb o oid_subject_key_id).
      - injection X as ->. exists o, k. now left.
      - destruct (IH X) as (o' & k' & I'). exists o', k'. now right. }
    assert (exists cx, In (48, cx) l /\ len v <= len cx /\ (wfb cx -> wfb v)) as (cx & Icx & Lcx & Wcx).
    { clear -Al Iv. revert Al Iv. generalize (ce_extensions va). induction l as [|tc l IH]; intros exts Al Iv.
      - injection Al as <-. destruct Iv.
      - apply all_some_cons in Al as (y & r' & R & Al & ->). destruct Iv as [->|Iv].
        + destruct (read_extension_inv _ _ _ _ R) as (cx & -> & Ec). exists cx. split; [now left|].
          destruct Ec as [Ec|Ec]; apply (elements_within _ _ 4 v Ec); cbn [In]; auto.
        + destruct (IH _ Al Iv) as (cx & I1 & I2). exists cx. split; [now right|exact I2]. }
    pose proof (elements_within _ _ _ _ El Icx) as [L2 W2]. pose proof (elements_within _ _ _ _ Ex (or_introl eq_refl)) as [L3 W3].
    pose proof (elements_within _ _ 163 x Et ltac:(do 7 right; now left)) as [L4 W4].
    split; [revert Liv Lcx L2 L3 L4; clear; intros; lia|]. intro Wt. exact (Wiv (Wcx (W2 (W3 (W4 Wt))))). }
  split; [|split].
  - intro W. specialize (W1 (W0 W)). split; [|split; [|exact (proj2 Key W1)]].
    + rewrite Q in W1. apply Forall_app in W1 as [_ W1]. apply Forall_app in W1 as [_ W1]. now apply Forall_app in W1.
    + rewrite Q in W1. apply Forall_app in W1 as [_ W1]. now apply Forall_app in W1.
  - rewrite Q, !len_app in L1. revert L1 L0. clear. intros. lia.
  - exact (N.le_trans _ _ _ (proj1 Key) (N.le_trans _ _ _ L1 L0)).
Qed.
