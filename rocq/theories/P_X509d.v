(* What relying parties find in the certificates that the device and its tools create. *)
From Verif Require Import Base M_Crypto S_Crypto P_Crypto M_Cose M_Str M_X509 S_X509 S_X509Dev P_X509a P_X509b P_X509c.

Lemma len_part tag (e : bytes) l m : In e l -> len (asn1 tag (concat l)) < m -> len e < m.
Proof.
  intros I L. eapply N.le_lt_trans; [apply (len_concat e l I)|]. eapply N.lt_trans; [apply (len_inside tag)|exact L].
Qed.
Lemma len_content tag c m : len (asn1 tag c) < m -> len c < m.
Proof. intro L. eapply N.lt_trans; [apply (len_inside tag)|exact L]. Qed.

Lemma exts_facts v is_ca sid aid : ce_extensions v = exts_of is_ca sid aid -> len (extensions is_ca sid aid) < 4294967296 ->
  ca_flag v = Some is_ca /\ may 0 v = true /\ may 5 v = is_ca /\
  subject_key_id v = (if len sid =? 0 then None else Some sid) /\
  authority_key_id v = (if len aid =? 0 then None else Some aid) /\ NoDup (map fst (ce_extensions v)) /\
  (forall o, ~ In o [[85; 29; 15]; [85; 29; 37]; [85; 29; 19]; [85; 29; 14]; [85; 29; 35]] -> ext_value o (ce_extensions v) = None).
Proof.
  intros X L. unfold ca_flag, may, subject_key_id, authority_key_id. rewrite X.
  split; [destruct is_ca; reflexivity|]. split; [destruct is_ca; reflexivity|]. split; [destruct is_ca; reflexivity|].
  unfold extensions, asn1_seq in L.
  match type of L with len (asn1 48 (concat ?l)) < _ => set (parts := l) in *; pose proof (len_inside 48 (concat parts)) as L1 end.
  assert (Ls : len (if len sid =? 0 then [] else extension oid_subject_key_id false (asn1_octets sid)) < 4294967296).
  { eapply N.le_lt_trans; [apply (len_concat _ parts); do 3 right; now left|]. eapply N.lt_trans; [exact L1|exact L]. }
  assert (La : len (if len aid =? 0 then [] else extension oid_authority_key_id false (asn1_seq [asn1 128 aid])) < 4294967296).
  { eapply N.le_lt_trans; [apply (len_concat _ parts); do 4 right; now left|]. eapply N.lt_trans; [exact L1|exact L]. }
  assert (Inside : forall o v, len (extension o false v) < 4294967296 -> len v < 4294967296).
  { intros o x Lx. apply (len_content 4). apply (len_part 48 _ [asn1_oid o; []; asn1_octets x]); [do 2 right; now left|exact Lx]. }
  clearbody parts. clear L L1 parts.
  split; [|split; [|split]].
  - unfold exts_of. cbn [app ext_value].
    replace (bytes_eqb oid_key_usage [85; 29; 14]) with false by reflexivity.
    replace (bytes_eqb oid_ext_key_usage [85; 29; 14]) with false by reflexivity.
    replace (bytes_eqb oid_basic_constraints [85; 29; 14]) with false by reflexivity.
    destruct (len sid =? 0) eqn:Z.
    + destruct (len aid =? 0); reflexivity.
    + apply Inside in Ls. cbn [app ext_value]. replace (bytes_eqb oid_subject_key_id [85; 29; 14]) with true by reflexivity.
      apply len_content in Ls. unfold asn1_octets. rewrite (elements_one _ (4, sid)) by (apply is_asn1; [discriminate|exact Ls]). reflexivity.
  - unfold exts_of. cbn [app ext_value].
    replace (bytes_eqb oid_key_usage [85; 29; 35]) with false by reflexivity.
    replace (bytes_eqb oid_ext_key_usage [85; 29; 35]) with false by reflexivity.
    replace (bytes_eqb oid_basic_constraints [85; 29; 35]) with false by reflexivity.
    assert (R : match ext_value [85; 29; 35] (if len aid =? 0 then [] else [(oid_authority_key_id, (false, asn1_seq [asn1 128 aid]))]) with
      | Some v => match elements v with
                  | Some [(48, c)] => match elements c with Some [(128, i)] => Some i | _ => None end
                  | _ => None
                  end
      | None => None
      end = (if len aid =? 0 then None else Some aid)).
    { destruct (len aid =? 0) eqn:Z; [reflexivity|]. apply Inside in La. cbn [ext_value].
      replace (bytes_eqb oid_authority_key_id [85; 29; 35]) with true by reflexivity.
      unfold asn1_seq in *. cbn [concat] in *. rewrite app_nil_r in *. apply len_content in La. pose proof (len_content _ _ _ La) as La'.
      rewrite (elements_one _ (48, asn1 128 aid)) by (apply is_asn1; [discriminate|exact La]).
      rewrite (elements_one _ (128, aid)) by (apply is_asn1; [discriminate|exact La']). reflexivity. }
    destruct (len sid =? 0); [exact R|]. cbn [app ext_value]. replace (bytes_eqb oid_subject_key_id [85; 29; 35]) with false by reflexivity. exact R.
  - unfold exts_of. destruct (len sid =? 0), (len aid =? 0); cbn [app map fst];
      repeat (constructor; [cbn [In]; intro Q; repeat destruct Q as [Q|Q]; try discriminate Q; exact Q|]); constructor.
  - intros o No. assert (Ne : forall k, In k [[85; 29; 15]; [85; 29; 37]; [85; 29; 19]; [85; 29; 14]; [85; 29; 35]] -> bytes_eqb k o = false).
    { intros k Ik. apply bytes_eqb_neq. intros ->. exact (No Ik). }
    unfold exts_of. cbn [app ext_value]. rewrite (Ne oid_key_usage), (Ne oid_ext_key_usage), (Ne oid_basic_constraints) by (cbn [In]; auto 6).
    assert (R : ext_value o (if len aid =? 0 then [] else [(oid_authority_key_id, (false, asn1_seq [asn1 128 aid]))]) = None).
    { destruct (len aid =? 0); [reflexivity|]. cbn [ext_value]. now rewrite (Ne oid_authority_key_id) by (cbn [In]; auto 7). }
    destruct (len sid =? 0); [exact R|]. cbn [app ext_value]. rewrite (Ne oid_subject_key_id) by (cbn [In]; auto 6). exact R.
Qed.

Lemma be32_dec x : x < 2 ^ 256 -> be_dec (be 32 x) = x.
Proof. intro H. apply be_dec_be_small. exact H. Qed.

Lemma point_read v x y : ce_key_algorithm v = key_alg (pub_ec {| eq_curve := P256; eq_x := x; eq_y := y |}) ->
  ce_key v = point_bytes (x, y) -> x < 2 ^ 256 -> y < 2 ^ 256 -> ec_point v = Some (x, y).
Proof.
  intros A K X Y. unfold ec_point. rewrite A, K. unfold key_alg. cbn [kq_ec pub_ec].
  replace (elements (concat [asn1_oid oid_ec_public_key; asn1_oid oid_p256])) with (Some [(6, oid_ec_public_key); (6, oid_p256)]) by reflexivity.
  unfold point_bytes. cbn [fst snd]. unfold oid_ec_public_key, oid_p256. cbv iota.
  rewrite len_app, !be_len. change (N.of_nat 32 + N.of_nat 32 =? 64) with true. cbv iota.
  rewrite (takeN_exact (be 32 x)), (dropN_exact (be 32 x)) by apply be_len. now rewrite !be32_dec.
Qed.

Lemma len_asn1_le tag c : len c < 4294967296 -> len (asn1 tag c) <= len c + 6.
Proof.
  intro L. unfold asn1, asn1_length. destruct (len c <? 128); rewrite len_cons, len_app, !len_cons.
  - change (len []) with 0. lia.
  - pose proof (big_bytes_le 4 (len c) L). lia.
Qed.

Lemma key_alg_len k : len (key_alg k) < 100.
Proof. unfold key_alg. destruct (kq_ec k); reflexivity. Qed.
Lemma info_len k info bits : key_info k = Some info -> key_bits k = Some bits -> len bits < 4294960000 -> len info < len bits + 200.
Proof.
  unfold key_info. intros K B L. rewrite B in K. cbn [obind] in K. injection K as <-.
  unfold asn1_seq at 1. cbn [concat]. rewrite app_nil_r.
  replace (match kq_ec k with Some _ => asn1_seq [asn1_oid oid_ec_public_key; asn1_oid oid_p256] | None => asn1_seq [asn1_oid oid_ed25519] end)
    with (asn1 48 (key_alg k)) by (unfold key_alg; destruct (kq_ec k); reflexivity).
  pose proof (key_alg_len k) as A. pose proof (len_asn1_le 48 (key_alg k) ltac:(lia)) as A1.
  assert (L0 : len (0 :: bits) = 1 + len bits) by apply len_cons.
  pose proof (len_asn1_le 3 (0 :: bits) ltac:(lia)) as A2. unfold asn1_bits.
  assert (Q : len (asn1 48 (key_alg k) ++ asn1 3 (0 :: bits)) <= len bits + 150) by (rewrite len_app; lia).
  pose proof (len_asn1_le 48 (asn1 48 (key_alg k) ++ asn1 3 (0 :: bits)) ltac:(lia)) as A3. lia.
Qed.

Section Made.
  Variable C : Crypto.
  Variable sha1 : bytes -> bytes.

  Lemma bits_len own m s bits : cose_verify C own m s = Ok true -> key_bits own = Some bits -> len bits <= 65.
  Proof.
    unfold cose_verify, key_bits. destruct (kq_ec own) as [e|].
    - intros _. destruct (eq_curve e); [|discriminate]. intro H. injection H as <-. unfold point_bytes. rewrite len_cons, len_app, !be_len. lia.
    - destruct (kq_ed own) as [e|]; [|discriminate]. destruct (len e =? 32) eqn:E; [|discriminate]. intros _ H. injection H as <-. apply N.eqb_eq in E. lia.
  Qed.

  Lemma signed_read va v key own bits : cose_public key = Ok own -> key_bits own = Some bits -> sized key ->
    ce_key_algorithm va = key_alg own -> ce_key va = bits -> ce_algorithm v = sig_alg key ->
    cose_verify C own (ce_signed v) (ce_signature v) = Ok true -> signed_by C va v = true.
  Proof.
    unfold cose_public, sized, key_bits, cose_verify, sig_alg. intros P B Z A K G V. unfold signed_by. rewrite G.
    destruct (kp_ec key) as [e|].
    - injection P as <-. cbn [kq_ec pub_ec] in *. replace (elements (asn1_oid oid_ecdsa_sha256)) with (Some [(6, oid_ecdsa_sha256)]) by reflexivity.
      cbv [oid_ecdsa_sha256]. destruct e as [[cv x y] d]. cbn [ec_public eq_curve eq_x eq_y] in *. destruct cv; [|discriminate B].
      rewrite (point_read va x y); try tauto; [|congruence]. injection V as V. exact V.
    - replace (elements (asn1_oid oid_ed25519)) with (Some [(6, oid_ed25519)]) by reflexivity. cbv [oid_ed25519].
      destruct (kp_ed key) as [e|]; [|destruct (kp_rsa key); [injection P as <-; discriminate B|discriminate P]].
      destruct (ed_public e) as [p|] eqn:Ep; [|discriminate P]. cbn [rbind] in P. injection P as <-. cbn [kq_ec kq_ed pub_ed] in *. injection B as <-.
      unfold ed_point. rewrite A. unfold key_alg. cbn [kq_ec pub_ed].
      replace (elements (concat [asn1_oid oid_ed25519])) with (Some [(6, oid_ed25519)]) by reflexivity. cbv [oid_ed25519].
      destruct (len p =? 32); [|discriminate V]. injection V as V. rewrite K. exact V.
  Qed.

  Definition attestation_sc : bytes :=
    concat [rdn oid_country (str "US"); rdn oid_organization (str "Self-Signed Virtual FIDO");
            rdn oid_unit (str "Authenticator Attestation"); rdn oid_common_name (str "Self-Signed Virtual FIDO")].
  Definition ca_sc : bytes := concat [rdn oid_country (str "US"); rdn oid_organization (str "Self-Signed Virtual FIDO")].
  Lemma attestation_subject_read : is_element attestation_subject (48, attestation_sc).
  Proof. vm_compute. reflexivity. Qed.
  Lemma ca_subject_read : is_element ca_subject (48, ca_sc).
  Proof. vm_compute. reflexivity. Qed.

  Lemma readable_parent ca va : readable ca va -> exists a info, parse_authority ca = Some a /\
    is_element (au_subject a) (48, ce_subject va) /\ is_element (au_key a) (48, info) /\
    elements info = Some [(48, ce_key_algorithm va); (3, 0 :: ce_key va)] /\
    au_key_id a = match subject_key_id va with Some i => i | None => [] end /\
    (wfb ca -> wfb (au_key a) /\ wfb (au_subject a) /\ wfb (au_key_id a)) /\ len (au_subject a) <= len ca /\ len (au_key_id a) <= len ca.
  Proof.
    intros (R & V & N & S). apply parent_read; auto. intros x X. apply S. change [85; 29; 14] with oid_subject_key_id. congruence.
  Qed.

  Lemma attestation_read rnd t1 t2 ca va ca_key x y cert : readable ca va -> sized ca_key ->
    proper_date t1 -> proper_date t2 -> d_year t2 <= 9989 -> x < 2 ^ 256 -> y < 2 ^ 256 ->
    create_attestation_certificate C sha1 rnd t1 t2 ca ca_key (pub_ec {| eq_curve := P256; eq_x := x; eq_y := y |}) = Some cert ->
    exists v cc, read_certificate cert = Some v /\ is_element cert (48, cc) /\
      ce_version v = 3 /\ ce_serial v = [0] /\ ce_issuer v = ce_subject va /\ ce_subject v = attestation_sc /\
      ce_before v = t1 /\ ce_after v = add_ten_years t2 /\ ec_point v = Some (x, y) /\
      ca_flag v = Some false /\ may 0 v = true /\ may 5 v = false /\ subject_key_id v = None /\
      (authority_key_id v = None \/ authority_key_id v = subject_key_id va) /\
      (forall o, ~ In o [[85; 29; 15]; [85; 29; 37]; [85; 29; 19]; [85; 29; 14]; [85; 29; 35]] -> ext_value o (ce_extensions v) = None) /\
      signed_by C va v = true.
  Proof.
    intros Rd Z P1 P2 Y9 X Y H. destruct (readable_parent _ _ Rd) as (a & info & A & As & Ak & Ei & Ai & _).
    unfold create_attestation_certificate in H. rewrite A in H. cbn [obind] in H.
    destruct (created C sha1 _ _ _ _ _ _ _ _ _ _ (ce_subject va) H P1 (ten_years _ P2 Y9) attestation_subject_read As)
      as (v & own & bits & cc & V1 & V2 & V3 & V4 & V5 & V6 & V7 & V8 & V9 & V10 & V11 & V12 & V13 & V14 & V15 & V16 & V17).
    exists v, cc. destruct (exts_facts _ _ _ _ V14 V17) as (F1 & F2 & F3 & F4 & F5 & F6 & F7).
    split; [exact V1|]. split; [exact V2|]. split; [exact V5|]. split; [exact V6|]. split; [exact V8|]. split; [exact V11|].
    split; [exact V9|]. split; [exact V10|]. split.
    { apply point_read; auto. cbn [key_bits kq_ec pub_ec eq_curve eq_x eq_y] in V4. congruence. }
    split; [exact F1|]. split; [exact F2|]. split; [exact F3|]. split; [exact F4|]. split.
    { rewrite F5. destruct (bytes_eqb (au_subject a) attestation_subject); [now left|]. rewrite Ai.
      destruct (subject_key_id va) as [i|]; [|now left]. destruct (len i =? 0); auto. }
    split; [exact F7|]. destruct (key_bits own) as [ob|] eqn:OB; [|unfold key_info in V16; rewrite OB in V16; discriminate V16].
    pose proof (bits_len _ _ _ _ V15 OB) as Lb. pose proof (info_len _ _ _ V16 OB ltac:(lia)) as Li.
    destruct (key_info_read _ _ _ V16 OB ltac:(lia)) as (c & Q1 & Q2). unfold is_element in Q1, Ak. cbn [fst snd] in *.
    rewrite Q1 in Ak. injection Ak as ->. rewrite Q2 in Ei. injection Ei as Q3 Q4.
    apply (signed_read va v ca_key own ob); auto.
  Qed.

  Lemma attestation_name : read_name attestation_sc =
    Some [([85; 4; 6], (19, str "US")); ([85; 4; 10], (19, str "Self-Signed Virtual FIDO"));
          ([85; 4; 11], (19, str "Authenticator Attestation")); ([85; 4; 3], (19, str "Self-Signed Virtual FIDO"))].
  Proof. vm_compute. reflexivity. Qed.

  Lemma packed v : ce_version v = 3 -> ce_subject v = attestation_sc -> ca_flag v = Some false ->
    packed_certificate false v = true /\ packed_certificate true v = false.
  Proof.
    intros V S F. unfold packed_certificate. rewrite V, S, F, attestation_name. split; vm_compute; reflexivity.
  Qed.

  (* The authority's own certificate. *)
  Lemma ca_read rnd t1 t2 key ca : sized key -> proper_date t1 -> proper_date t2 -> d_year t2 <= 9989 ->
    create_ca C sha1 rnd t1 t2 key = Some ca ->
    exists va own bits, cose_public key = Ok own /\ key_bits own = Some bits /\ readable ca va /\
      ce_issuer va = ca_sc /\ ce_subject va = ca_sc /\ ce_before va = t1 /\ ce_after va = add_ten_years t2 /\
      ce_key_algorithm va = key_alg own /\ ce_key va = bits /\ ce_serial va = [0] /\
      ca_flag va = Some true /\ may 0 va = true /\ may 5 va = true /\
      subject_key_id va = (if len (sha1 bits) =? 0 then None else Some (sha1 bits)) /\ authority_key_id va = None /\
      signed_by C va va = true.
  Proof.
    intros Z P1 P2 Y9 H. unfold create_ca in H. destruct (cose_public key) as [pub|] eqn:Pub; [|discriminate H]. cbn [obind] in H.
    destruct (created C sha1 _ _ _ _ _ _ _ _ _ _ ca_sc H P1 (ten_years _ P2 Y9) ca_subject_read eq_refl)
      as (v & own & bits & cc & V1 & V2 & V3 & V4 & V5 & V6 & V7 & V8 & V9 & V10 & V11 & V12 & V13 & V14 & V15 & V16 & V17).
    assert (own = pub) as -> by congruence. exists v, pub, bits. destruct (exts_facts _ _ _ _ V14 V17) as (F1 & F2 & F3 & F4 & F5 & F6 & F7).
    split; [reflexivity|]. split; [exact V4|]. split.
    { split; [exact V1|]. split; [exact V5|]. split; [exact F6|]. rewrite F4. unfold ext_value. rewrite V14. unfold exts_of.
      destruct (len (sha1 bits) =? 0); [intro N; exfalso; apply N; reflexivity|discriminate]. }
    split; [exact V8|]. split; [exact V11|]. split; [exact V9|]. split; [exact V10|]. split; [exact V12|]. split; [exact V13|]. split; [exact V6|].
    split; [exact F1|]. split; [exact F2|]. split; [exact F3|]. split; [exact F4|]. split; [exact F5|].
    apply (signed_read v v key pub bits); auto.
  Qed.
End Made.

(* ---------------------------------------------------- DER is unique *)
Lemma element_unique e t c : wfb e -> is_element e (t, c) -> e = asn1 t c.
Proof.
  unfold is_element. cbn [fst snd]. intros W H. destruct e as [|tag [|l b]]; try discriminate. unfold element in H.
  destruct (l <? 128) eqn:L.
  - rewrite dropN_0, takeN_0 in H. destruct (negb _ && _) eqn:G; [|discriminate H]. apply andb_prop in G as [_ G]. apply N.leb_le in G.
    injection H as -> Hc Hb Hd. cbn [app] in Hb. unfold asn1, asn1_length.
    assert (Lc : len c = l) by (rewrite <- Hc, takeN_len; lia). rewrite Lc, L. cbn [app]. congruence.
  - set (n := l - 128) in *. set (v := be_dec (takeN n b)) in *.
    destruct (_ && _ && _ && _ && _) eqn:G; [|discriminate H]. destruct (negb _ && _) eqn:G'; [|discriminate H].
    apply andb_prop in G' as [_ G2]. apply N.leb_le in G2.
    repeat match goal with H : (_ && _)%bool = true |- _ => apply andb_prop in H as [? ?] end.
    repeat match goal with H : (_ <=? _) = true |- _ => apply N.leb_le in H end.
    injection H as -> Hc Hb Hd. assert (Lc : len c = v) by (rewrite <- Hc, takeN_len; lia).
    assert (Wn : wfb (takeN n b)).
    { inversion_clear W as [|? ? _ W1]. inversion_clear W1 as [|? ? _ W2]. rewrite <- (takeN_dropN n b) in W2. apply Forall_app in W2. tauto. }
    assert (Ln : len (takeN n b) = n) by (rewrite takeN_len; lia).
    assert (Bb : big_bytes v = takeN n b).
    { assert (Lb : len (big_bytes v) = n).
      { assert (v < 256 ^ n) as U by (unfold v; rewrite <- Ln at 2; now apply be_dec_bound).
        pose proof (big_bytes_le n v U) as U1. destruct (N.lt_ge_cases (len (big_bytes v)) n) as [Lt|]; [|lia]. exfalso.
        assert (v < 256 ^ (n - 1)); [|lia].
        assert (be_dec (big_bytes v) < 256 ^ len (big_bytes v)) as U2 by (apply be_dec_bound, big_bytes_wf).
        change (be_dec (big_bytes v)) with (big_set (big_bytes v)) in U2. rewrite big_set_bytes in U2. eapply N.lt_le_trans; [exact U2|].
        apply N.pow_le_mono_r; lia. }
      unfold big_bytes. rewrite <- (be_be_dec (takeN n b) Wn). fold v. f_equal.
      apply Nat2N.inj. change (N.of_nat (length (takeN n b))) with (len (takeN n b)). rewrite Ln, <- Lb. unfold big_bytes. now rewrite be_len. }
    unfold asn1, asn1_length. rewrite Lc. replace (v <? 128) with false by lia. rewrite Bb, Ln. replace (128 + n) with l by lia.
    cbn [app]. congruence.
Qed.
