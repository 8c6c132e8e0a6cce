(* Creation succeeds; what the relying parties of the device verify. *)
From Verif Require Import Base M_Cbor M_Crypto S_Crypto P_Crypto M_Cose M_Str M_State M_Client M_Ctap M_U2f M_X509.
From Verif Require Import S_Cbor S_Cose S_State S_Client S_Ctap S_CtapReq S_U2f S_X509 S_X509Dev P_Cose P_Ctap P_Ctap2 P_Ctap3 P_U2f2 P_X509a P_X509b P_X509c P_X509d.

(* ---------------------------------------------------- creation *)
Lemma time_made d : proper_date d -> exists e, asn1_time d = Some e.
Proof.
  intro P. unfold asn1_time. destruct (_ && _); [eauto|]. replace (d_year d <=? 9999) with true by (unfold proper_date in P; lia). eauto.
Qed.

Lemma extensions_len is_ca sid aid : len sid + len aid < 4294960000 -> len (extensions is_ca sid aid) < len sid + len aid + 300.
Proof.
  intro L. unfold extensions, asn1_seq at 1. cbn [concat]. rewrite app_nil_r.
  set (e1 := extension oid_key_usage true (key_usage is_ca)).
  set (e2 := extension oid_ext_key_usage false _). set (e3 := extension oid_basic_constraints true _).
  set (e4 := if len sid =? 0 then [] else _). set (e5 := if len aid =? 0 then [] else _).
  assert (L1 : len e1 < 30) by (destruct is_ca; reflexivity). assert (L2 : len e2 < 50) by reflexivity. assert (L3 : len e3 < 30) by (destruct is_ca; reflexivity).
  assert (Ext : forall o v, len o = 3 -> len v < 4294965000 -> len (extension o false v) <= len v + 20).
  { intros o v Lo Lv. unfold extension, asn1_seq, asn1_oid, asn1_octets. cbn [concat]. rewrite app_nil_r. cbn [app].
    pose proof (len_asn1_le 6 o ltac:(lia)). pose proof (len_asn1_le 4 v ltac:(lia)).
    assert (len (asn1 6 o) = 5) by (unfold asn1, asn1_length; rewrite Lo; change (3 <? 128) with true; cbn [app]; rewrite !len_cons; lia).
    assert (len (asn1 6 o ++ asn1 4 v) <= len v + 11) by (rewrite len_app; lia).
    pose proof (len_asn1_le 48 (asn1 6 o ++ asn1 4 v) ltac:(lia)). lia. }
  assert (L4 : len e4 <= len sid + 30).
  { unfold e4. destruct (len sid =? 0); [change (len []) with 0; lia|]. unfold asn1_octets. pose proof (len_asn1_le 4 sid ltac:(lia)).
    pose proof (Ext oid_subject_key_id (asn1 4 sid) eq_refl ltac:(lia)). lia. }
  assert (L5 : len e5 <= len aid + 40).
  { unfold e5. destruct (len aid =? 0); [change (len []) with 0; lia|]. unfold asn1_seq. cbn [concat]. rewrite app_nil_r. pose proof (len_asn1_le 128 aid ltac:(lia)).
    pose proof (len_asn1_le 48 (asn1 128 aid) ltac:(lia)). pose proof (Ext oid_authority_key_id (asn1 48 (asn1 128 aid)) eq_refl ltac:(lia)). lia. }
  clearbody e1 e2 e3 e4 e5. assert (Q : len (e1 ++ e2 ++ e3 ++ e4 ++ e5) <= len sid + len aid + 180) by (rewrite !len_app; lia).
  pose proof (len_asn1_le 48 (e1 ++ e2 ++ e3 ++ e4 ++ e5) ltac:(lia)). lia.
Qed.

Section Made.
  Variable C : Crypto.
  Variable sha1 : bytes -> bytes.

  Lemma certificate_made rnd subject (is_ca : bool) t1 t2 parent pub bits d : laws C -> valid_scalar d ->
    key_bits pub = Some bits -> len bits = 65 -> proper_date t1 -> proper_date t2 ->
    (match parent with Some p => Some (au_key p) = key_info (pub_ec (ec_public (ec_key C d))) | None => True end) ->
    len rnd + len subject + len (if is_ca then sha1 bits else []) +
      match parent with Some p => len (au_subject p) + len (au_key_id p) | None => len subject end < 4294960000 ->
    exists cert : bytes, create_certificate C sha1 rnd subject is_ca t1 t2 parent pub (priv_ec (ec_key C d)) = Some cert.
  Proof.
    intros L V KB B65 P1 P2 PK Sz. unfold create_certificate. change (cose_public (priv_ec (ec_key C d))) with (Ok (pub_ec (ec_public (ec_key C d)))).
    cbn [obind]. set (own := pub_ec (ec_public (ec_key C d))) in *.
    assert (exists oi, key_info own = Some oi) as (oi & OI) by (unfold own; cbn; eauto). rewrite OI in *. cbn [obind]. rewrite KB. cbn [obind].
    assert (exists info, key_info pub = Some info) as (info & KI) by (unfold key_info; rewrite KB; cbn [obind]; eauto). rewrite KI. cbn [obind].
    pose proof (info_len _ _ _ KI KB ltac:(lia)) as Li.
    set (issuer := match parent with Some p => au_subject p | None => subject end).
    set (aid := match parent with Some p => if bytes_eqb issuer subject then [] else au_key_id p | None => [] end).
    set (sid := if is_ca then sha1 bits else []) in *.
    assert (Sz0 : len rnd + len subject + len sid +
      match parent with Some p => len (au_subject p) + len (au_key_id p) | None => len subject end < 4294960000) by exact Sz. clear Sz.
    assert (Sz' : len rnd + len subject + len sid + len issuer + len aid < 4294960000).
    { unfold aid, issuer. destruct parent as [p|]; cbv iota in Sz0 |- *; [|change (len []) with 0; lia]. destruct (bytes_eqb (au_subject p) subject); [change (len []) with 0|]; lia. }
    replace (match parent with Some p => bytes_eqb oi (au_key p) | None => true end) with true.
    2:{ destruct parent as [p|]; [|reflexivity]. injection PK as ->. symmetry. now apply bytes_eqb_eq. }
    destruct (time_made _ P1) as (before & T1). destruct (time_made _ P2) as (after & T2). rewrite T1, T2. cbn [obind].
    destruct (time_read _ _ P1 T1) as (_ & _ & _ & Lt1). destruct (time_read _ _ P2 T2) as (_ & _ & _ & Lt2).
    match goal with |- context [cose_sign C _ (asn1_seq ?l) rnd] => set (parts := l) end.
    assert (Lp : len (asn1_seq parts) < len subject + len sid + len issuer + len aid + 3500).
    { pose proof (extensions_len is_ca sid aid ltac:(lia)) as X1. pose proof (len_asn1_le 163 (extensions is_ca sid aid) ltac:(lia)) as X2.
      assert (X3 : len (asn1_seq [before; after]) <= 2020).
      { unfold asn1_seq. cbn [concat]. rewrite app_nil_r. assert (len (before ++ after) < 2000) by (rewrite len_app; lia).
        pose proof (len_asn1_le 48 (before ++ after) ltac:(lia)). lia. }
      unfold asn1_seq at 1. assert (Q : len (concat parts) < len subject + len sid + len issuer + len aid + 3400).
      { unfold parts. cbn [concat]. rewrite app_nil_r. rewrite !len_app. change (len (asn1 160 (asn1 2 [2]))) with 5. change (len (asn1 2 [0])) with 3.
        change (len (signature_algorithm (priv_ec (ec_key C d)))) with 12. lia. }
      pose proof (len_asn1_le 48 (concat parts) ltac:(lia)). lia. }
    change (cose_sign C (priv_ec (ec_key C d)) (asn1_seq parts) rnd) with (Ok (ecdsa_sign C d (sha256 C (asn1_seq parts)) rnd)). cbv iota beta.
    set (sig := ecdsa_sign C d (sha256 C (asn1_seq parts)) rnd).
    assert (Vf : cose_verify C own (asn1_seq parts) sig = Ok true).
    { unfold cose_verify, own, verify_ecdsa, sig. cbn [kq_ec pub_ec ec_public ec_key eq_x eq_y eq_curve]. f_equal. rewrite <- surjective_pairing. now apply l_ecdsa. }
    rewrite Vf. pose proof (l_ecdsa_len _ L d (sha256 C (asn1_seq parts)) rnd) as Ls. fold sig in Ls.
    assert (Lc : len (asn1_seq [asn1_seq parts; signature_algorithm (priv_ec (ec_key C d)); asn1_bits sig]) < 4294967296).
    { unfold asn1_seq at 1. cbn [concat]. rewrite app_nil_r. unfold asn1_bits. assert (L0 : len (0 :: sig) = 1 + len sig) by apply len_cons.
      pose proof (len_asn1_le 3 (0 :: sig) ltac:(lia)). change (len (signature_algorithm (priv_ec (ec_key C d)))) with 12 in *.
      assert (Q : len (asn1_seq parts ++ signature_algorithm (priv_ec (ec_key C d)) ++ asn1 3 (0 :: sig)) <
        len rnd + len subject + len sid + len issuer + len aid + 3700).
      { rewrite !len_app. change (len (signature_algorithm (priv_ec (ec_key C d)))) with 12. lia. }
      pose proof (len_asn1_le 48 (asn1_seq parts ++ signature_algorithm (priv_ec (ec_key C d)) ++ asn1 3 (0 :: sig)) ltac:(lia)). lia. }
    rewrite (proj2 (N.ltb_lt _ _) Lc). eauto.
  Qed.

  Lemma ec_point_inv v q : ec_point v = Some q -> exists p, ce_key v = 4 :: p /\ len p = 64 /\ q = (be_dec (takeN 32 p), be_dec (dropN 32 p)) /\
    elements (ce_key_algorithm v) = Some [(6, oid_ec_public_key); (6, oid_p256)].
  Proof.
    unfold ec_point. intro H. destruct (elements (ce_key_algorithm v)) as [l|]; [|discriminate H].
    destruct l as [|[t1 o1] l]; [discriminate H|]. destruct l as [|[t2 o2] l]; [exfalso; clear -H; repeat (match type of H with context [match ?x with _ => _ end] => destruct x; try discriminate H end)|].
    destruct (ce_key v) as [|z p] eqn:K.
    { exfalso; clear -H. repeat (match type of H with context [match ?x with _ => _ end] => destruct x; try discriminate H end). }
    assert (t1 = 6 /\ o1 = oid_ec_public_key /\ t2 = 6 /\ o2 = oid_p256 /\ l = [] /\ z = 4 /\ (if len p =? 64 then Some (be_dec (takeN 32 p), be_dec (dropN 32 p)) else None) = Some q) as (-> & -> & -> & -> & -> & -> & Q).
    { clear K. repeat (match type of H with (match ?x with _ => _ end) = _ => first [is_var x; destruct x; try discriminate H | fail 1] end).
      repeat split; try reflexivity. exact H. }
    exists p. destruct (len p =? 64) eqn:E; [|discriminate Q]. apply N.eqb_eq in E. repeat split; auto. congruence.
  Qed.

  Lemma attestation_made rnd t1 t2 ca va d x y : laws C -> valid_scalar d -> wfb ca -> readable ca va -> ec_point va = Some (p256_pub C d) ->
    proper_date t1 -> proper_date t2 -> d_year t2 <= 9989 -> len ca + len rnd < 2000000000 ->
    exists cert : bytes, create_attestation_certificate C sha1 rnd t1 t2 ca (create_ca_key C d) (pub_ec {| eq_curve := P256; eq_x := x; eq_y := y |}) = Some cert.
  Proof.
    intros L V W Rd Pt P1 P2 Y9 Sz. destruct (readable_parent _ _ Rd) as (a & info & A & As & Ak & Ei & Ai & Wk & Ls & Lk).
    unfold create_attestation_certificate. rewrite A. cbn [obind].
    apply (certificate_made rnd attestation_subject false t1 (add_ten_years t2) (Some a) _ (point_bytes (x, y))); auto.
    - now apply ten_years.
    - destruct (ec_point_inv _ _ Pt) as (p & K & Lp & Q & El). apply Wk in W as [Wk' _]. clear Wk. rename Wk' into Wk.
      pose proof (element_unique _ _ _ Wk Ak) as U. rewrite U in Wk |- *.
      assert (Wi : wfb info). { unfold asn1 in Wk. inversion_clear Wk as [|? ? _ W1]. now apply Forall_app in W1. }
      destruct (elements_inv _ _ _ _ Ei) as (e1 & r1 & G1 & G2 & G3 & G4). destruct (elements_inv _ _ _ _ G4) as (e2 & r2 & G5 & G6 & G7 & G8). apply elements_nil in G8.
      subst r2. rewrite app_nil_r in G7. subst r1 info. apply Forall_app in Wi as [W1 W2].
      pose proof (element_unique _ _ _ W1 G2) as U1. pose proof (element_unique _ _ _ W2 G6) as U2. rewrite U1, U2 in *.
      assert (Wa : wfb (ce_key_algorithm va)). { unfold asn1 in W1. inversion_clear W1 as [|? ? _ W3]. now apply Forall_app in W3. }
      assert (Wp : wfb p). { unfold asn1 in W2. inversion_clear W2 as [|? ? _ W3]. apply Forall_app in W3 as [_ W3]. inversion_clear W3 as [|? ? _ W4]. rewrite K in W4. now inversion_clear W4. }
      destruct (elements_inv _ _ _ _ El) as (e3 & r3 & J1 & J2 & J3 & J4). destruct (elements_inv _ _ _ _ J4) as (e4 & r4 & J5 & J6 & J7 & J8). apply elements_nil in J8.
      subst r4. rewrite app_nil_r in J7. subst r3. rewrite J3 in Wa. apply Forall_app in Wa as [Wa1 Wa2].
      pose proof (element_unique _ _ _ Wa1 J2) as U3. pose proof (element_unique _ _ _ Wa2 J6) as U4.
      assert (Kp : ce_key va = point_bytes (p256_pub C d)).
      { rewrite K, Q. unfold point_bytes. cbn [fst snd]. f_equal. rewrite <- (takeN_dropN 32 p) at 1. f_equal.
        - assert (Wt : wfb (takeN 32 p)) by (rewrite <- (takeN_dropN 32 p) in Wp; now apply Forall_app in Wp).
          rewrite <- (be_be_dec _ Wt) at 1. f_equal. apply Nat2N.inj. change (N.of_nat (length (takeN 32 p))) with (len (takeN 32 p)). rewrite takeN_len. lia.
        - assert (Wt : wfb (dropN 32 p)) by (rewrite <- (takeN_dropN 32 p) in Wp; now apply Forall_app in Wp).
          rewrite <- (be_be_dec _ Wt) at 1. f_equal. apply Nat2N.inj. change (N.of_nat (length (dropN 32 p))) with (len (dropN 32 p)). rewrite dropN_len. lia. }
      rewrite J3, Kp, U3, U4. unfold key_info, key_bits. cbn [kq_ec pub_ec ec_public ec_key eq_curve eq_x eq_y obind]. rewrite <- surjective_pairing.
      unfold asn1_seq, asn1_oid, asn1_bits. cbn [concat]. rewrite !app_nil_r. reflexivity.
    - assert (len attestation_subject < 1000) by reflexivity. change (len []) with 0. lia.
  Qed.

  Lemma ca_made rnd t1 t2 d : laws C -> valid_scalar d -> proper_date t1 -> proper_date t2 -> d_year t2 <= 9989 ->
    (forall b, len (sha1 b) = 20) -> len rnd < 2000000000 -> exists ca : bytes, create_ca C sha1 rnd t1 t2 (create_ca_key C d) = Some ca.
  Proof.
    intros L V P1 P2 Y9 S Sz. unfold create_ca. change (cose_public (create_ca_key C d)) with (Ok (pub_ec (ec_public (ec_key C d)))). cbn [obind].
    apply (certificate_made rnd ca_subject true t1 (add_ten_years t2) None _ (point_bytes (p256_pub C d))); auto.
    - now apply ten_years.
    - rewrite S. assert (len ca_subject < 1000) by reflexivity. lia.
  Qed.
End Made.
