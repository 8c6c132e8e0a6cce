(* What relying parties accept: the properties of C_X509. *)
From Verif Require Import Base M_Cbor M_Crypto S_Crypto P_Crypto M_Cose M_Str M_State M_Client M_Ctap M_U2f M_X509.
From Verif Require Import S_Cbor S_Cose S_State S_Client S_Ctap S_CtapReq S_U2f S_X509 S_X509Dev P_Cose P_Ctap P_Ctap2 P_Ctap3 P_U2f2.
From Verif Require Import P_X509a P_X509b P_X509c P_X509d P_X509e.

Lemma leap10 d : 1 <= d_day d <= month_days (d_year d) (d_month d) -> (d_month d =? 2) && (d_day d =? 29) = true ->
  leap_year (d_year d + 10) = false.
Proof.
  intros D F. apply andb_prop in F as [M Dd]. apply N.eqb_eq in M, Dd. unfold month_days in D. rewrite M, Dd in D.
  change (2 =? 2) with true in D. cbv iota in D. destruct (d_year d mod 4 =? 0) eqn:L; [|cbn [andb] in D; lia]. apply N.eqb_eq in L.
  unfold leap_year. replace ((d_year d + 10) mod 4 =? 0) with false; [reflexivity|]. symmetry. apply N.eqb_neq.
  rewrite <- N.add_mod_idemp_l by lia. rewrite L. discriminate.
Qed.

Lemma ten_later d : proper_date d -> ten_years_after d (add_ten_years d).
Proof.
  intros (_ & _ & D & _). unfold ten_years_after, add_ten_years. destruct ((d_month d =? 2) && (d_day d =? 29)) eqn:F; cbn [andb].
  - replace (leap_year (d_year d + 10)) with false by (symmetry; revert D F; clear; intros D F; apply leap10; assumption).
    cbn. repeat split; reflexivity.
  - cbn. repeat split; reflexivity.
Qed.

Lemma packed_ok C auth hash sig cert v x y strict : read_certificate cert = Some v -> ec_point v = Some (x, y) ->
  (forall o, ~ In o [[85; 29; 15]; [85; 29; 37]; [85; 29; 19]; [85; 29; 14]; [85; 29; 35]] -> ext_value o (ce_extensions v) = None) ->
  ecdsa_verify C (x, y) (sha256 C (auth ++ hash)) sig = true -> packed_accepts C strict auth hash sig cert = packed_certificate strict v.
Proof.
  intros R P X V. unfold packed_accepts. rewrite R, P, V, X; [destruct (packed_certificate strict v); reflexivity|].
  intro I. cbn [In] in I. repeat destruct I as [I|I]; try discriminate I; exact I.
Qed.

Lemma certified E sha1 before after rnd va t ca k x y cert : certifies E sha1 before after rnd -> readable ca va -> sized k ->
  x < 2 ^ 256 -> y < 2 ^ 256 -> e_make_cert E t ca k (pub_ec {| eq_curve := P256; eq_x := x; eq_y := y |}) = Some cert ->
  exists v cc, read_certificate cert = Some v /\ is_element cert (48, cc) /\
      ce_version v = 3 /\ ce_issuer v = ce_subject va /\ ce_subject v = attestation_sc /\ ec_point v = Some (x, y) /\
      ca_flag v = Some false /\
      (forall o, ~ In o [[85; 29; 15]; [85; 29; 37]; [85; 29; 19]; [85; 29; 14]; [85; 29; 35]] -> ext_value o (ce_extensions v) = None) /\
      signed_by (e_C E) va v = true.
Proof.
  intros [Ce Cl] Rd Z X Y H. apply Ce in H as [H _]. destruct (Cl t) as (P1 & P2 & Y9).
  destruct (attestation_read (e_C E) sha1 _ _ _ _ _ _ _ _ _ Rd Z P1 P2 Y9 X Y H)
    as (v & cc & V1 & V2 & V3 & V4 & V5 & V6 & V7 & V8 & V9 & V10 & V11 & V12 & V13 & V14 & V15 & V16).
  exists v, cc. do 8 (split; [assumption|]). assumption.
Qed.

(* U2F *)
Lemma taken_apart pk h cert sig cc : len pk = 65 -> is_element cert (48, cc) ->
  take_apart (registration_reply pk h cert sig) = Some (pk, h, cert, sig).
Proof.
  intros Lp Ic. unfold registration_reply. cbn [app]. unfold take_apart.
  assert (L : len (pk ++ len h :: h ++ cert ++ sig ++ [0x90; 0]) <? 66 = false) by (rewrite len_app, len_cons; lia). rewrite L.
  rewrite takeN_exact, dropN_exact by exact Lp. rewrite takeN_exact, dropN_exact by reflexivity.
  destruct (element_split _ _ _ _ _ Ic) as (_ & _ & _ & Er). cbn [fst snd] in Er. rewrite Er.
  assert (L2 : len (sig ++ [0x90; 0]) = len sig + 2) by (rewrite len_app; reflexivity). rewrite L2.
  replace (len sig + 2 <? 2) with false by lia. replace (len sig + 2 - 2) with (len sig) by lia.
  rewrite dropN_exact, takeN_exact by reflexivity. reflexivity.
Qed.

Lemma u2f_accepted E sha1 before after rnd w msg w' r va : env_ok E -> certifies E sha1 before after rnd ->
  client_ok E (w_client w) -> readable (cl_cert (w_client w)) va -> sized (cl_certkey (w_client w)) -> wfb msg ->
  nth_error msg 1 = Some 1 -> u2f_handle E msg w = (w', Ok r) -> r <> refused ->
  exists p1 chal app pk h cert sig v, reads msg 1 p1 (chal ++ app) /\ len chal = 32 /\ len app = 32 /\
    u2f_accepts (e_C E) app chal r = true /\ take_apart r = Some (pk, h, cert, sig) /\
    read_certificate cert = Some v /\ ce_issuer v = ce_subject va /\ signed_by (e_C E) va v = true /\
    exists q, ec_point v = Some q /\ encodes_point pk q.
Proof.
  intros L Ce K Rd Z W N H NR.
  destruct (u2f_registration E w msg w' r L K W N H) as (p1 & chal & app & ok & R & Lc & La & _ & _ & [[_ Q]|[_ G]]); [congruence|].
  destruct G as (pk & x & y & h & cert & sig & d & -> & Ep & X & Y & Lh & Vf & (t & Mc) & _).
  destruct (certified _ _ _ _ _ _ _ _ _ _ _ _ Ce Rd Z X Y Mc) as (v & cc & V1 & V2 & V3 & V4 & V5 & V6 & V7 & V8 & V9).
  assert (T : take_apart (registration_reply pk h cert sig) = Some (pk, h, cert, sig)).
  { eapply taken_apart; [|exact V2]. rewrite Ep. rewrite !len_app, !be_len. reflexivity. }
  exists p1, chal, app, pk, h, cert, sig, v. split; [exact R|]. split; [exact Lc|]. split; [exact La|]. split.
  { unfold u2f_accepts. rewrite T, V1, V6. exact Vf. }
  split; [exact T|]. split; [exact V1|]. split; [exact V4|]. split; [exact V9|]. exists (x, y). auto.
Qed.

(* CTAP *)
Lemma ctap_accepted E sha1 before after rnd w data w' b va : env_ok E -> certifies E sha1 before after rnd ->
  client_ok E (w_client w) -> readable (cl_cert (w_client w)) va -> sized (cl_certkey (w_client w)) -> wfb data ->
  ctap_handle E (1 :: data) w = (w', Ok (0 :: b)) ->
  exists a auth sig cert v ad id key x y, unmarshal dec_mc data = Some a /\
    response (attestation_doc auth sig cert) (0 :: b) /\
    packed_accepts (e_C E) false auth (or_nil (mc_hash a)) sig cert = true /\
    packed_accepts (e_C E) true auth (or_nil (mc_hash a)) sig cert = false /\
    read_certificate cert = Some v /\ ce_issuer v = ce_subject va /\ signed_by (e_C E) va v = true /\
    has_auth_data auth ad /\ attested (ad_rest ad) the_aaguid id key /\ canonical (cose_es256 x y) key /\
    ec_point v = Some (be_dec x, be_dec y).
Proof.
  intros L Ce K Rd Z W H.
  destruct (registration_verifies E w data w' b L K W H)
    as (a & rp & u & auth & sig & cert & ad & id & key & x & y & s & U & _ & _ & R & HA & _ & _ & _ & _ & At & _ & Ck & Vf & (t & Mc) & Vt & _ & _ & _ & _ & (d & Ks)).
  assert (Sz : be_dec x < 2 ^ 256 /\ be_dec y < 2 ^ 256).
  { destruct (ctap_effect E (1 :: data) w w' _ L K ltac:(constructor; [reflexivity|exact W]) H) as (K' & _).
    pose proof (co_vault E _ K') as V. rewrite Vt in V. apply Forall_app in V as [_ V]. inversion_clear V as [|? ? So _].
    destruct So as (_ & _ & _ & (d' & Vd & Kd) & _). rewrite Ks in Kd. unfold priv_ec, ec_key in Kd. injection Kd as -> -> _.
    split; [apply (l_pub_x _ (eo_laws E L)); exact Vd|apply (l_pub_y _ (eo_laws E L)); exact Vd]. }
  destruct (certified _ _ _ _ _ _ _ _ _ _ _ _ Ce Rd Z (proj1 Sz) (proj2 Sz) Mc) as (v & cc & V1 & V2 & V3 & V4 & V5 & V6 & V7 & V8 & V9).
  destruct (packed v V3 V5 V7) as [P1 P2].
  exists a, auth, sig, cert, v, ad, id, key, x, y. split; [exact U|]. split; [exact R|].
  split; [rewrite (packed_ok _ _ _ _ _ _ _ _ _ V1 V6 V8 Vf); exact P1|].
  split; [rewrite (packed_ok _ _ _ _ _ _ _ _ _ V1 V6 V8 Vf); exact P2|]. do 6 (split; [assumption|]). assumption.
Qed.

(* Chains *)
Lemma instant_ten d : proper_date d -> instant d <= instant (add_ten_years d).
Proof.
  intro P. destruct (ten_later d P) as (Y & H & M & S & D). destruct P as (_ & Pm & Pd & Ph & Pmi & Ps). unfold instant.
  assert (d_day d <= 31).
  { unfold month_days in Pd. destruct (d_month d =? 2); [destruct (_ && _)|destruct (_ || _)]; lia. }
  rewrite Y, H, M, S. destruct (_ && _); destruct D as [-> ->]; lia.
Qed.

Section Chain.
  Variable C : Crypto.
  Variable sha1 : bytes -> bytes.

  Lemma chain_ok rnd t1 t2 ca va key x y cert now : readable ca va -> sized key -> proper_date t1 -> proper_date t2 -> d_year t2 <= 9989 ->
    x < 2 ^ 256 -> y < 2 ^ 256 ->
    create_attestation_certificate C sha1 rnd t1 t2 ca key (pub_ec {| eq_curve := P256; eq_x := x; eq_y := y |}) = Some cert ->
    ca_flag va = Some true -> may 5 va = true -> valid_at now va = true -> instant t1 <= instant now <= instant (add_ten_years t2) ->
    exists v, read_certificate cert = Some v /\ chains C now va v = true.
  Proof.
    intros Rd Z P1 P2 Y9 X Y H F M Va [N1 N2].
    destruct (attestation_read C sha1 _ _ _ _ _ _ _ _ _ Rd Z P1 P2 Y9 X Y H)
      as (v & cc & V1 & V2 & V3 & V4 & V5 & V6 & V7 & V8 & V9 & V10 & V11 & V12 & V13 & V14 & V15 & V16).
    exists v. split; [exact V1|]. unfold chains. rewrite V5, bytes_eqb_refl, V16, Va, F, M. unfold valid_at. rewrite V7, V8.
    rewrite (proj2 (N.leb_le _ _) N1), (proj2 (N.leb_le _ _) N2). cbn [andb].
    destruct V14 as [->| ->]; [reflexivity|]. destruct (subject_key_id va); [apply bytes_eqb_refl|reflexivity].
  Qed.
End Chain.

(* Certificates are bytes. *)
Lemma asn1_wf tag c : tag < 256 -> len c < 4294967296 -> wfb c -> wfb (asn1 tag c).
Proof.
  intros T L W. unfold asn1, asn1_length. constructor; [exact T|]. apply Forall_app. split; [|exact W].
  destruct (len c <? 128) eqn:S; [constructor; [unfold byte_ok; lia|constructor]|]. constructor; [|apply big_bytes_wf].
  pose proof (big_bytes_le 4 (len c) L). unfold byte_ok. lia.
Qed.
Lemma concat_wf l : Forall wfb l -> wfb (concat l).
Proof. induction 1; [constructor|]. cbn [concat]. apply Forall_app. auto. Qed.
Lemma asn1_part_wf tag l m : tag < 256 -> m <= 4294967296 -> len (asn1 tag (concat l)) < m ->
  ((forall e, In e l -> len e < m) -> Forall wfb l) -> wfb (asn1 tag (concat l)).
Proof.
  intros T M L W. apply asn1_wf; [exact T|apply len_content in L; lia|]. apply concat_wf, W. intros e I. eapply len_part; eauto.
Qed.
Lemma oid_wf : Forall wfb [oid_key_usage; oid_ext_key_usage; oid_basic_constraints; oid_subject_key_id; oid_authority_key_id].
Proof. repeat constructor. Qed.

Lemma extension_wf o crit v m : m <= 4294967296 -> In o [oid_key_usage; oid_ext_key_usage; oid_basic_constraints; oid_subject_key_id; oid_authority_key_id] ->
  (len v < m -> wfb v) -> len (extension o crit v) < m -> wfb (extension o crit v).
Proof.
  intros M I W L. unfold extension, asn1_seq in *. apply (asn1_part_wf 48 _ m); [reflexivity|exact M|exact L|]. intro P.
  pose proof (proj1 (Forall_forall _ _) oid_wf o I) as Wo.
  constructor; [|constructor; [|constructor; [|constructor]]].
  - apply asn1_wf; [reflexivity| |exact Wo]. cbn [In] in I. repeat destruct I as [<-|I]; try reflexivity. destruct I.
  - destruct crit; [|constructor]. repeat constructor.
  - specialize (P (asn1_octets v) ltac:(do 2 right; now left)). apply len_content in P. apply asn1_wf; [reflexivity|lia|auto].
Qed.

Lemma extensions_wf is_ca sid aid : wfb sid -> wfb aid -> len (extensions is_ca sid aid) < 4294967296 -> wfb (extensions is_ca sid aid).
Proof.
  intros Ws Wa L. unfold extensions, asn1_seq at 1. apply (asn1_part_wf 48 _ 4294967296); [reflexivity|lia|exact L|]. intro P.
  assert (forall o c v, In o [oid_key_usage; oid_ext_key_usage; oid_basic_constraints; oid_subject_key_id; oid_authority_key_id] ->
    (len v < 4294967296 -> wfb v) -> len (extension o c v) < 4294967296 -> wfb (extension o c v)) as Ext.
  { intros. apply (extension_wf o c v 4294967296); auto. lia. }
  constructor; [|constructor; [|constructor; [|constructor; [|constructor; [|constructor]]]]].
  - apply wfbb_iff. destruct is_ca; reflexivity.
  - apply wfbb_iff. reflexivity.
  - apply wfbb_iff. destruct is_ca; reflexivity.
  - specialize (P _ ltac:(do 3 right; left; reflexivity)). destruct (len sid =? 0); [constructor|].
    apply Ext; [cbn [In]; auto 6| |exact P]. intro Lv. apply len_content in Lv. now apply asn1_wf.
  - specialize (P _ ltac:(do 4 right; left; reflexivity)). destruct (len aid =? 0); [constructor|].
    apply Ext; [cbn [In]; auto 7| |exact P]. intro Lv. unfold asn1_seq in *. cbn [concat] in *. rewrite app_nil_r in *.
    apply len_content in Lv. apply asn1_wf; [reflexivity|exact Lv|]. apply len_content in Lv. now apply asn1_wf.
Qed.

Lemma time_wf d e : proper_date d -> asn1_time d = Some e -> wfb e.
Proof.
  intros P H. assert (D : forall n, digit n < 256).
  { intro n. unfold digit. pose proof (N.mod_lt n 10 ltac:(lia)). lia. }
  unfold asn1_time in H. destruct (_ && _).
  - injection H as <-. apply asn1_wf; [reflexivity|reflexivity|repeat constructor; apply D].
  - destruct (d_year d <=? 9999); [|discriminate H]. injection H as <-. apply asn1_wf; [reflexivity|reflexivity|repeat constructor; apply D].
Qed.

Lemma certificate_wf C sha1 rnd subject is_ca t1 t2 parent x y d cert : laws C -> wfb rnd -> (forall b, wfb (sha1 b)) -> wfb subject ->
  match parent with Some p => wfb (au_subject p) /\ wfb (au_key_id p) | None => True end -> proper_date t1 -> proper_date t2 ->
  create_certificate C sha1 rnd subject is_ca t1 t2 parent (pub_ec {| eq_curve := P256; eq_x := x; eq_y := y |}) (priv_ec (ec_key C d)) = Some cert ->
  wfb cert /\ len cert < 4294967296.
Proof.
  intros L Wr Ws Wsub Wp P1 P2 H. unfold create_certificate in H.
  change (cose_public (priv_ec (ec_key C d))) with (Ok (pub_ec (ec_public (ec_key C d)))) in H. cbn [obind] in H.
  set (own := pub_ec (ec_public (ec_key C d))) in *. destruct (key_info own) as [oi|]; [|discriminate H]. cbn [obind] in H.
  set (pub := pub_ec {| eq_curve := P256; eq_x := x; eq_y := y |}) in *.
  destruct (key_bits pub) as [bits|] eqn:KB; [|discriminate H]. cbn [obind] in H. destruct (key_info pub) as [info|] eqn:KI; [|discriminate H]. cbn [obind] in H.
  assert (Wi : wfb info).
  { unfold key_info in KI. rewrite KB in KI. cbn [obind] in KI. unfold pub in KB, KI. cbn [key_bits kq_ec pub_ec eq_curve eq_x eq_y] in KB, KI. injection KB as <-. injection KI as <-.
    apply asn1_wf; [reflexivity| |].
    - cbn [concat]. rewrite app_nil_r, len_app. unfold asn1_bits. assert (Lb : len (0 :: point_bytes (x, y)) = 66) by (unfold point_bytes; rewrite !len_cons, len_app, !be_len; reflexivity).
      pose proof (len_asn1_le 3 (0 :: point_bytes (x, y)) ltac:(lia)). change (len (asn1_seq [asn1_oid oid_ec_public_key; asn1_oid oid_p256])) with 21. lia.
    - apply concat_wf. constructor; [apply wfbb_iff; reflexivity|]. constructor; [|constructor]. unfold asn1_bits. apply asn1_wf; [reflexivity| |].
      + unfold point_bytes. rewrite !len_cons, len_app, !be_len. reflexivity.
      + constructor; [reflexivity|]. constructor; [reflexivity|]. apply Forall_app. split; apply be_wf. }
  destruct (match parent with Some p => bytes_eqb oi (au_key p) | None => true end); [|discriminate H].
  destruct (asn1_time t1) as [before|] eqn:T1; [|discriminate H]. cbn [obind] in H.
  destruct (asn1_time t2) as [after|] eqn:T2; [|discriminate H]. cbn [obind] in H.
  match type of H with context [cose_sign C _ (asn1_seq ?l) rnd] => set (parts := l) in * end.
  change (cose_sign C (priv_ec (ec_key C d)) (asn1_seq parts) rnd) with (Ok (ecdsa_sign C d (sha256 C (asn1_seq parts)) rnd)) in H. cbv iota beta in H.
  set (sig := ecdsa_sign C d (sha256 C (asn1_seq parts)) rnd) in *.
  destruct (cose_verify C own (asn1_seq parts) sig) as [[]|]; try discriminate H.
  match type of H with (if ?c <? _ then _ else _) = _ => destruct (c <? 4294967296) eqn:Sz; [|discriminate H] end.
  injection H as <-. apply N.ltb_lt in Sz. split; [|exact Sz].
  apply (asn1_part_wf 48 _ 4294967296); [reflexivity|lia|exact Sz|]. intro P.
  constructor; [|constructor; [|constructor; [|constructor]]].
  - specialize (P (asn1_seq parts) ltac:(now left)). apply (asn1_part_wf 48 _ 4294967296); [reflexivity|lia|exact P|]. clear P Sz. intro P.
    unfold parts in *. clear sig parts.
    constructor; [apply wfbb_iff; reflexivity|]. constructor; [apply wfbb_iff; reflexivity|]. constructor; [apply wfbb_iff; reflexivity|].
    constructor; [destruct parent; tauto|]. constructor.
    + specialize (P (asn1_seq [before; after]) ltac:(do 4 right; now left)). apply (asn1_part_wf 48 _ 4294967296); [reflexivity|lia|exact P|].
      intros _. constructor; [exact (time_wf _ _ P1 T1)|]. constructor; [exact (time_wf _ _ P2 T2)|constructor].
    + constructor; [exact Wsub|]. constructor; [exact Wi|]. constructor; [|constructor].
      specialize (P _ ltac:(do 7 right; left; reflexivity)). apply len_content in P as Pe. apply asn1_wf; [reflexivity|exact Pe|].
      apply extensions_wf; [|destruct parent as [p|]; [destruct (bytes_eqb _ _); [constructor|tauto]|constructor]|exact Pe].
      destruct is_ca; [apply Ws|constructor].
  - apply wfbb_iff. reflexivity.
  - specialize (P (asn1_bits sig) ltac:(do 2 right; now left)). apply len_content in P. apply asn1_wf; [reflexivity|exact P|].
    constructor; [reflexivity|]. apply (l_ecdsa_wf _ L). exact Wr.
Qed.

(* With an authority that matches its key, certificates can be made. *)
Lemma client_certifies E sha1 before after rnd c va d : laws (e_C E) -> wfb (cl_cert c) -> certifies E sha1 before after rnd ->
  (forall b, wfb (sha1 b)) -> (forall t, wfb (rnd t) /\ len (cl_cert c) + len (rnd t) < 2000000000) ->
  readable (cl_cert c) va -> valid_scalar d -> cl_certkey c = create_ca_key (e_C E) d -> ec_point va = Some (p256_pub (e_C E) d) ->
  can_certify E c.
Proof.
  intros L W [Ce Cl] Ws Wr Rd V Ck Pt t d' Vd N. rewrite Ck in N. destruct (Cl t) as (P1 & P2 & Y9). destruct (Wr t) as [Wt Sz].
  destruct (attestation_made (e_C E) sha1 (rnd t) (before t) (after t) (cl_cert c) va d (fst (p256_pub (e_C E) d')) (snd (p256_pub (e_C E) d')) L V W Rd Pt P1 P2 Y9 Sz) as (cert & Q).
  assert (wfb cert) as Wc.
  { pose proof Q as Q'. unfold create_attestation_certificate in Q'. destruct (readable_parent _ _ Rd) as (a & info & A & _ & _ & _ & _ & Wa & _).
    rewrite A in Q'. cbn [obind] in Q'. apply Wa in W as (_ & W1 & W2).
    assert (Wsub : wfb attestation_subject) by (apply wfbb_iff; vm_compute; reflexivity).
    exact (proj1 (certificate_wf _ _ _ _ _ _ _ (Some a) _ _ _ _ L Wt Ws Wsub (conj W1 W2) P1 (ten_years _ P2 Y9) Q')). }
  pose proof (proj2 (Ce t (cl_cert c) (create_ca_key (e_C E) d) (pub_ec {| eq_curve := P256; eq_x := fst (p256_pub (e_C E) d'); eq_y := snd (p256_pub (e_C E) d') |}) cert) (conj Q Wc)) as M.
  unfold ec_key in N. cbn [ec_public] in N. congruence.
Qed.
