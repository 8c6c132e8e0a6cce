From Coq Require Import Permutation Sorting.Sorted.
From Verif Require Import Base M_Str M_Util M_Utf8 M_Cbor M_Json M_Crypto M_Cose M_State M_Client M_Ctap.
From Verif Require Import S_Crypto S_Cbor S_Cose S_State S_Client S_Ctap.
From Verif Require Import P_Crypto P_Cbor P_Cbor2 P_Cose P_Cose2 P_Json P_State P_Client P_Ctap.

(* ------------------------------------------------------------------ *)
(* Every response is canonical                                          *)

Ltac p64 := change (256 ^ 8) with 18446744073709551616 in *.

Lemma chead_len mt n : len (chead mt n) <= 9.
Proof.
  unfold chead. repeat match goal with |- context [if ?b then _ else _] => destruct b end;
    unfold len; cbn [length]; rewrite ?be_length; lia.
Qed.

Lemma es256_len x y : len x <= 32 -> len y <= 32 -> len (cenc (cose_es256 x y)) <= 64 + 120.
Proof.
  intros. unfold cose_es256. cbn [cenc flat_map map fst snd concat]. 
  repeat rewrite ?len_app.
  repeat match goal with |- context [len (chead ?a ?b)] =>
    let H := fresh in pose proof (chead_len a b) as H; revert H; generalize (len (chead a b)); intros ? H end.
  change (len (@nil N)) with 0. lia.
Qed.

Lemma big_256 x : x < 2 ^ 256 -> len (big_bytes x) <= 32.
Proof. apply big_bytes_32. Qed.

Lemma cred_key_canonical C d : laws C -> valid_scalar d ->
  canonical (cose_es256 (big_bytes (fst (p256_pub C d))) (big_bytes (snd (p256_pub C d)))) (cred_key C d) /\
  wfb (cred_key C d) /\ len (cred_key C d) <= 184.
Proof.
  intros L V. pose proof (l_pub_x C L d V). pose proof (l_pub_y C L d V).
  assert (G : cgood (cose_es256 (big_bytes (fst (p256_pub C d))) (big_bytes (snd (p256_pub C d))))).
  { apply cose_es256_good; auto using big_bytes_wf, p256_len64. }
  split; [now apply cenc_canonical|]. split; [now apply cenc_wf|]. apply es256_len; now apply big_256.
Qed.

Ltac doc_good :=
  cbn [cgood fold_right fst snd]; p64;
  repeat match goal with
  | |- _ /\ _ => split
  | |- True => exact I
  | |- StronglySorted _ _ => apply increasing_sorted; vm_compute; reflexivity
  | |- utf8_text _ => txt
  | |- wfb _ => first [assumption | apply wfbb_iff; vm_compute; reflexivity]
  | |- len ?x < _ => first [is_var x; lia | vm_compute; reflexivity]
  | |- ?n < _ => first [is_var n; lia | vm_compute; reflexivity]
  | |- _ \/ _ => tauto
  end.

Lemma attestation_good auth sig cert : wfb auth -> len auth < 4294967296 -> wfb sig -> len sig < 4294967296 ->
  wfb cert -> len cert < 4294967296 -> canonical (attestation_doc auth sig cert) (cenc (attestation_doc auth sig cert)).
Proof.
  intros. apply cenc_canonical. unfold attestation_doc. doc_good.
Qed.

Lemma assertion_good id auth sig : wfb id -> len id = 16 -> wfb auth -> len auth < 4294967296 ->
  wfb sig -> len sig < 4294967296 -> canonical (assertion_doc id auth sig) (cenc (assertion_doc id auth sig)).
Proof.
  intros. apply cenc_canonical. unfold assertion_doc. doc_good.
Qed.

Lemma info_good pin : canonical (info_doc pin) (cenc (info_doc pin)).
Proof.
  apply cenc_canonical. unfold info_doc. destruct pin as [[|]|]; cbn [app];
    unfold yes, no; doc_good.
Qed.

Lemma retries_good n : n < 256 -> canonical (retries_doc n) (cenc (retries_doc n)).
Proof. intros. apply cenc_canonical. unfold retries_doc. doc_good. Qed.

Lemma token_good t : wfb t -> len t = 16 -> canonical (token_doc t) (cenc (token_doc t)).
Proof. intros. apply cenc_canonical. unfold token_doc. doc_good. Qed.

Lemma agreement_good x y : wfb x -> len x <= 32 -> wfb y -> len y <= 32 ->
  canonical (agreement_doc x y) (cenc (agreement_doc x y)).
Proof. intros. apply cenc_canonical. unfold agreement_doc. doc_good. Qed.

(* ------------------------------------------------------------------ *)
(* Running a command                                                    *)

Inductive ctap_result (E : Env) (w : world) : bytes -> world -> res bytes -> Prop :=
| CR_none : ctap_result E w [] w Panic
| CR_mc data w' r : mc_result E data w w' r -> ctap_result E w (1 :: data) w' r
| CR_ga data w' r : ga_result E data w w' r -> ctap_result E w (2 :: data) w' r
| CR_info data : ctap_result E w (4 :: data) w
    (Ok (0 :: cenc (info_doc (if cl_pin (w_client w)
                              then Some (match cl_hash (w_client w) with Some _ => true | None => false end)
                              else None))))
| CR_pin data w' r : pin_result E data w w' r -> ctap_result E w (6 :: data) w' r
| CR_unknown cmd data : cmd <> 1 -> cmd <> 2 -> cmd <> 4 -> cmd <> 6 -> ctap_result E w (cmd :: data) w Panic.

Lemma info_response_doc pin : info_response true pin = info_doc pin.
Proof. destruct pin as [[|]|]; reflexivity. Qed.

Lemma ctap_run E msg w w' r : env_ok E -> client_ok E (w_client w) -> wfb msg ->
  ctap_handle E msg w = (w', r) -> ctap_result E w msg w' r.
Proof.
  intros L K W. destruct msg as [|cmd data]; cbn [ctap_handle].
  { intro H. injection H as <- <-. constructor. }
  apply wfb_cons in W as [_ W].
  destruct (N.eqb_spec cmd 1) as [->|N1].
  { intro H. constructor. eapply wp_eq; [|exact H]. now apply make_credential_wp. }
  destruct (N.eqb_spec cmd 4) as [->|N4].
  { intro H. eapply wp_eq; [|exact H]. unfold get_info. apply wp_bind, wp_get. cbv zeta. apply wp_ret.
    unfold marshal_cbor. rewrite info_response_doc. constructor. }
  destruct (N.eqb_spec cmd 2) as [->|N2].
  { intro H. constructor. eapply wp_eq; [|exact H]. now apply get_assertion_wp. }
  destruct (N.eqb_spec cmd 6) as [->|N6].
  { intro H. constructor. eapply wp_eq; [|exact H]. now apply client_pin_wp. }
  intro H. injection H as <- <-. now constructor.
Qed.

Lemma mc_run E data w w' r : env_ok E -> client_ok E (w_client w) -> wfb data ->
  ctap_handle E (1 :: data) w = (w', r) -> mc_result E data w w' r.
Proof.
  intros L K W H. apply ctap_run in H; auto; [|apply wfb_cons; split; [unfold byte_ok; lia|auto]].
  inversion H; subst; try congruence; auto.
Qed.

Lemma ga_run E data w w' r : env_ok E -> client_ok E (w_client w) -> wfb data ->
  ctap_handle E (2 :: data) w = (w', r) -> ga_result E data w w' r.
Proof.
  intros L K W H. apply ctap_run in H; auto; [|apply wfb_cons; split; [unfold byte_ok; lia|auto]].
  inversion H; subst; try congruence; auto.
Qed.

Lemma pin_run E data w w' r : env_ok E -> client_ok E (w_client w) -> wfb data ->
  ctap_handle E (6 :: data) w = (w', r) -> pin_result E data w w' r.
Proof.
  intros L K W H. apply ctap_run in H; auto; [|apply wfb_cons; split; [unfold byte_ok; lia|auto]].
  inversion H; subst; try congruence; auto.
Qed.

Lemma mc_check_ok C c a f : mc_check C c a = inl f ->
  (f = 4 /\ mc_verified C c a) \/
  (f = 0 /\ ~ mc_verified C c a /\ (cl_pin c = true -> mc_auth a = None /\ cl_hash c = None)).
Proof.
  unfold mc_check, mc_verified, pin_proof. destruct (cl_pin c).
  2:{ intro H. injection H as <-. right. repeat split; intros; try discriminate. intros [Z _]. discriminate. }
  destruct (mc_auth a) as [p|].
  - destruct (N.eqb_spec (mc_protocol a) 1); [|discriminate].
    destruct (bytes_eqb _ p) eqn:B; [|discriminate]. apply bytes_eqb_eq in B.
    intro H. injection H as <-. left. split; auto. split; auto. exists p. auto.
  - destruct (cl_hash c); [discriminate|]. intro H. injection H as <-. right. split; auto. split; auto.
    intros (_ & p & Z & _). discriminate.
Qed.

Lemma mc_check_err C c a e : mc_check C c a = inr e -> e = 51 \/ e = 54.
Proof.
  unfold mc_check. repeat match goal with |- context [if ?b then _ else _] => destruct b
    | |- context [match ?b with Some _ => _ | None => _ end] => destruct b end; intro H; try discriminate;
    injection H as <-; auto.
Qed.

Lemma ga_check_ok C c a f : ga_check C c a = inl f ->
  (f = 4 /\ ga_verified C c a) \/
  (f = 0 /\ ~ ga_verified C c a /\ (cl_pin c = true -> ga_auth a = None)).
Proof.
  unfold ga_check, ga_verified, pin_proof. destruct (cl_pin c).
  2:{ intro H. injection H as <-. right. repeat split; intros; try discriminate. intros [Z _]. discriminate. }
  destruct (ga_auth a) as [p|].
  - destruct (N.eqb_spec (ga_protocol a) 1); [|discriminate].
    destruct (bytes_eqb _ p) eqn:B; [|discriminate]. apply bytes_eqb_eq in B.
    intro H. injection H as <-. left. split; auto. split; auto. exists p. auto.
  - intro H. injection H as <-. right. split; auto. split; auto.
    intros (_ & p & Z & _). discriminate.
Qed.

Lemma ga_check_err C c a e : ga_check C c a = inr e -> e = 51.
Proof.
  unfold ga_check. repeat match goal with |- context [if ?b then _ else _] => destruct b
    | |- context [match ?b with Some _ => _ | None => _ end] => destruct b end; intro H; try discriminate;
    injection H as <-; auto.
Qed.

Definition asked_app es es' : asked (es ++ es') = asked es ++ asked es' := flat_map_app _ es es'.

Ltac noerr := try match goal with
  | X : mc_check _ _ _ = inr _ |- _ => apply mc_check_err in X as [? | ?]; congruence
  | X : ga_check _ _ _ = inr _ |- _ => apply ga_check_err in X; congruence
  end.

Lemma mc_success E data w w' b : mc_result E data w w' (Ok (0 :: b)) ->
  exists a f rp u d cert,
    let s := made E (w_tick w + 1) rp u in
    let c' := set_vault (w_client w) (cl_vault (w_client w) ++ [s]) in
    let auth := mc_auth_data E rp (cs_id s) (e_scalar E (w_tick w + 2)) f in
    let sig := ecdsa_sign (e_C E) (e_scalar E (w_tick w + 2))
                 (sha256 (e_C E) (auth ++ or_nil (mc_hash a))) (e_rand E (w_tick w + 8) 32) in
    unmarshal dec_mc data = Some a /\ offers_es256 a /\
    mc_check (e_C E) (w_client w) a = inl f /\ mc_rp a = Some rp /\ mc_user a = Some u /\
    client_ok E c' /\ stored E d c' /\
    e_make_cert E (w_tick w + 7) (cl_cert (w_client w)) (cl_certkey (w_client w))
      (pub_ec (ec_public (ec_key (e_C E) (e_scalar E (w_tick w + 2))))) = Some cert /\
    w' = mkw c' (w_tick w + 9) (w_trace w ++ [EvAsk ActMakeCredential (rp_name rp) [] true; EvSave d]) /\
    b = cenc (attestation_doc auth sig cert).
Proof.
  intro H. remember (Ok (0 :: b)) as r eqn:R. destruct H; try discriminate R.
  - apply mc_check_err in H1 as [-> | ->]; discriminate R.
  - assert (B : b = cenc (attestation_doc auth sig cert)) by congruence.
    exists a, f, rp, u, d, cert. cbv zeta. repeat (split; [assumption|]). split; [reflexivity|]. exact B.
Qed.

Lemma ga_success E data w w' b : ga_result E data w w' (Ok (0 :: b)) ->
  exists a f v1 x v2 d k,
    let c' := set_vault (w_client w) (v1 ++ bump x :: v2) in
    let up := wants_up a in
    let t := w_tick w + 4 + (if up then 1 else 0) in
    let auth := ga_auth_data E (ga_rp a) x (N.lor f (if up then 1 else 0)) in
    let sig := ecdsa_sign (e_C E) k (sha256 (e_C E) (auth ++ or_nil (ga_hash a))) (e_rand E t 32) in
    unmarshal dec_ga data = Some a /\ ga_check (e_C E) (w_client w) a = inl f /\
    cl_vault (w_client w) = v1 ++ x :: v2 /\ matches (ga_rp a) (ga_allow a) x = true /\
    forallb (fun y => negb (matches (ga_rp a) (ga_allow a) y)) v1 = true /\
    client_ok E c' /\ stored E d c' /\ valid_scalar k /\ cs_key x = priv_ec (ec_key (e_C E) k) /\
    w' = mkw c' (t + 1)
         (w_trace w ++ EvSave d ::
           (if up then [EvAsk ActGetAssertion (rp_name (cs_rp x)) (us_name (cs_user x)) true] else [])) /\
    b = cenc (assertion_doc (cs_id x) auth sig).
Proof.
  intro H. remember (Ok (0 :: b)) as r eqn:R. destruct H; try discriminate R.
  - apply ga_check_err in H0 as ->; discriminate R.
  - assert (B : b = cenc (assertion_doc (cs_id x) auth sig)) by congruence.
    exists a, f, v1, x, v2, d, k. cbv zeta. repeat (split; [assumption|]). split; [reflexivity|]. exact B.
Qed.

(* C28 *)
Lemma registration_gated E w data w' b : env_ok E -> client_ok E (w_client w) -> wfb data ->
  ctap_handle E (1 :: data) w = (w', Ok (0 :: b)) ->
  exists a rp es, unmarshal dec_mc data = Some a /\ offers_es256 a /\ mc_rp a = Some rp /\
    events w w' es /\ asked es = [(ActMakeCredential, rp_name rp, [], true)] /\
    (cl_pin (w_client w) = true ->
       mc_verified (e_C E) (w_client w) a \/ (mc_auth a = None /\ cl_hash (w_client w) = None)).
Proof.
  intros L K W H. apply mc_run in H; auto. apply mc_success in H as (a & f & rp & u & d & cert & U & O & X & R & Us & K' & S & Ct & -> & ->).
  exists a, rp, [EvAsk ActMakeCredential (rp_name rp) [] true; EvSave d].
  repeat (split; auto). intro P. apply mc_check_ok in X as [[_ V]|(_ & _ & V)]; auto.
Qed.

(* C29 *)
Lemma rand_id E t : env_ok E -> len (e_rand E t 16) = 16 /\ wfb (e_rand E t 16).
Proof. intro L. split; [apply (eo_rand_len E L)|apply (eo_rand_wf E L)]. Qed.

Lemma mc_auth_wf E rp t d f : env_ok E -> valid_scalar d -> f = 0 \/ f = 4 ->
  let auth := mc_auth_data E rp (e_rand E t 16) d f in
  wfb auth /\ len auth < 65536.
Proof.
  intros L V F auth. destruct (cred_key_canonical (e_C E) d (eo_laws E L) V) as (_ & A & B).
  destruct (rand_id E t L) as [I1 I2]. unfold auth, mc_auth_data. split.
  - apply wfb_app. split; [apply (l_sha_wf _ (eo_laws E L))|].
    apply wfb_app. split; [apply wfb_cons; split; [unfold byte_ok|apply wfb_nil]|].
    { destruct F; subst f; reflexivity. }
    repeat (apply wfb_app; split; auto using be_wf). apply wfbb_iff. reflexivity.
  - rewrite !len_app, !be_len, (l_sha_len _ (eo_laws E L)), I1. change (len aaguid) with 16.
    change (len [_]) with 1. lia.
Qed.

Lemma sig_wf E t d h : env_ok E -> wfb (ecdsa_sign (e_C E) d h (e_rand E t 32)) /\
  len (ecdsa_sign (e_C E) d h (e_rand E t 32)) < 65536.
Proof.
  intro L. split; [apply (l_ecdsa_wf _ (eo_laws E L)), (eo_rand_wf E L)|].
  pose proof (l_ecdsa_len _ (eo_laws E L) d h (e_rand E t 32)) as B. rewrite (eo_rand_len E L) in B. lia.
Qed.

Lemma flag_of_check C c a f : mc_check C c a = inl f -> f = 0 \/ f = 4.
Proof. intro H. apply mc_check_ok in H as [[-> _]|(-> & _)]; auto. Qed.

Lemma gflag_of_check C c a f : ga_check C c a = inl f -> f = 0 \/ f = 4.
Proof. intro H. apply ga_check_ok in H as [[-> _]|(-> & _)]; auto. Qed.

Lemma mc_has E rp id d f : env_ok E -> len id = 16 -> f = 0 \/ f = 4 ->
  has_auth_data (mc_auth_data E rp id d f)
    {| ad_rp_hash := sha256 (e_C E) (rp_id rp); ad_flags := f + 65; ad_count := 0;
       ad_rest := the_aaguid ++ be 2 16 ++ id ++ cred_key (e_C E) d |}.
Proof.
  intros L I F. unfold has_auth_data. cbn [ad_rp_hash ad_flags ad_count ad_rest]. split; [|split; [|split]].
  - destruct F; subst f; reflexivity.
  - apply (l_sha_len _ (eo_laws E L)).
  - lia.
  - lia.
Qed.

Lemma flags_bits f : f = 0 \/ f = 4 -> UP (f + 65) = true /\ AT (f + 65) = true /\ UV (f + 65) = (f =? 4).
Proof. intros [-> | ->]; auto. Qed.

Lemma registration_verifies E w data w' b : env_ok E -> client_ok E (w_client w) -> wfb data ->
  ctap_handle E (1 :: data) w = (w', Ok (0 :: b)) ->
  exists a rp u auth sig cert ad id key x y s,
    unmarshal dec_mc data = Some a /\ mc_rp a = Some rp /\ mc_user a = Some u /\
    response (attestation_doc auth sig cert) (0 :: b) /\
    has_auth_data auth ad /\ ad_rp_hash ad = sha256 (e_C E) (rp_id rp) /\
    UP (ad_flags ad) = true /\ AT (ad_flags ad) = true /\ ad_count ad = 0 /\
    attested (ad_rest ad) the_aaguid id key /\ len id = 16 /\
    canonical (cose_es256 x y) key /\
    ecdsa_verify (e_C E) (be_dec x, be_dec y) (sha256 (e_C E) (auth ++ or_nil (mc_hash a))) sig = true /\
    (exists t, e_make_cert E t (cl_cert (w_client w)) (cl_certkey (w_client w))
                 (pub_ec {| eq_curve := P256; eq_x := be_dec x; eq_y := be_dec y |}) = Some cert) /\
    cl_vault (w_client w') = cl_vault (w_client w) ++ [s] /\
    cs_id s = id /\ cs_rp s = rp /\ cs_user s = u /\ cs_ctr s = 0%Z /\
    (exists d, cs_key s = priv_ec {| ec_public := {| eq_curve := P256; eq_x := be_dec x; eq_y := be_dec y |}; ec_d := d |}).
Proof.
  intros L K W H. apply mc_run in H; auto.
  apply mc_success in H as (a & f & rp & u & d & cert & U & O & X & R & Us & K' & S & Ct & -> & ->).
  pose proof (flag_of_check _ _ _ _ X) as F.
  destruct (rand_id E (w_tick w + 1) L) as [I1 I2].
  set (d0 := e_scalar E (w_tick w + 2)) in *.
  assert (V : valid_scalar d0) by apply (eo_scalar E L).
  destruct (cred_key_canonical (e_C E) d0 (eo_laws E L) V) as (CK & A & B).
  destruct (mc_auth_wf E rp (w_tick w + 1) d0 f L V F) as [AW AL].
  cbn [made cs_id] in *.
  match goal with |- context [cenc (attestation_doc _ ?g _)] => set (sig := g) in * end.
  destruct (sig_wf E (w_tick w + 8) d0 (sha256 (e_C E) (mc_auth_data E rp (e_rand E (w_tick w + 1) 16) d0 f ++ or_nil (mc_hash a))) L) as [SW SL].
  change (ecdsa_sign _ _ _ _) with sig in SW, SL.
  destruct (eo_cert E L _ _ _ _ _ Ct) as [CW CL].
  exists a, rp, u, (mc_auth_data E rp (e_rand E (w_tick w + 1) 16) d0 f), sig, cert.
  eexists. exists (e_rand E (w_tick w + 1) 16), (cred_key (e_C E) d0),
    (big_bytes (fst (p256_pub (e_C E) d0))), (big_bytes (snd (p256_pub (e_C E) d0))), (made E (w_tick w + 1) rp u).
  split; [assumption|]. split; [assumption|]. split; [assumption|].
  split. { eexists. split; [reflexivity|]. apply attestation_good; auto; lia. }
  split; [now apply mc_has|]. cbn [ad_rp_hash ad_flags ad_count ad_rest].
  destruct (flags_bits f F) as (F1 & F2 & _).
  split; [reflexivity|]. split; [assumption|]. split; [assumption|]. split; [reflexivity|].
  split. { unfold attested. rewrite I1. split; [reflexivity|]. split; [reflexivity|lia]. }
  split; [assumption|]. split; [assumption|].
  change (be_dec (big_bytes ?x)) with (big_set (big_bytes x)). rewrite !big_set_bytes.
  split. { rewrite <- surjective_pairing. apply (l_ecdsa _ (eo_laws E L)). assumption. }
  split. { exists (w_tick w + 7). exact Ct. }
  split; [reflexivity|]. cbn [made cs_id cs_rp cs_user cs_ctr cs_key]. repeat (split; [reflexivity|]).
  exists d0. replace (w_tick w + 1 + 1) with (w_tick w + 2) by lia. reflexivity.
Qed.

(* C30 *)
Lemma registration_error_inert E w data w' e : env_ok E -> client_ok E (w_client w) -> wfb data ->
  ctap_handle E (1 :: data) w = (w', Ok [e]) -> e <> 0 ->
  w_client w' = w_client w /\ exists es, events w w' es /\ saves es = [].
Proof.
  intros L K W H N. apply mc_run in H; auto.
  inversion H; subst; clear H; try congruence; (split; [reflexivity|]);
    try (exists []; split; [unfold events; now rewrite app_nil_r|reflexivity]).
  eexists; split; [reflexivity|reflexivity].
Qed.

(* ------------------------------------------------------------------ *)
(* Assertions                                                           *)

Lemma wrap32_mod z : (wrap32 z mod 4294967296 = z mod 4294967296)%Z.
Proof. unfold wrap32. lia. Qed.

Lemma ga_has E rp x f : env_ok E -> f < 256 ->
  has_auth_data (ga_auth_data E rp x f)
    {| ad_rp_hash := sha256 (e_C E) rp; ad_flags := f; ad_count := Z.to_N ((cs_ctr x + 1) mod 4294967296);
       ad_rest := [] |}.
Proof.
  intros L F. unfold has_auth_data. cbn [ad_rp_hash ad_flags ad_count ad_rest]. split; [|split; [|split]].
  - unfold ga_auth_data, ctr_bytes, bump. cbn [cs_ctr]. rewrite wrap32_mod. now rewrite app_nil_r.
  - apply (l_sha_len _ (eo_laws E L)).
  - lia.
  - lia.
Qed.

Lemma allowed_iff rp allow x : matches rp allow x = true <-> allowed rp allow x.
Proof. apply matches_iff. Qed.

Definition public_of (k : cose_priv) (x y : N) : Prop :=
  exists d, k = priv_ec {| ec_public := {| eq_curve := P256; eq_x := x; eq_y := y |}; ec_d := d |}.

Lemma ga_flags a f : f = 0 \/ f = 4 ->
  let g := N.lor f (if wants_up a then 1 else 0) in
  g < 256 /\ UP g = wants_up a /\ UV g = (f =? 4) /\ AT g = false.
Proof. intros [-> | ->]; destruct (wants_up a); repeat split; reflexivity. Qed.

Lemma assertion_facts E w data w' b : env_ok E -> client_ok E (w_client w) -> wfb data ->
  ctap_handle E (2 :: data) w = (w', Ok (0 :: b)) ->
  exists a auth sig ad v1 s v2 s' x y es,
    unmarshal dec_ga data = Some a /\
    response (assertion_doc (cs_id s) auth sig) (0 :: b) /\
    has_auth_data auth ad /\ ad_rp_hash ad = sha256 (e_C E) (ga_rp a) /\ ad_rest ad = [] /\
    ad_count ad = Z.to_N ((cs_ctr s + 1) mod 4294967296) /\
    cl_vault (w_client w) = v1 ++ s :: v2 /\ allowed (ga_rp a) (ga_allow a) s /\
    (forall z, In z v1 -> ~ allowed (ga_rp a) (ga_allow a) z) /\
    public_of (cs_key s) x y /\
    ecdsa_verify (e_C E) (x, y) (sha256 (e_C E) (auth ++ or_nil (ga_hash a))) sig = true /\
    cl_vault (w_client w') = v1 ++ s' :: v2 /\
    s' = {| cs_type := cs_type s; cs_id := cs_id s; cs_key := cs_key s; cs_rp := cs_rp s; cs_user := cs_user s;
            cs_ctr := cs_ctr s' |} /\
    (cs_ctr s' mod 4294967296 = (cs_ctr s + 1) mod 4294967296)%Z /\
    w_client w' = set_vault (w_client w) (v1 ++ s' :: v2) /\
    events w w' es /\
    asked es = (if match op_up (ga_options a) with Some false => true | _ => false end then []
                else [(ActGetAssertion, rp_name (cs_rp s), us_name (cs_user s), true)]) /\
    AT (ad_flags ad) = false /\
    (UP (ad_flags ad) = true <-> op_up (ga_options a) <> Some false) /\
    (UV (ad_flags ad) = true <-> ga_verified (e_C E) (w_client w) a) /\
    exists d, saves es = [d] /\ stored E d (w_client w').
Proof.
  intros L K W H. apply ga_run in H; auto.
  apply ga_success in H as (a & f & v1 & s & v2 & d & k & U & X & V & M & NM & K' & S & Vk & Kx & -> & ->).
  pose proof (gflag_of_check _ _ _ _ X) as F. destruct (ga_flags a f F) as (F1 & F2 & F3 & F4).
  set (auth := ga_auth_data E (ga_rp a) s (N.lor f (if wants_up a then 1 else 0))) in *.
  match goal with |- context [cenc (assertion_doc _ _ ?g)] => set (sig := g) in * end.
  pose proof (sig_wf E (w_tick w + 4 + (if wants_up a then 1 else 0)) k (sha256 (e_C E) (auth ++ or_nil (ga_hash a))) L) as [SW SL].
  fold sig in SW, SL.
  pose proof (co_vault E _ K) as VO. rewrite V in VO. apply Forall_elt in VO. destruct VO as (_ & I1 & I2 & _).
  assert (AW : wfb auth).
  { unfold auth, ga_auth_data. apply wfb_app. split; [apply (l_sha_wf _ (eo_laws E L))|].
    apply wfb_app. split; [apply wfb_cons; split; [exact F1|apply wfb_nil]|apply be_wf]. }
  assert (AL : len auth < 65536).
  { unfold auth, ga_auth_data, ctr_bytes. rewrite !len_app, be_len, (l_sha_len _ (eo_laws E L)).
    change (len [_]) with 1. lia. }
  exists a, auth, sig. eexists. exists v1, s, v2, (bump s), (fst (p256_pub (e_C E) k)), (snd (p256_pub (e_C E) k)).
  exists (EvSave d :: (if wants_up a then [EvAsk ActGetAssertion (rp_name (cs_rp s)) (us_name (cs_user s)) true] else [])).
  split; [assumption|].
  split. { eexists. split; [reflexivity|]. apply assertion_good; auto; lia. }
  split; [now apply ga_has|]. cbn [ad_rp_hash ad_flags ad_count ad_rest].
  split; [reflexivity|]. split; [reflexivity|]. split; [reflexivity|]. split; [assumption|].
  split; [now apply allowed_iff|].
  split. { intros z I J. apply allowed_iff in J. rewrite forallb_forall in NM. apply NM in I. rewrite J in I. discriminate. }
  split. { exists k. exact Kx. }
  split. { rewrite <- surjective_pairing. apply (l_ecdsa _ (eo_laws E L)). assumption. }
  split; [reflexivity|]. split; [reflexivity|]. split; [apply wrap32_mod|]. split; [reflexivity|].
  split; [reflexivity|].
  split. { unfold wants_up. destruct (op_up (ga_options a)) as [[|]|]; reflexivity. }
  split; [assumption|].
  split. { rewrite F2. unfold wants_up. destruct (op_up (ga_options a)) as [[|]|]; split; intros; congruence. }
  split. { rewrite F3. apply ga_check_ok in X as [[-> V1]|(-> & V1 & _)]; cbn; split; intros; auto; try discriminate; tauto. }
  exists d. split; [destruct (wants_up a); reflexivity|assumption].
Qed.

(* C31, one request *)
Lemma no_credentials E w data w' r a f : env_ok E -> client_ok E (w_client w) -> wfb data ->
  ctap_handle E (2 :: data) w = (w', r) -> unmarshal dec_ga data = Some a ->
  ga_check (e_C E) (w_client w) a = inl f ->
  (forall s, In s (cl_vault (w_client w)) -> ~ allowed (ga_rp a) (ga_allow a) s) ->
  w' = w /\ r = Ok [46].
Proof.
  intros L K W H U X N. apply ga_run in H; auto. 
  assert (NM : forall s, In s (cl_vault (w_client w)) -> matches (ga_rp a) (ga_allow a) s = false).
  { intros s I. destruct (matches (ga_rp a) (ga_allow a) s) eqn:M; auto. apply allowed_iff in M. destruct (N s I M). }
  destruct H; try congruence; auto;
    match goal with A : unmarshal dec_ga _ = Some ?a1, B : unmarshal dec_ga _ = Some ?a2 |- _ =>
      assert (a2 = a1) by congruence; subst a2 end; try congruence; exfalso;
    match goal with V : cl_vault _ = _ ++ ?x :: _, M : matches _ _ ?x = true |- _ =>
      rewrite NM in M; [discriminate|rewrite V; apply in_elt] end.
Qed.

(* C33 *)
Lemma registration_flags E w data w' b : env_ok E -> client_ok E (w_client w) -> wfb data ->
  ctap_handle E (1 :: data) w = (w', Ok (0 :: b)) ->
  exists a auth sig cert ad es,
    unmarshal dec_mc data = Some a /\ response (attestation_doc auth sig cert) (0 :: b) /\
    has_auth_data auth ad /\ events w w' es /\
    (UP (ad_flags ad) = true <-> agreed es) /\
    (UV (ad_flags ad) = true <-> mc_verified (e_C E) (w_client w) a).
Proof.
  intros L K W H. pose proof H as H0. apply mc_run in H; auto.
  apply mc_success in H as (a & f & rp & u & d & cert & U & O & X & R & Us & K' & S & Ct & -> & ->).
  pose proof (flag_of_check _ _ _ _ X) as F.
  destruct (rand_id E (w_tick w + 1) L) as [I1 I2].
  set (d0 := e_scalar E (w_tick w + 2)) in *.
  assert (V : valid_scalar d0) by apply (eo_scalar E L).
  destruct (mc_auth_wf E rp (w_tick w + 1) d0 f L V F) as [AW AL].
  cbn [made cs_id] in *.
  match goal with |- context [cenc (attestation_doc _ ?g _)] => set (sig := g) in * end.
  destruct (sig_wf E (w_tick w + 8) d0 (sha256 (e_C E) (mc_auth_data E rp (e_rand E (w_tick w + 1) 16) d0 f ++ or_nil (mc_hash a))) L) as [SW SL].
  change (ecdsa_sign _ _ _ _) with sig in SW, SL.
  destruct (eo_cert E L _ _ _ _ _ Ct) as [CW CL].
  exists a, (mc_auth_data E rp (e_rand E (w_tick w + 1) 16) d0 f), sig, cert. eexists.
  exists [EvAsk ActMakeCredential (rp_name rp) [] true; EvSave d].
  split; [assumption|].
  split. { eexists. split; [reflexivity|]. apply attestation_good; auto; lia. }
  split; [now apply mc_has|]. cbn [ad_flags].
  destruct (flags_bits f F) as (F1 & F2 & F3). split; [reflexivity|]. rewrite F1, F3.
  split. { split; auto. intros _. exists ActMakeCredential, (rp_name rp), []. now left. }
  apply mc_check_ok in X as [[-> V1]|(-> & V1 & _)]; cbn; split; intros; auto; try discriminate; tauto.
Qed.

(* C35, what holds *)
Lemma denied_assertion E w data w' : env_ok E -> client_ok E (w_client w) -> wfb data ->
  ctap_handle E (2 :: data) w = (w', Ok [39]) ->
  exists v1 s v2 s', cl_vault (w_client w) = v1 ++ s :: v2 /\
    w_client w' = set_vault (w_client w) (v1 ++ s' :: v2) /\
    s' = {| cs_type := cs_type s; cs_id := cs_id s; cs_key := cs_key s; cs_rp := cs_rp s; cs_user := cs_user s;
            cs_ctr := cs_ctr s' |} /\
    (cs_ctr s' mod 4294967296 = (cs_ctr s + 1) mod 4294967296)%Z.
Proof.
  intros L K W H. apply ga_run in H; auto. remember (Ok [39]) as r eqn:R. destruct H; try discriminate R.
  - apply ga_check_err in H0 as ->. discriminate R.
  - exists v1, x, v2, (bump x). split; [assumption|]. split; [reflexivity|]. split; [reflexivity|]. apply wrap32_mod.
Qed.
