(* Consequences used by the property statements. *)
From Verif Require Import Base M_Str M_Util M_Utf8 M_Cbor M_Json M_Crypto M_Cose M_State M_Client M_Ctap.
From Verif Require Import S_Crypto S_Cbor S_Cose S_State S_Client S_Ctap S_CtapReq S_Pin.
From Verif Require Import P_Crypto P_Cbor P_Cbor2 P_Cose P_Cose2 P_Json P_State P_Client P_Ctap P_Ctap2 P_Ctap3 P_CtapReq P_Pin.

Lemma assertion_flags E w data w' b : env_ok E -> client_ok E (w_client w) -> wfb data ->
  ctap_handle E (2 :: data) w = (w', Ok (0 :: b)) ->
  exists a id auth sig ad es,
    unmarshal dec_ga data = Some a /\ response (assertion_doc id auth sig) (0 :: b) /\
    has_auth_data auth ad /\ events w w' es /\
    (UP (ad_flags ad) = true <-> agreed es) /\
    (UV (ad_flags ad) = true <-> ga_verified (e_C E) (w_client w) a).
Proof.
  intros L K W H. destruct (assertion_facts E w data w' b L K W H)
    as (a & auth & sig & ad & v1 & s & v2 & s' & x & y & es & U & R & A & _ & _ & _ & _ & _ & _ & _ & _ & _ & _ & _ & _ & Ev & Ask & _ & Up & Uv & _).
  exists a, (cs_id s), auth, sig, ad, es. split; [exact U|]. split; [exact R|]. split; [exact A|]. split; [exact Ev|].
  split; [|exact Uv]. rewrite Up. unfold agreed. rewrite Ask. destruct (op_up (ga_options a)) as [[|]|]; cbv iota.
  - split; [intros _; do 3 eexists; now left|intros _; discriminate].
  - split; [congruence|]. intros (q & r & u & []).
  - split; [intros _; do 3 eexists; now left|intros _; discriminate].
Qed.

(* A registration adds exactly one credential and changes nothing else. *)
Lemma registration_adds E w data w' b : env_ok E -> client_ok E (w_client w) -> wfb data ->
  ctap_handle E (1 :: data) w = (w', Ok (0 :: b)) ->
  exists s, w_client w' = set_vault (w_client w) (cl_vault (w_client w) ++ [s]).
Proof.
  intros L K W H. apply mc_run in H; auto.
  apply mc_success in H as (a & f & rp & u & d & cert & U & O & X & R & Us & K' & S & Ct & -> & ->). eexists. reflexivity.
Qed.

Lemma registration_saved E w data w' b : env_ok E -> client_ok E (w_client w) -> wfb data ->
  ctap_handle E (1 :: data) w = (w', Ok (0 :: b)) ->
  exists es d s, events w w' es /\ saves es = [d] /\ stored E d (w_client w') /\
    cl_vault (w_client w') = cl_vault (w_client w) ++ [s].
Proof.
  intros L K W H. apply mc_run in H; auto.
  apply mc_success in H as (a & f & rp & u & d & cert & U & O & X & R & Us & K' & S & Ct & -> & ->).
  exists [EvAsk ActMakeCredential (rp_name rp) [] true; EvSave d], d. eexists.
  split; [reflexivity|]. split; [reflexivity|]. split; [exact S|]. reflexivity.
Qed.

Lemma pin_saved E w data w' : env_ok E -> client_ok E (w_client w) -> wfb data ->
  ctap_handle E (6 :: data) w = (w', Ok [0]) ->
  exists es d pin, events w w' es /\ saves es = [d] /\ stored E d (w_client w') /\
    cl_hash (w_client w') = Some (half (sha256 (e_C E) pin)).
Proof.
  intros L K W H. apply pin_run in H; auto. remember (Ok [0]) as q eqn:Q.
  destruct H; try discriminate Q.
  - match goal with H : pin_plain _ _ _ _ |- _ => destruct H; discriminate Q end.
  - exists [EvSave d], d, pin. split; [reflexivity|]. split; [reflexivity|]. split; [assumption|]. reflexivity.
  - match goal with H : _ \/ _ |- _ => destruct H as [(-> & _)|(-> & _)]; discriminate Q end.
  - exists [EvSave d], d, pin. split; [reflexivity|]. split; [reflexivity|]. split; [assumption|]. reflexivity.
Qed.

Lemma crash_anywhere E msg w w' r : env_ok E -> client_ok E (w_client w) -> wfb msg ->
  ctap_handle E msg w = (w', r) ->
  exists es, events w w' es /\
    ((saves es = [] /\ exists n, w_client w' = set_retries (w_client w) n) \/
     (exists d, saves es = [d] /\ stored E d (w_client w') /\
        forall k, saves (firstn k es) = [] \/ saves (firstn k es) = [d])).
Proof.
  intros L K W H. apply ctap_effect in H; auto. destruct H as (_ & _ & es & Ev & [(S & N)|(d & S & St)]).
  - exists es. auto.
  - exists es. split; [exact Ev|]. right. exists d. split; [exact S|]. split; [exact St|].
    intro k. now apply crash_points_one.
Qed.

Lemma hash_change_set E msg w w' r h : env_ok E -> client_ok E (w_client w) -> wfb msg ->
  ctap_handle E msg w = (w', r) -> cl_hash (w_client w) = Some h -> cl_hash (w_client w') <> Some h ->
  cl_pin (w_client w) = true /\
  exists data a k s pin dec, msg = 6 :: data /\ unmarshal dec_cp data = Some a /\ pn_protocol a = 1 /\ pn_sub a = 4 /\
    pn_key a = Some k /\ secret_of E (w_client w) k s /\
    decrypt_cbc (e_C E) s (or_nil (pn_hash a)) = Ok h /\
    pn_auth a = Some (half (hmac256 (e_C E) s (or_nil (pn_new a) ++ or_nil (pn_hash a)))) /\
    decrypt_cbc (e_C E) s (or_nil (pn_new a)) = Ok dec /\ padded_pin dec pin /\ 4 <= len pin /\
    cl_hash (w_client w') = Some (half (sha256 (e_C E) pin)) /\ r = Ok [0].
Proof.
  intros L K W H Hh N. destruct (hash_change E msg w w' r L K W H) as (P & data & a & k & s & pin & -> & U & Pr & Ke & Se & Ha & Le & R & (dec & D1 & D2) & X).
  { congruence. }
  split; [exact P|]. exists data, a, k, s, pin, dec.
  destruct X as [(_ & X & _)|(X1 & X2 & X3)]; [congruence|]. rewrite Hh in X2. cbn [or_nil] in X2. auto 20.
Qed.

Lemma token_given_set E data w w' b a h : env_ok E -> client_ok E (w_client w) -> wfb data ->
  ctap_handle E (6 :: data) w = (w', Ok (0 :: b)) -> unmarshal dec_cp data = Some a -> pn_sub a = 5 ->
  cl_hash (w_client w) = Some h ->
  exists k enc s t, pn_key a = Some k /\ pn_hash a = Some enc /\ secret_of E (w_client w) k s /\
    decrypt_cbc (e_C E) s enc = Ok h /\
    response (token_doc t) (0 :: b) /\ decrypt_cbc (e_C E) s t = Ok (cl_token (w_client w)) /\
    w_client w' = set_retries (w_client w) 8.
Proof.
  intros L K W H U S Hh. destruct (token_given E data w w' b a L K W H U S) as (_ & k & enc & s & t & X).
  rewrite Hh in X. exists k, enc, s, t. exact X.
Qed.

(* C43: the private keys of the vault as stored. *)
Lemma stored_key_canonical C d : laws C -> valid_scalar d ->
  exists b, marshal_priv (priv_ec (ec_key C d)) = Ok b /\
    canonical (cose_es256_private (big_bytes (fst (p256_pub C d))) (big_bytes (snd (p256_pub C d))) (big_bytes d)) b.
Proof.
  intros L V. assert (D : d < 2 ^ 256).
  { destruct V as [_ V]. unfold p256_order in V. change (2 ^ 256) with 115792089237316195423570985008687907853269984665640564039457584007913129639936. lia. }
  eexists. split; [reflexivity|]. unfold marshal_cbor. rewrite ec2_struct.
  cbn [e2_kty e2_alg e2_crv e2_x e2_y e2_d ec_key ec_public eq_x eq_y ec_d].
  assert (N : empty_slice (Some (big_bytes d)) = false).
  { destruct (big_bytes d) eqn:X; [|reflexivity]. exfalso.
    pose proof (big_set_bytes d) as Y. rewrite X in Y. destruct V as [V _]. cbn in Y. lia. }
  rewrite N. cbn [app cbytes]. change (CInt KTY_EC2) with (CUint 2). change (CInt ALG_ES256) with (CNint 6).
  change (CInt CRV_P256) with (CUint 1).
  pose proof (l_pub_x _ L d V) as HX. pose proof (l_pub_y _ L d V) as HY.
  fold (cose_es256_private (big_bytes (fst (p256_pub C d))) (big_bytes (snd (p256_pub C d))) (big_bytes d)).
  apply cenc_canonical.
  pose proof (big_256 _ HX). pose proof (big_256 _ HY). pose proof (big_256 _ D).
  pose proof (big_bytes_wf (fst (p256_pub C d))). pose proof (big_bytes_wf (snd (p256_pub C d))).
  pose proof (big_bytes_wf d).
  generalize dependent (big_bytes (fst (p256_pub C d))). generalize dependent (big_bytes (snd (p256_pub C d))).
  generalize dependent (big_bytes d). intros. unfold cose_es256_private. doc_good.
Qed.
