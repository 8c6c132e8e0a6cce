(* Properties C28..C44, C56, C67, C69 and C70, one CTAP command at a time.  [client_ok] holds at start
   and after every command (C_History); [env_ok] collects the assumptions on the
   cryptography, the random source and certificate creation. *)
From Verif Require Import Base M_Cbor M_Crypto M_Cose M_State M_Client M_Ctap.
From Verif Require Import S_Crypto S_Cbor S_Cose S_State S_Client S_Ctap S_CtapReq S_Pin.
From Verif Require Import P_Crypto P_Cbor P_Cbor2 P_Cbor3 P_Ctap P_Ctap2 P_Ctap3 P_CtapReq P_Pin P_Ctap4 P_Toy S_Fold P_Fold P_CtapReq2.

Local Opaque two dev ctap_handle run.

(* ---------------------------------------------------------------- C28 *)
Theorem C28_registration_gated : forall E w data w' b, env_ok E -> client_ok E (w_client w) -> wfb data ->
  ctap_handle E (1 :: data) w = (w', Ok (0 :: b)) ->
  exists a rp es, unmarshal dec_mc data = Some a /\ offers_es256 a /\ mc_rp a = Some rp /\
    events w w' es /\ asked es = [(ActMakeCredential, rp_name rp, [], true)] /\
    (cl_pin (w_client w) = true ->
       mc_verified (e_C E) (w_client w) a \/ (mc_auth a = None /\ cl_hash (w_client w) = None)).
Proof. exact registration_gated. Qed.
Print Assumptions C28_registration_gated.

Example C28_example : env_ok (toyE true) /\ client_ok (toyE true) (w_client (dev true)) /\
  wfb (tl (msg_mc rpA None)) /\
  exists b, snd (ctap_handle (toyE true) (msg_mc rpA None) (dev true)) = Ok (0 :: b).
Proof.
  split; [apply toyE_ok|]. split; [apply dev_ok|]. split; [apply wfbb_iff; vm_compute; reflexivity|].
  eexists. vm_compute. reflexivity.
Qed.

(* ---------------------------------------------------------------- C29 *)
Theorem C29_registration_verifies : forall E w data w' b, env_ok E -> client_ok E (w_client w) -> wfb data ->
  ctap_handle E (1 :: data) w = (w', Ok (0 :: b)) ->
  exists a rp u auth sig cert ad id key x y s,
    unmarshal dec_mc data = Some a /\ mc_rp a = Some rp /\ mc_user a = Some u /\
    response (attestation_doc auth sig cert) (0 :: b) /\
    has_auth_data auth ad /\ ad_rp_hash ad = sha256 (e_C E) (rp_id rp) /\
    UP (ad_flags ad) = true /\ AT (ad_flags ad) = true /\ ad_count ad = 0 /\
    attested (ad_rest ad) the_aaguid id key /\ len id = 16 /\
    canonical (cose_es256 x y) key /\
    ecdsa_verify (e_C E) (be_dec x, be_dec y) (sha256 (e_C E) (auth ++ or_nil (mc_hash a))) sig = true /\
    (exists t, e_make_cert E t (cl_cert (w_client w)) (cl_certkey (w_client w))
                 (pub_ec {| eq_curve := P256; eq_x := be_dec x; eq_y := be_dec y |}) = Some cert) /\
    cl_vault (w_client w') = cl_vault (w_client w) ++ [s] /\
    cs_id s = id /\ cs_rp s = rp /\ cs_user s = u /\ cs_ctr s = 0%Z /\
    (exists d, cs_key s = priv_ec {| ec_public := {| eq_curve := P256; eq_x := be_dec x; eq_y := be_dec y |}; ec_d := d |}).
Proof. exact registration_verifies. Qed.
Print Assumptions C29_registration_verifies.
(* The hypotheses are those of C28. *)

(* ---------------------------------------------------------------- C30 *)
Theorem C30_failed_registration_inert : forall E w data w' e,
  env_ok E -> client_ok E (w_client w) -> wfb data ->
  ctap_handle E (1 :: data) w = (w', Ok [e]) -> e <> 0 ->
  w_client w' = w_client w /\ exists es, events w w' es /\ saves es = [].
Proof. exact registration_error_inert. Qed.
Print Assumptions C30_failed_registration_inert.

(* Refused by the user, and refused for want of a PIN. *)
Example C30_example :
  snd (ctap_handle (toyE false) (msg_mc rpA None) (dev true)) = Ok [39] /\
  (snd (run (toyE true) [msg_set far pin1; msg_mc rpA None; msg_mc rpA (Some (be 16 0))] (dev true))) =
    [Ok [0]; Ok [54]; Ok [51]].
Proof. vm_compute. auto. Qed.

(* ---------------------------------------------------------------- C33 *)
Theorem C33_registration_flags : forall E w data w' b, env_ok E -> client_ok E (w_client w) -> wfb data ->
  ctap_handle E (1 :: data) w = (w', Ok (0 :: b)) ->
  exists a auth sig cert ad es,
    unmarshal dec_mc data = Some a /\ response (attestation_doc auth sig cert) (0 :: b) /\
    has_auth_data auth ad /\ events w w' es /\
    (UP (ad_flags ad) = true <-> agreed es) /\
    (UV (ad_flags ad) = true <-> mc_verified (e_C E) (w_client w) a).
Proof. exact registration_flags. Qed.
Print Assumptions C33_registration_flags.

Theorem C33_assertion_flags : forall E w data w' b, env_ok E -> client_ok E (w_client w) -> wfb data ->
  ctap_handle E (2 :: data) w = (w', Ok (0 :: b)) ->
  exists a id auth sig ad es,
    unmarshal dec_ga data = Some a /\ response (assertion_doc id auth sig) (0 :: b) /\
    has_auth_data auth ad /\ events w w' es /\
    (UP (ad_flags ad) = true <-> agreed es) /\
    (UV (ad_flags ad) = true <-> ga_verified (e_C E) (w_client w) a).
Proof. exact assertion_flags. Qed.
Print Assumptions C33_assertion_flags.

(* With approval, without being asked (up = false), and under the PIN token. *)
Example C33_example : client_ok (toyE true) (w_client two) /\
  (exists b, snd (ctap_handle (toyE true) (msg_ga rpA None None None) two) = Ok (0 :: b)) /\
  (exists b, snd (ctap_handle (toyE true) (msg_ga rpB None (Some false) None) two) = Ok (0 :: b)) /\
  statuses (snd (run (toyE true) [msg_set far pin1; msg_mc rpA (Some (half (hmac256 toy (be 16 1) the_hash)));
     msg_ga rpA None None (Some (half (hmac256 toy (be 16 1) the_hash)))] (dev true))) = [Some 0; Some 0; Some 0].
Proof.
  split; [apply two_ok|]. split; [eexists; vm_compute; reflexivity|].
  split; [eexists; vm_compute; reflexivity|]. vm_compute. reflexivity.
Qed.

(* ---------------------------------------------------------------- C35 *)
Definition C35_full : Prop := forall E w data w', env_ok E -> client_ok E (w_client w) -> wfb data ->
  ctap_handle E (2 :: data) w = (w', Ok [39]) -> w_client w' = w_client w.

Theorem C35_refusal_leaves_trace_refuted : ~ C35_full.
Proof.
  intro H. specialize (H (toyE false) two (tl (msg_ga rpA None None None))
    (fst (ctap_handle (toyE false) (msg_ga rpA None None None) two)) (toyE_ok false)).
  assert (K : client_ok (toyE false) (w_client two)) by apply two_ok.
  specialize (H K). assert (W : wfb (tl (msg_ga rpA None None None))) by (apply wfbb_iff; vm_compute; reflexivity).
  specialize (H W). assert (X : snd (ctap_handle (toyE false) (msg_ga rpA None None None) two) = Ok [39])
    by (vm_compute; reflexivity).
  assert (Y : ctap_handle (toyE false) (2 :: tl (msg_ga rpA None None None)) two =
     (fst (ctap_handle (toyE false) (msg_ga rpA None None None) two), Ok [39])).
  { rewrite <- X. change (2 :: tl (msg_ga rpA None None None)) with (msg_ga rpA None None None).
    apply surjective_pairing. }
  specialize (H Y). apply (f_equal (fun c => map cs_ctr (cl_vault c))) in H. vm_compute in H. discriminate H.
Qed.
Print Assumptions C35_refusal_leaves_trace_refuted.

(* What does hold: nothing but the counter of one credential is touched, and nothing is signed. *)
Theorem C35_refusal_partial : forall E w data w', env_ok E -> client_ok E (w_client w) -> wfb data ->
  ctap_handle E (2 :: data) w = (w', Ok [39]) ->
  exists v1 s v2 s', cl_vault (w_client w) = v1 ++ s :: v2 /\
    w_client w' = set_vault (w_client w) (v1 ++ s' :: v2) /\
    s' = {| cs_type := cs_type s; cs_id := cs_id s; cs_key := cs_key s; cs_rp := cs_rp s; cs_user := cs_user s;
            cs_ctr := cs_ctr s' |} /\
    (cs_ctr s' mod 4294967296 = (cs_ctr s + 1) mod 4294967296)%Z.
Proof. exact denied_assertion. Qed.
Print Assumptions C35_refusal_partial.
(* The hypotheses are met by the counterexample above. *)

(* ---------------------------------------------------------------- C36 *)
Definition C36_full : Prop := forall E w data w' r a d s, env_ok E -> client_ok E (w_client w) -> wfb data ->
  ctap_handle E (1 :: data) w = (w', r) -> unmarshal dec_mc data = Some a ->
  In d (match mc_exclude a with Some l => l | None => [] end) -> In s (cl_vault (w_client w)) ->
  or_nil (de_id d) = cs_id s -> option_map rp_id (mc_rp a) = Some (rp_id (cs_rp s)) ->
  cl_vault (w_client w') = cl_vault (w_client w).

Definition excluded : bytes :=
  cenc (mc_request the_hash rpA [65; 66] [1; 2; 3] [98; 111; 98] [66; 111; 98] es256 (Some [be 16 4]) None).

Theorem C36_exclude_list_refuted : ~ C36_full.
Proof.
  intro H.
  destruct (ctap_handle (toyE true) (1 :: excluded) two) as [w' r] eqn:X.
  assert (W : wfb excluded) by (apply wfbb_iff; vm_compute; reflexivity).
  destruct (mc_read the_hash rpA [65; 66] [1; 2; 3] [98; 111; 98] [66; 111; 98] es256 (Some [be 16 4]) None excluded)
    as [U _]; [apply canon; vm_compute; reflexivity|vm_compute; discriminate|vm_compute; discriminate|repeat constructor; vm_compute; congruence|].
  assert (I : exists s, In s (cl_vault (w_client two)) /\ be 16 4 = cs_id s /\ rp_id (cs_rp s) = rpA).
  { pose (f := fun s => bytes_eqb (be 16 4) (cs_id s) && bytes_eqb (rp_id (cs_rp s)) rpA).
    assert (F : existsb f (cl_vault (w_client two)) = true) by (vm_compute; reflexivity).
    apply existsb_exists in F. destruct F as (s & F1 & F2). apply andb_true_iff in F2.
    exists s. split; [exact F1|]. split; apply bytes_eqb_eq; apply F2. }
  destruct I as (s & I1 & I2 & I3).
  assert (Y : cl_vault (w_client w') = cl_vault (w_client two)).
  { eapply (H (toyE true) two excluded w' r _ {| de_type := text_public_key; de_id := Some (be 16 4); de_transports := None |} s
      (toyE_ok true) (two_ok true) W X U).
    - left. reflexivity.
    - exact I1.
    - exact I2.
    - cbn [dec_mc_fields mc_rp option_map rp_id]. now rewrite I3. }
  apply (f_equal (@length source)) in Y.
  assert (Z : length (cl_vault (w_client (fst (ctap_handle (toyE true) (1 :: excluded) two)))) = 3%nat)
    by (vm_compute; reflexivity).
  rewrite X in Z. cbn [fst] in Z. rewrite Z in Y. vm_compute in Y. discriminate Y.
Qed.
Print Assumptions C36_exclude_list_refuted.

(* What does hold: a registration adds one credential, with the user's approval (C28), and
   never replaces or changes another. *)
Theorem C36_existing_kept_partial : forall E w data w' b, env_ok E -> client_ok E (w_client w) -> wfb data ->
  ctap_handle E (1 :: data) w = (w', Ok (0 :: b)) ->
  exists s, w_client w' = set_vault (w_client w) (cl_vault (w_client w) ++ [s]).
Proof. exact registration_adds. Qed.
Print Assumptions C36_existing_kept_partial.

(* ---------------------------------------------------------------- C37 *)
(* [usable z] restricts the x coordinate of the shared point. *)
Definition C37_statement (usable : N -> Prop) : Prop := forall E w p z s pin b0 v1 b1,
  env_ok E -> client_ok E (w_client w) ->
  cl_pin (w_client w) = true -> cl_hash (w_client w) = None -> valid_scalar p -> fair_pin pin ->
  canonical ask_agreement b0 ->
  platform_secret (e_C E) p (p256_pub (e_C E) (cl_ka (w_client w))) z s -> usable z ->
  set_pin_request (e_C E) p s pin v1 -> canonical v1 b1 ->
  (exists r0 x y, ctap_handle E (6 :: b0) w = (w, Ok r0) /\ response (agreement_doc x y) r0 /\
     (be_dec x, be_dec y) = p256_pub (e_C E) (cl_ka (w_client w))) /\
  exists w1, ctap_handle E (6 :: b1) w = (w1, Ok [0]) /\
  forall v2 b2, token_request (e_C E) p s pin v2 -> canonical v2 b2 ->
  exists w2 r2 token enc, ctap_handle E (6 :: b2) w1 = (w2, Ok r2) /\ response (token_doc enc) r2 /\
    enciphers (e_C E) s token enc /\ len token = 16 /\
  forall h ri rn ui un ud ps ex b3,
    canonical (mc_request h ri rn ui un ud ps ex (Some (half (hmac256 (e_C E) token h)))) b3 ->
    fits ps -> fits_opt ex -> Forall (fun p => (-2147483648 <= snd p < 2147483648)%Z) ps ->
    In (text_public_key, (-7)%Z) ps ->
    e_approve E (w_tick w2) ActMakeCredential rn [] = true -> can_certify E (w_client w) ->
  exists w3 r3 auth sig cert ad, ctap_handle E (1 :: b3) w2 = (w3, Ok r3) /\
    response (attestation_doc auth sig cert) r3 /\ has_auth_data auth ad /\ UV (ad_flags ad) = true.

Definition C37_full : Prop := C37_statement (fun _ => True).

(* Whenever the x coordinate of the shared point starts with a nonzero byte. *)
Theorem C37_pin_round_trip_partial : C37_statement (fun z => 2 ^ 248 <= z).
Proof. exact pin_round_trip. Qed.
Print Assumptions C37_pin_round_trip_partial.

Lemma toy_enciphers s plain : len s = 32 -> len plain mod 16 = 0 -> enciphers toy s plain (toy_enc s plain).
Proof.
  intros A B. apply encrypt_enciphers; [apply toy_laws|]. unfold toy_enc, encrypt_cbc.
  rewrite (proj2 (aes_key_ok_iff s)) by (right; right; exact A). rewrite B. reflexivity.
Qed.

Example C37_example : valid_scalar far /\ fair_pin pin1 /\ canonical ask_agreement (cenc ask_agreement) /\
  platform_secret toy far (p256_pub toy (cl_ka (w_client (dev true)))) (2 ^ 255) (secret far) /\ 2 ^ 248 <= 2 ^ 255 /\
  set_pin_request toy far (secret far) pin1 (doc_set far pin1) /\ canonical (doc_set far pin1) (cenc (doc_set far pin1)) /\
  token_request toy far (secret far) pin1 (doc_token far pin1) /\ canonical (doc_token far pin1) (cenc (doc_token far pin1)).
Proof.
  split; [vm_compute; split; reflexivity|]. split.
  { split; [apply wfbb_iff; reflexivity|]. split; [vm_compute; split; discriminate|].
    intros [X|[X|[X|[X|[]]]]]; discriminate X. }
  split; [apply canon; reflexivity|]. split; [split; vm_compute; reflexivity|]. split; [vm_compute; discriminate|].
  split. { eexists. split; [apply (toy_enciphers (secret far)); vm_compute; reflexivity|reflexivity]. }
  split; [apply canon; vm_compute; reflexivity|].
  split. { eexists. split; [apply (toy_enciphers (secret far)); vm_compute; reflexivity|reflexivity]. }
  apply canon; vm_compute; reflexivity.
Qed.

(* The device hashes the coordinate without its leading zero bytes, the platform with them. *)
Theorem C37_leading_zero_refuted : ~ C37_full.
Proof.
  intro H. specialize (H (toyE true) (dev true) 3 6 (secret 3) pin1 (cenc ask_agreement) (doc_set 3 pin1)
    (cenc (doc_set 3 pin1)) (toyE_ok true) (dev_ok true true) eq_refl eq_refl).
  destruct H as (_ & w1 & H & _).
  - vm_compute; split; reflexivity.
  - apply C37_example.
  - apply canon; reflexivity.
  - split; vm_compute; reflexivity.
  - exact I.
  - eexists. split; [apply (toy_enciphers (secret 3)); vm_compute; reflexivity|reflexivity].
  - apply canon; vm_compute; reflexivity.
  - apply (f_equal snd) in H. vm_compute in H. discriminate H.
Qed.
Print Assumptions C37_leading_zero_refuted.

(* ---------------------------------------------------------------- C38 *)
(* [strict]: a PIN must be set for ChangePIN to succeed. *)
Definition C38_full : Prop := forall E msg w w' r, env_ok E -> client_ok E (w_client w) -> wfb msg ->
  ctap_handle E msg w = (w', r) -> cl_hash (w_client w') <> cl_hash (w_client w) ->
  exists data a k s pin, msg = 6 :: data /\ unmarshal dec_cp data = Some a /\ pn_key a = Some k /\
    secret_of E (w_client w) k s /\ 4 <= len pin /\
    cl_hash (w_client w') = Some (half (sha256 (e_C E) pin)) /\
    ((pn_sub a = 3 /\ cl_hash (w_client w) = None) \/
     (pn_sub a = 4 /\ exists h, cl_hash (w_client w) = Some h /\ decrypt_cbc (e_C E) s (or_nil (pn_hash a)) = Ok h)).

(* With no PIN set, ChangePIN with an absent pinHashEnc sets one. *)
Definition change_without_pin : bytes :=
  let e := toy_enc (secret far) (pad_pin pin1) in
  cenc (cp_request 4 (Some (platform_key toy far)) (Some (half (hmac256 toy (secret far) e))) (Some e) None).

Theorem C38_change_without_pin_refuted : ~ C38_full.
Proof.
  intro H. destruct (ctap_handle (toyE true) (6 :: change_without_pin) (dev true)) as [w' r] eqn:X.
  assert (W : wfb (6 :: change_without_pin)) by (apply wfbb_iff; vm_compute; reflexivity).
  assert (Y : cl_hash (w_client (fst (ctap_handle (toyE true) (6 :: change_without_pin) (dev true)))) <> None)
    by (vm_compute; discriminate).
  rewrite X in Y. cbn [fst] in Y.
  specialize (H (toyE true) _ (dev true) w' r (toyE_ok true) (dev_ok true true) W X Y).
  destruct H as (data & a & k & s & pin & E1 & U & _ & _ & _ & _ & [[S _]|(S & h & Hh & _)]).
  - injection E1 as <-.
    edestruct (cp_read 4) as [U' _]; [|reflexivity|rewrite U in U'; injection U' as Q; rewrite Q in S; discriminate S].
    apply canon. vm_compute. reflexivity.
  - discriminate Hh.
Qed.
Print Assumptions C38_change_without_pin_refuted.

Theorem C38_hash_change_partial : forall E msg w w' r, env_ok E -> client_ok E (w_client w) -> wfb msg ->
  ctap_handle E msg w = (w', r) -> cl_hash (w_client w') <> cl_hash (w_client w) ->
  cl_pin (w_client w) = true /\
  exists data a k s pin, msg = 6 :: data /\ unmarshal dec_cp data = Some a /\ pn_protocol a = 1 /\
    pn_key a = Some k /\ secret_of E (w_client w) k s /\
    cl_hash (w_client w') = Some (firstn 16 (sha256 (e_C E) pin)) /\ 4 <= len pin /\ r = Ok [0] /\
    (exists dec, decrypt_cbc (e_C E) s (or_nil (pn_new a)) = Ok dec /\ padded_pin dec pin) /\
    ((pn_sub a = 3 /\ cl_hash (w_client w) = None /\
      exists enc, pn_new a = Some enc /\ pn_auth a = Some (firstn 16 (hmac256 (e_C E) s enc))) \/
     (pn_sub a = 4 /\ decrypt_cbc (e_C E) s (or_nil (pn_hash a)) = Ok (or_nil (cl_hash (w_client w))) /\
      pn_auth a = Some (firstn 16 (hmac256 (e_C E) s (or_nil (pn_new a) ++ or_nil (pn_hash a)))))).
Proof. exact hash_change. Qed.
Print Assumptions C38_hash_change_partial.

(* Once a PIN is set, the statement holds in full. *)
Theorem C38_pin_set_partial : forall E msg w w' r h, env_ok E -> client_ok E (w_client w) -> wfb msg ->
  ctap_handle E msg w = (w', r) -> cl_hash (w_client w) = Some h -> cl_hash (w_client w') <> Some h ->
  cl_pin (w_client w) = true /\
  exists data a k s pin dec, msg = 6 :: data /\ unmarshal dec_cp data = Some a /\ pn_protocol a = 1 /\ pn_sub a = 4 /\
    pn_key a = Some k /\ secret_of E (w_client w) k s /\
    decrypt_cbc (e_C E) s (or_nil (pn_hash a)) = Ok h /\
    pn_auth a = Some (half (hmac256 (e_C E) s (or_nil (pn_new a) ++ or_nil (pn_hash a)))) /\
    decrypt_cbc (e_C E) s (or_nil (pn_new a)) = Ok dec /\ padded_pin dec pin /\ 4 <= len pin /\
    cl_hash (w_client w') = Some (half (sha256 (e_C E) pin)) /\ r = Ok [0].
Proof. exact hash_change_set. Qed.
Print Assumptions C38_pin_set_partial.

Example C38_example : snd (run (toyE true) [msg_set far pin1; msg_change far pin1 pin2] (dev true)) = [Ok [0]; Ok [0]] /\
  cl_hash (w_client (fst (run (toyE true) [msg_set far pin1] (dev true)))) = Some (half (toy_hash pin1)) /\
  cl_hash (w_client (fst (run (toyE true) [msg_set far pin1; msg_change far pin1 pin2] (dev true)))) = Some (half (toy_hash pin2)).
Proof. vm_compute. auto. Qed.

(* ---------------------------------------------------------------- C40 *)
Definition C40_full : Prop := forall E data w w' b a, env_ok E -> client_ok E (w_client w) -> wfb data ->
  ctap_handle E (6 :: data) w = (w', Ok (0 :: b)) -> unmarshal dec_cp data = Some a -> pn_sub a = 5 ->
  exists h k enc s, cl_hash (w_client w) = Some h /\ pn_key a = Some k /\ pn_hash a = Some enc /\
    secret_of E (w_client w) k s /\ decrypt_cbc (e_C E) s enc = Ok h.

(* With no PIN set the empty string is accepted as its encrypted hash. *)
Definition token_without_pin : bytes := cenc (cp_request 5 (Some (platform_key toy far)) None None (Some [])).

Theorem C40_token_without_pin_refuted : ~ C40_full.
Proof.
  intro H. destruct (ctap_handle (toyE true) (6 :: token_without_pin) (dev true)) as [w' r] eqn:X.
  assert (W : wfb token_without_pin) by (apply wfbb_iff; vm_compute; reflexivity).
  assert (Y : exists b, snd (ctap_handle (toyE true) (6 :: token_without_pin) (dev true)) = Ok (0 :: b))
    by (eexists; vm_compute; reflexivity).
  destruct Y as [b Y]. rewrite X in Y. cbn [snd] in Y. subst r.
  destruct (cp_read 5 (Some (platform_key toy far)) None None (Some []) token_without_pin) as [U _];
    [apply canon; vm_compute; reflexivity|reflexivity|].
  destruct (H (toyE true) _ (dev true) w' b _ (toyE_ok true) (dev_ok true true) W X U eq_refl) as (h & k & enc & s & Hh & _).
  discriminate Hh.
Qed.
Print Assumptions C40_token_without_pin_refuted.

Theorem C40_token_given_partial : forall E data w w' b a h, env_ok E -> client_ok E (w_client w) -> wfb data ->
  ctap_handle E (6 :: data) w = (w', Ok (0 :: b)) -> unmarshal dec_cp data = Some a -> pn_sub a = 5 ->
  cl_hash (w_client w) = Some h ->
  exists k enc s t, pn_key a = Some k /\ pn_hash a = Some enc /\ secret_of E (w_client w) k s /\
    decrypt_cbc (e_C E) s enc = Ok h /\
    response (token_doc t) (0 :: b) /\ decrypt_cbc (e_C E) s t = Ok (cl_token (w_client w)) /\
    w_client w' = set_retries (w_client w) 8.
Proof. exact token_given_set. Qed.
Print Assumptions C40_token_given_partial.

Example C40_example : statuses (snd (run (toyE true) [msg_set far pin1; msg_token far pin2; msg_token far pin1] (dev true))) =
  [Some 0; Some 49; Some 0].
Proof. vm_compute. reflexivity. Qed.

(* ---------------------------------------------------------------- C41 *)
Theorem C41_commands_inert : forall E data w, cl_pin (w_client w) = false ->
  ctap_handle E (6 :: data) w = (w, Ok [1]).
Proof. exact pin_off_inert. Qed.
Print Assumptions C41_commands_inert.

(* Two requests that differ only in the PIN parameters are treated alike. *)
Theorem C41_registration_ignores_pin : forall E w d1 d2 a1 a2, cl_pin (w_client w) = false ->
  unmarshal dec_mc d1 = Some a1 -> unmarshal dec_mc d2 = Some a2 ->
  mc_hash a1 = mc_hash a2 -> mc_rp a1 = mc_rp a2 -> mc_user a1 = mc_user a2 -> mc_params a1 = mc_params a2 ->
  ctap_handle E (1 :: d1) w = ctap_handle E (1 :: d2) w.
Proof. exact pin_off_register. Qed.
Print Assumptions C41_registration_ignores_pin.

Theorem C41_assertion_ignores_pin : forall E w d1 d2 a1 a2, cl_pin (w_client w) = false ->
  unmarshal dec_ga d1 = Some a1 -> unmarshal dec_ga d2 = Some a2 ->
  ga_hash a1 = ga_hash a2 -> ga_rp a1 = ga_rp a2 -> ga_allow a1 = ga_allow a2 -> ga_options a1 = ga_options a2 ->
  ctap_handle E (2 :: d1) w = ctap_handle E (2 :: d2) w.
Proof. exact pin_off_assert. Qed.
Print Assumptions C41_assertion_ignores_pin.

Example C41_example : cl_pin (w_client (dev false)) = false /\
  (exists a, unmarshal dec_ga (tl (msg_ga rpA None None (Some [1; 2]))) = Some a /\ ga_auth a = Some [1; 2]) /\
  snd (ctap_handle (toyE true) (msg_set far pin1) (dev false)) = Ok [1].
Proof.
  split; [reflexivity|]. split; [|vm_compute; reflexivity].
  eexists. split; [vm_compute; reflexivity|reflexivity].
Qed.

(* ---------------------------------------------------------------- C42 *)
Theorem C42_get_info : forall E data w, exists b, ctap_handle E (4 :: data) w = (w, Ok (0 :: b)) /\
  canonical (info_doc (if cl_pin (w_client w)
                       then Some (match cl_hash (w_client w) with Some _ => true | None => false end) else None)) b.
Proof. exact get_info_accurate. Qed.
Print Assumptions C42_get_info.

Example C42_example : exists b, snd (ctap_handle (toyE true) [4] (dev true)) = Ok (0 :: b) /\
  canonical (info_doc (Some false)) b.
Proof. eexists. split; [vm_compute; reflexivity|]. apply (canon (info_doc (Some false))). vm_compute. reflexivity. Qed.

(* ---------------------------------------------------------------- C43 *)
(* A response is a status byte or the canonical form of one of the six documents. *)
Theorem C43_responses_canonical : forall E msg w w' r, env_ok E -> client_ok E (w_client w) -> wfb msg ->
  ctap_handle E msg w = (w', Ok r) ->
  (exists e, r = [e]) \/ exists v, ctap_document v /\ response v r.
Proof. exact responses_canonical. Qed.
Print Assumptions C43_responses_canonical.

(* Credential keys are stored as canonical COSE_Key documents. *)
Theorem C43_stored_keys_canonical : forall C d, laws C -> valid_scalar d ->
  exists b, marshal_priv (priv_ec (ec_key C d)) = Ok b /\
    canonical (cose_es256_private (big_bytes (fst (p256_pub C d))) (big_bytes (snd (p256_pub C d))) (big_bytes d)) b.
Proof. exact stored_key_canonical. Qed.
Print Assumptions C43_stored_keys_canonical.

(* A canonical form determines its document, whatever its size and depth. *)
Theorem C43_unique_reading : forall v v' b, canonical v b -> canonical v' b -> v = v'.
Proof. exact canonical_one. Qed.
Print Assumptions C43_unique_reading.
(* The hypotheses of the first theorem are met in C28, C33, C38 and C40. *)

(* ---------------------------------------------------------------- C44 *)
Definition C44_full : Prop := forall E msg w w' r, env_ok E -> client_ok E (w_client w) -> wfb msg ->
  ctap_handle E msg w = (w', r) -> r <> Panic.

Theorem C44_crash_refuted : ~ C44_full.
Proof.
  intro H. apply (H (toyE true) [] (dev true) (dev true) Panic (toyE_ok true) (dev_ok true true) (wfb_nil)); reflexivity.
Qed.
Print Assumptions C44_crash_refuted.

(* Crashing messages: empty; unknown command; a truncated or mistyped registration; one
   without relying party or without user; a PIN command with a point off the curve, with a
   block of a wrong length, or without a key. *)
Example C44_crashes : Forall (fun m => snd (ctap_handle (toyE true) m (dev true)) = Panic)
  [ []; [7]; [3]; [1; 161]; [1; 1]; 1 :: cenc (CMap [(CUint 4, CArr [param_doc (text_public_key, (-7)%Z)])]);
    1 :: cenc (CMap [(CUint 2, rp_doc rpA rpA); (CUint 4, CArr [param_doc (text_public_key, (-7)%Z)])]);
    msg_cp 5 (Some (be 32 5, be 32 5)) None None (Some []); msg_cp 5 (Some (be 32 5, be 32 6)) None None (Some [1]);
    msg_cp 5 None None None (Some []) ].
Proof. repeat constructor; vm_compute; reflexivity. Qed.

(* The messages that cannot crash the device. *)
Theorem C44_no_panic_partial : forall E msg w w' r, env_ok E -> client_ok E (w_client w) -> wfb msg ->
  ctap_handle E msg w = (w', r) ->
  (exists data a, msg = 1 :: data /\ unmarshal dec_mc data = Some a /\ mc_rp a <> None /\ mc_user a <> None /\
     can_certify E (w_client w)) \/
  (exists data, msg = 2 :: data) \/ (exists data, msg = 4 :: data) \/
  (exists data, msg = 6 :: data /\
     (cl_pin (w_client w) = false \/ unmarshal dec_cp data = None \/
      exists a, unmarshal dec_cp data = Some a /\
        (cl_retries (w_client w) <> 0%Z \/ pn_sub a = 2 \/ pn_sub a = 3) /\
        (pn_sub a = 5 -> pn_key a <> None) /\
        (forall k, pn_key a = Some k -> on_curve E k) /\
        len (or_nil (pn_new a)) mod 16 = 0 /\ len (or_nil (pn_hash a)) mod 16 = 0)) ->
  r <> Panic.
Proof. exact no_panic. Qed.
Print Assumptions C44_no_panic_partial.

(* ---------------------------------------------------------------- C56 *)
Theorem C56_registration_durable : forall E w data w' b, env_ok E -> client_ok E (w_client w) -> wfb data ->
  ctap_handle E (1 :: data) w = (w', Ok (0 :: b)) ->
  exists es d s, events w w' es /\ saves es = [d] /\ stored E d (w_client w') /\
    cl_vault (w_client w') = cl_vault (w_client w) ++ [s].
Proof. exact registration_saved. Qed.
Print Assumptions C56_registration_durable.

Theorem C56_assertion_durable : forall E w data w' b, env_ok E -> client_ok E (w_client w) -> wfb data ->
  ctap_handle E (2 :: data) w = (w', Ok (0 :: b)) ->
  exists es d, events w w' es /\ saves es = [d] /\ stored E d (w_client w').
Proof.
  intros E w data w' b L K W H. destruct (assertion_facts E w data w' b L K W H)
    as (a & auth & sig & ad & v1 & s & v2 & s' & x & y & es & _ & _ & _ & _ & _ & _ & _ & _ & _ & _ & _ & _ & _ & _ & _ & Ev & _ & _ & _ & _ & d & S & St).
  exists es, d. auto.
Qed.
Print Assumptions C56_assertion_durable.

Theorem C56_pin_durable : forall E w data w', env_ok E -> client_ok E (w_client w) -> wfb data ->
  ctap_handle E (6 :: data) w = (w', Ok [0]) ->
  exists es d pin, events w w' es /\ saves es = [d] /\ stored E d (w_client w') /\
    cl_hash (w_client w') = Some (half (sha256 (e_C E) pin)).
Proof. exact pin_saved. Qed.
Print Assumptions C56_pin_durable.

(* At every crash point of every command: nothing of it was saved, or all of it. *)
Theorem C56_crash_anywhere : forall E msg w w' r, env_ok E -> client_ok E (w_client w) -> wfb msg ->
  ctap_handle E msg w = (w', r) ->
  exists es, events w w' es /\
    ((saves es = [] /\ exists n, w_client w' = set_retries (w_client w) n) \/
     (exists d, saves es = [d] /\ stored E d (w_client w') /\
        forall k, saves (firstn k es) = [] \/ saves (firstn k es) = [d])).
Proof. exact crash_anywhere. Qed.
Print Assumptions C56_crash_anywhere.

Example C56_example : length (saves (w_trace (fst (run (toyE true)
  [msg_mc rpA None; msg_ga rpA None None None; msg_set far pin1; [4]] (dev true))))) = 3%nat.
Proof. vm_compute. reflexivity. Qed.

(* ---------------------------------------------------------------- C67 *)
(* CTAP 2.0, section 5.5.4: a COSE_Key on P-256 (curve 1) for ECDH-ES+HKDF-256 (-25). *)
Definition agreement_reply (curve : cbor) (x y : bytes) : cbor :=
  CMap [(CUint 1, CMap [(CUint 1, CUint 2); (CUint 3, CNint 24); (CNint 0, curve); (CNint 1, CBytes x); (CNint 2, CBytes y)])].

Definition C67_statement (curve : cbor) (coordinate : N -> bytes -> Prop) : Prop := forall E w b,
  env_ok E -> client_ok E (w_client w) -> cl_pin (w_client w) = true -> canonical ask_agreement b ->
  exists r x y, ctap_handle E (6 :: b) w = (w, Ok r) /\ response (agreement_reply curve x y) r /\
    coordinate (fst (p256_pub (e_C E) (cl_ka (w_client w)))) x /\
    coordinate (snd (p256_pub (e_C E) (cl_ka (w_client w)))) y.

Definition C67_full : Prop := C67_statement (CUint 1) (fun v s => s = be 32 v).

Theorem C67_wrong_curve_refuted : ~ C67_full /\ ~ C67_statement (CUint 1) (fun v s => be_dec s = v).
Proof.
  assert (G : forall c, ~ C67_statement (CUint 1) c).
  { intros c H. destruct (H (toyE true) (dev true) (cenc ask_agreement) (toyE_ok true) (dev_ok true true) eq_refl)
      as (r & x & y & X & (t & -> & Y) & _); [apply canon; reflexivity|].
    assert (X' : snd (ctap_handle (toyE true) (6 :: cenc ask_agreement) (dev true)) =
       Ok (0 :: cenc (agreement_reply (CUint 0) [2] [3]))) by (vm_compute; reflexivity).
    rewrite X in X'. cbn [snd] in X'. injection X' as ->.
    assert (Z : agreement_reply (CUint 1) x y = agreement_reply (CUint 0) [2] [3]).
    { eapply canonical_one; [exact Y|]. apply canon. vm_compute. reflexivity. }
    discriminate Z. }
  split; apply G.
Qed.
Print Assumptions C67_wrong_curve_refuted.

(* Apart from the curve, and from leading zeros of the coordinates, the key is right. *)
Theorem C67_agreement_key_partial : C67_statement (CUint 0) (fun v s => be_dec s = v).
Proof.
  intros E w b L K P B. destruct (agreement_step E L w b K P B) as (r & x & y & A & R & Q).
  exists r, x, y. split; [exact A|]. split; [exact R|]. rewrite <- Q. auto.
Qed.
Print Assumptions C67_agreement_key_partial.
(* The hypotheses are met in the refutation. *)

(* ---------------------------------------------------------------- C69 *)
(* The handlers read a canonical request as the platform meant it, whatever follows it. *)
Theorem C69_registration_request : forall h ri rn ui un ud ps ex au b rest,
  canonical (mc_request h ri rn ui un ud ps ex au) b -> fits ps -> fits_opt ex ->
  Forall (fun p => (-2147483648 <= snd p < 2147483648)%Z) ps ->
  unmarshal dec_mc (b ++ rest) = Some
    {| mc_hash := Some h; mc_rp := Some {| rp_id := ri; rp_name := rn |};
       mc_user := Some {| us_id := Some ui; us_display := ud; us_name := un |};
       mc_params := Some (map (fun p => {| cp_type := fst p; cp_alg := snd p |}) ps);
       mc_exclude := option_map (map (fun id => {| de_type := text_public_key; de_id := Some id; de_transports := None |})) ex;
       mc_options := None; mc_auth := au; mc_protocol := match au with Some _ => 1 | None => 0 end |}.
Proof. exact mc_decoded. Qed.
Print Assumptions C69_registration_request.

Theorem C69_assertion_request : forall ri h al up au b rest,
  canonical (ga_request ri h al up au) b -> fits_opt al ->
  unmarshal dec_ga (b ++ rest) = Some
    {| ga_rp := ri; ga_hash := Some h;
       ga_allow := option_map (map (fun id => {| de_type := text_public_key; de_id := Some id; de_transports := None |})) al;
       ga_options := {| op_rk := false; op_uv := false; op_up := up |};
       ga_auth := au; ga_protocol := match au with Some _ => 1 | None => 0 end |}.
Proof. exact ga_decoded. Qed.
Print Assumptions C69_assertion_request.

Theorem C69_pin_request : forall sub k au nw h b rest,
  canonical (cp_request sub k au nw h) b -> sub < 4294967296 ->
  unmarshal dec_cp (b ++ rest) = Some
    {| pn_protocol := 1; pn_sub := sub;
       pn_key := option_map (fun k => {| e2_kty := 2; e2_alg := -25; e2_crv := 1; e2_x := Some (fst k);
                                         e2_y := Some (snd k); e2_d := None |}) k;
       pn_auth := au; pn_new := nw; pn_hash := h |}.
Proof. exact cp_decoded. Qed.
Print Assumptions C69_pin_request.

(* The same with transports, extensions and options; extensions are read and dropped. *)
Theorem C69_registration_request_full : forall h ri rn ui un ud ps ex exts rk up uv au b rest,
  let v := mc_request_full h ri rn ui un ud ps ex exts rk up uv au in
  canonical v b -> clim v -> (cdepth v <= max_nested)%nat ->
  Forall (fun p => (-2147483648 <= snd p < 2147483648)%Z) ps -> Forall (fun p => simple_keys (snd p)) exts ->
  unmarshal dec_mc (b ++ rest) = Some
    {| mc_hash := Some h; mc_rp := Some {| rp_id := ri; rp_name := rn |};
       mc_user := Some {| us_id := Some ui; us_display := ud; us_name := un |};
       mc_params := Some (map (fun p => {| cp_type := fst p; cp_alg := snd p |}) ps);
       mc_exclude := option_map (map (fun d => {| de_type := snd (fst d); de_id := Some (fst (fst d)); de_transports := snd d |})) ex;
       mc_options := Some {| op_rk := on rk; op_uv := on uv; op_up := up |};
       mc_auth := au; mc_protocol := match au with Some _ => 1 | None => 0 end |}.
Proof. exact mc_full_decoded. Qed.
Print Assumptions C69_registration_request_full.

Theorem C69_assertion_request_full : forall ri h al ext rk up uv au b rest,
  let v := ga_request_full ri h al ext rk up uv au in
  canonical v b -> clim v -> (cdepth v <= max_nested)%nat ->
  unmarshal dec_ga (b ++ rest) = Some
    {| ga_rp := ri; ga_hash := Some h;
       ga_allow := option_map (map (fun d => {| de_type := snd (fst d); de_id := Some (fst (fst d)); de_transports := snd d |})) al;
       ga_options := {| op_rk := false; op_uv := on uv; op_up := up |};
       ga_auth := au; ga_protocol := match au with Some _ => 1 | None => 0 end |}.
Proof. exact ga_full_decoded. Qed.
Print Assumptions C69_assertion_request_full.

Definition an_extension : list (bytes * cbor) :=
  [([99; 114; 101; 100; 80; 114; 111; 116; 101; 99; 116], CUint 2); (* credProtect *)
   ([104; 109; 97; 99; 45; 115; 101; 99; 114; 101; 116], CMap [(CUint 1, CArr [CBytes [1]; CText [65]]); (CNint 0, yes)])].
Definition a_descriptor : bytes * bytes * option (list bytes) := (be 16 4, text_public_key, Some [[117; 115; 98]; [110; 102; 99]]).
Example C69_example_full :
  let v := mc_request_full the_hash rpA [65] [1] [98] [66] es256 (Some [a_descriptor; (be 16 5, [120], None)]) an_extension
    (Some true) None (Some false) (Some (be 16 7)) in
  let g := ga_request_full rpA the_hash (Some [a_descriptor]) (CMap (map (fun p => (CText (fst p), snd p)) an_extension))
    None (Some false) (Some true) None in
  canonical v (cenc v) /\ clim v /\ (cdepth v <= max_nested)%nat /\ Forall (fun p => simple_keys (snd p)) an_extension /\
  canonical g (cenc g) /\ clim g /\ (cdepth g <= max_nested)%nat.
Proof.
  split; [apply canon; vm_compute; reflexivity|].
  split; [vm_compute; repeat split; discriminate|]. split; [vm_compute; repeat constructor|].
  split; [repeat constructor|]. split; [apply canon; vm_compute; reflexivity|].
  split; [vm_compute; repeat split; discriminate|]. vm_compute; repeat constructor.
Qed.

(* A document with a field name that is not UTF-8 is refused as a whole. *)
Theorem C69_bad_field_name : forall l k v, In (CText k, v) l -> ~ utf8_text k ->
  dec_mc (CMap l) = None /\ dec_ga (CMap l) = None /\ dec_cp (CMap l) = None /\
  dec_rp (CMap l) = None /\ dec_user (CMap l) = None /\ dec_descriptor (CMap l) = None /\ dec_param (CMap l) = None.
Proof. exact bad_key. Qed.
Print Assumptions C69_bad_field_name.

Example C69_example_bad_name : In (CText [200], CNull) [(CUint 1, CBytes the_hash); (CText [200], CNull)] /\ ~ utf8_text [200].
Proof. split; [right; now left|]. intro U. apply utf8_text_valid in U. discriminate U. Qed.

(* Field names count without regard to the case of their letters. *)
Theorem C69_field_name_case : forall l m, Forall2 recased_entry l m ->
  dec_rp (CMap l) = dec_rp (CMap m) /\ dec_user (CMap l) = dec_user (CMap m) /\
  dec_descriptor (CMap l) = dec_descriptor (CMap m) /\ dec_param (CMap l) = dec_param (CMap m) /\
  dec_options (CMap l) = dec_options (CMap m) /\ dec_get_options (CMap l) = dec_get_options (CMap m).
Proof. exact recased_structs. Qed.
Print Assumptions C69_field_name_case.

Example C69_example_case :
  Forall2 recased_entry [(CText [105; 100], CText rpA); (CUint 7, CNull)] [(CText [73; 100], CText rpA); (CUint 7, CNull)] /\
  dec_rp (CMap [(CText [73; 100], CText rpA); (CUint 7, CNull)]) = Some {| rp_id := rpA; rp_name := [] |}.
Proof.
  split; [|vm_compute; reflexivity]. constructor; [|constructor; [|constructor]]; (split; [reflexivity|]); [right|now left].
  exists [105; 100], [73; 100]. split; [reflexivity|]. split; [reflexivity|].
  split; [repeat constructor|]. constructor; [right; left; repeat split; discriminate|]. constructor; [now left|constructor].
Qed.

Example C69_example : canonical
  (mc_request the_hash rpA [65] [1] [98] [66] es256 (Some [be 16 4; [1]]) (Some (be 16 7)))
  (cenc (mc_request the_hash rpA [65] [1] [98] [66] es256 (Some [be 16 4; [1]]) (Some (be 16 7)))) /\
  canonical (ga_request rpA the_hash (Some [[1; 2]; be 16 3]) (Some false) None)
   (cenc (ga_request rpA the_hash (Some [[1; 2]; be 16 3]) (Some false) None)).
Proof. split; apply canon; vm_compute; reflexivity. Qed.

(* ---------------------------------------------------------------- C70 *)
(* What may succeed does: with approval, and with a PIN parameter where one is needed. *)
Theorem C70_registration_succeeds : forall E w data a rp u,
  env_ok E -> client_ok E (w_client w) -> wfb data ->
  unmarshal dec_mc data = Some a -> offers_es256 a -> mc_rp a = Some rp -> mc_user a = Some u ->
  (cl_pin (w_client w) = true ->
     mc_verified (e_C E) (w_client w) a \/ (mc_auth a = None /\ cl_hash (w_client w) = None)) ->
  e_approve E (w_tick w) ActMakeCredential (rp_name rp) [] = true ->
  can_certify E (w_client w) ->
  exists w' b, ctap_handle E (1 :: data) w = (w', Ok (0 :: b)).
Proof. exact registration_succeeds. Qed.
Print Assumptions C70_registration_succeeds.

Theorem C70_assertion_succeeds : forall E w data a s0, env_ok E -> client_ok E (w_client w) -> wfb data ->
  unmarshal dec_ga data = Some a ->
  (cl_pin (w_client w) = true -> ga_verified (e_C E) (w_client w) a \/ ga_auth a = None) ->
  In s0 (cl_vault (w_client w)) -> allowed (ga_rp a) (ga_allow a) s0 ->
  (op_up (ga_options a) <> Some false -> forall rp u, e_approve E (w_tick w + 4) ActGetAssertion rp u = true) ->
  exists w' b, ctap_handle E (2 :: data) w = (w', Ok (0 :: b)).
Proof. exact assertion_succeeds. Qed.
Print Assumptions C70_assertion_succeeds.

Example C70_example : exists s, In s (cl_vault (w_client two)) /\
  allowed rpB (Some [{| de_type := text_public_key; de_id := Some (be 16 13); de_transports := None |}]) s.
Proof.
  pose (f := fun s => bytes_eqb (be 16 13) (cs_id s) && bytes_eqb (rp_id (cs_rp s)) rpB).
  assert (F : existsb f (cl_vault (w_client two)) = true) by (vm_compute; reflexivity).
  apply existsb_exists in F. destruct F as (s & F1 & F2). apply andb_true_iff in F2. destruct F2 as [A B].
  apply bytes_eqb_eq in A. apply bytes_eqb_eq in B.
  exists s. split; [exact F1|]. split; [exact B|]. eexists. split; [left; reflexivity|]. exact A.
Qed.
