From Coq Require Import Permutation.
From Verif Require Import Base M_Str M_Util M_Utf8 M_Cbor M_Json M_Crypto M_Cose M_State M_Client M_Ctap.
From Verif Require Import S_Crypto S_Cbor S_Cose S_State S_Client S_Ctap.
From Verif Require Import P_Crypto P_Cbor P_Cbor2 P_Cbor3 P_Cose P_Cose2 P_Json P_State P_Client P_Ctap P_Ctap2.

(* ------------------------------------------------------------------ *)
(* Effects of any command                                               *)

Definition effect (E : Env) (w w' : world) : Prop :=
  client_ok E (w_client w') /\ w_tick w <= w_tick w' /\
  exists es, events w w' es /\
    ((saves es = [] /\ exists n, w_client w' = set_retries (w_client w) n) \/
     (exists d, saves es = [d] /\ stored E d (w_client w'))).

Lemma set_retries_same c : set_retries c (cl_retries c) = c.
Proof. destruct c; reflexivity. Qed.

Lemma effect_refl E w : client_ok E (w_client w) -> effect E w w.
Proof.
  intro K. split; [assumption|]. split; [lia|]. exists []. split; [unfold events; now rewrite app_nil_r|].
  left. split; [reflexivity|]. exists (cl_retries (w_client w)). now rewrite set_retries_same.
Qed.

Lemma effect_asked E w t es : client_ok E (w_client w) -> w_tick w <= t -> saves es = [] ->
  effect E w (mkw (w_client w) t (w_trace w ++ es)).
Proof.
  intros K T Z. split; [assumption|]. split; [exact T|]. exists es. split; [reflexivity|].
  left. split; [assumption|]. exists (cl_retries (w_client w)). cbn. now rewrite set_retries_same.
Qed.

Lemma effect_saved E w c t es d : client_ok E c -> w_tick w <= t -> saves es = [d] -> stored E d c ->
  effect E w (mkw c t (w_trace w ++ es)).
Proof. intros K T Z S. split; [assumption|]. split; [exact T|]. exists es. split; [reflexivity|]. right. eauto. Qed.

Lemma effect_retries E w n : client_ok E (w_client w) -> (0 <= n <= 8)%Z ->
  effect E w (mkw (set_retries (w_client w) n) (w_tick w) (w_trace w)).
Proof.
  intros K N. split; [now apply client_ok_retries|]. split; [cbn; lia|]. exists [].
  split; [unfold events; now rewrite app_nil_r|]. left. split; [reflexivity|]. now exists n.
Qed.

Lemma ctap_effect E msg w w' r : env_ok E -> client_ok E (w_client w) -> wfb msg ->
  ctap_handle E msg w = (w', r) -> effect E w w'.
Proof.
  intros L K W H. apply ctap_run in H; auto. pose proof (co_retries E _ K) as RR.
  destruct H as [|data w' r H|data w' r H| |data w' r H|]; auto using effect_refl; destruct H; auto using effect_refl;
    try (apply effect_asked; [assumption|cbn; lia|reflexivity]);
    try (apply effect_saved with d; [assumption|cbn; lia|reflexivity|assumption]);
    try (apply effect_retries; auto; lia).
  apply effect_saved with d; [assumption|lia|unfold up; destruct (wants_up a); reflexivity|assumption].
Qed.

(* ------------------------------------------------------------------ *)
(* C38, one command                                                     *)

Lemma hash_change E msg w w' r : env_ok E -> client_ok E (w_client w) -> wfb msg ->
  ctap_handle E msg w = (w', r) -> cl_hash (w_client w') <> cl_hash (w_client w) ->
  cl_pin (w_client w) = true /\
  exists data a k s pin, msg = 6 :: data /\ unmarshal dec_cp data = Some a /\ pn_protocol a = 1 /\
    pn_key a = Some k /\ secret_of E (w_client w) k s /\
    cl_hash (w_client w') = Some (firstn 16 (sha256 (e_C E) pin)) /\ 4 <= len pin /\ r = Ok [0] /\
    (exists dec, decrypt_cbc (e_C E) s (or_nil (pn_new a)) = Ok dec /\ padded_pin dec pin) /\
    ((pn_sub a = 3 /\ cl_hash (w_client w) = None /\
      exists enc, pn_new a = Some enc /\ pn_auth a = Some (firstn 16 (hmac256 (e_C E) s enc))) \/
     (pn_sub a = 4 /\ decrypt_cbc (e_C E) s (or_nil (pn_hash a)) = Ok (or_nil (cl_hash (w_client w))) /\
      pn_auth a = Some (firstn 16 (hmac256 (e_C E) s (or_nil (pn_new a) ++ or_nil (pn_hash a)))))).
Proof.
  intros L K W H N. apply ctap_run in H; auto.
  destruct H as [|data w' r H|data w' r H| |data w' r H|]; try congruence; destruct H; try congruence;
    try (exfalso; apply N; reflexivity).
  - split; [assumption|]. exists data, a, k, s, pin. repeat (split; [solve [auto]|]).
    split; [exists dec; match goal with X : pn_new a = Some _ |- _ => rewrite X end; auto|]. left. repeat (split; [assumption|]). exists enc. subst. auto.
  - split; [assumption|]. exists data, a, k, s, pin. repeat (split; [solve [auto]|]).
    split; [eauto|]. right. subst. auto.
Qed.

(* ------------------------------------------------------------------ *)
(* C40                                                                  *)

Lemma token_given E data w w' b a : env_ok E -> client_ok E (w_client w) -> wfb data ->
  ctap_handle E (6 :: data) w = (w', Ok (0 :: b)) -> unmarshal dec_cp data = Some a -> pn_sub a = 5 ->
  cl_pin (w_client w) = true /\
  exists k enc s t, pn_key a = Some k /\ pn_hash a = Some enc /\ secret_of E (w_client w) k s /\
    decrypt_cbc (e_C E) s enc = Ok (or_nil (cl_hash (w_client w))) /\
    response (token_doc t) (0 :: b) /\ decrypt_cbc (e_C E) s t = Ok (cl_token (w_client w)) /\
    w_client w' = set_retries (w_client w) 8.
Proof.
  intros L K W H U S. apply pin_run in H; auto. remember (Ok (0 :: b)) as r eqn:R.
  destruct H; try discriminate R; try (assert (a0 = a) by congruence; subst a0); try congruence.
  - match goal with H : pin_plain _ _ _ _ |- _ => destruct H end; try discriminate R; congruence.
  - assert (B : b = cenc (token_doc t)) by congruence. split; [assumption|]. exists k, enc, s, t. subst.
    repeat (split; [solve [auto]|]). split. { eexists. split; [reflexivity|]. now apply token_good. }
    split; [|reflexivity].
    destruct (decrypt_encrypt_cbc (e_C E) s (cl_token (w_client w)) (eo_laws E L) (secret_key E _ _ _ L H6)) as (c & C1 & _ & _ & C2).
    + destruct (co_token E _ K) as [-> _]. reflexivity.
    + apply (co_token E _ K).
    + rewrite C1 in H9; assert (c = t) by congruence; now subst c.
Qed.

(* ------------------------------------------------------------------ *)
(* C41                                                                  *)

Lemma pin_off_inert E data w : cl_pin (w_client w) = false ->
  ctap_handle E (6 :: data) w = (w, Ok [1]).
Proof.
  intro P. cbn [ctap_handle].
  change (6 =? 1) with false. change (6 =? 4) with false. change (6 =? 2) with false. change (6 =? 6) with true.
  cbv iota. cbv beta iota zeta delta [bind get client_pin]. rewrite P. reflexivity.
Qed.

Lemma pin_off_register E w d1 d2 a1 a2 : cl_pin (w_client w) = false ->
  unmarshal dec_mc d1 = Some a1 -> unmarshal dec_mc d2 = Some a2 ->
  mc_hash a1 = mc_hash a2 -> mc_rp a1 = mc_rp a2 -> mc_user a1 = mc_user a2 -> mc_params a1 = mc_params a2 ->
  ctap_handle E (1 :: d1) w = ctap_handle E (1 :: d2) w.
Proof.
  intros P U1 U2 H1 H2 H3 H4. cbn [ctap_handle]. change (1 =? 1) with true. cbv iota.
  unfold make_credential. rewrite U1, U2, <- H1, <- H2, <- H3, <- H4.
  destruct (existsb _ _); [|reflexivity]. cbv beta iota zeta delta [bind get]. rewrite P. reflexivity.
Qed.

Lemma pin_off_assert E w d1 d2 a1 a2 : cl_pin (w_client w) = false ->
  unmarshal dec_ga d1 = Some a1 -> unmarshal dec_ga d2 = Some a2 ->
  ga_hash a1 = ga_hash a2 -> ga_rp a1 = ga_rp a2 -> ga_allow a1 = ga_allow a2 -> ga_options a1 = ga_options a2 ->
  ctap_handle E (2 :: d1) w = ctap_handle E (2 :: d2) w.
Proof.
  intros P U1 U2 H1 H2 H3 H4. cbn [ctap_handle]. change (2 =? 1) with false. change (2 =? 4) with false.
  change (2 =? 2) with true. cbv iota.
  unfold get_assertion. rewrite U1, U2, <- H1, <- H2, <- H3, <- H4.
  cbv beta iota zeta delta [bind get]. rewrite P. reflexivity.
Qed.

(* ------------------------------------------------------------------ *)
(* C42                                                                  *)

Lemma get_info_accurate E data w : exists b, ctap_handle E (4 :: data) w = (w, Ok (0 :: b)) /\
  canonical (info_doc (if cl_pin (w_client w)
                       then Some (match cl_hash (w_client w) with Some _ => true | None => false end) else None)) b.
Proof.
  eexists. split.
  - cbn [ctap_handle]. change (4 =? 1) with false. change (4 =? 4) with true. cbv iota.
    unfold get_info, bind, get, ret. cbv zeta. unfold marshal_cbor. rewrite info_response_doc. reflexivity.
  - apply info_good.
Qed.

(* ------------------------------------------------------------------ *)
(* C43                                                                  *)

Inductive ctap_document : cbor -> Prop :=
| Doc_attestation auth sig cert : ctap_document (attestation_doc auth sig cert)
| Doc_assertion id auth sig : ctap_document (assertion_doc id auth sig)
| Doc_info pin : ctap_document (info_doc pin)
| Doc_retries n : n <= 8 -> ctap_document (retries_doc n)
| Doc_agreement x y : ctap_document (agreement_doc x y)
| Doc_token t : ctap_document (token_doc t).

Lemma responses_canonical E msg w w' r : env_ok E -> client_ok E (w_client w) -> wfb msg ->
  ctap_handle E msg w = (w', Ok r) ->
  (exists e, r = [e]) \/ exists v, ctap_document v /\ response v r.
Proof.
  intros L K W H.
  pose proof H as H0. apply ctap_run in H; auto. remember (Ok r) as q eqn:R.
  destruct H as [|data w' q H|data w' q H|data|data w' q H|]; try discriminate R.
  - destruct H; try discriminate R; try (left; match type of R with Ok [?e] = _ => exists e end; congruence).
    assert (B : r = 0 :: cenc (attestation_doc auth sig cert)) by congruence. right.
    rewrite R, B in H0. apply registration_verifies in H0; auto; [|now apply wfb_cons in W as [_ W]].
    destruct H0 as (a' & rp' & u' & auth' & sig' & cert' & ad & id & key & xx & yy & ss & _ & _ & _ & X & _).
    exists (attestation_doc auth' sig' cert'). rewrite B. split; [constructor|exact X].
  - destruct H; try discriminate R; try (left; match type of R with Ok [?e] = _ => exists e end; congruence).
    assert (B : r = 0 :: cenc (assertion_doc (cs_id x) auth sig)) by congruence. right.
    rewrite R, B in H0. apply assertion_facts in H0; auto; [|now apply wfb_cons in W as [_ W]].
    destruct H0 as (a' & auth' & sig' & ad & v1' & s1 & v2' & s' & xx & yy & es & _ & X & _).
    exists (assertion_doc (cs_id s1) auth' sig'). rewrite B. split; [constructor|exact X].
  - right. match type of R with Ok (0 :: cenc ?v) = _ => exists v; assert (B : r = 0 :: cenc v) by congruence end.
    rewrite B. split; [constructor|]. eexists. split; [reflexivity|]. apply info_good.
  - destruct H; try discriminate R; try (left; match type of R with Ok [?e] = _ => exists e end; congruence).
    + match goal with H : pin_plain _ _ _ _ |- _ => destruct H end; try discriminate R; try (left; match type of R with Ok [?e] = _ => exists e end; congruence).
      * right. assert (B : r = 0 :: cenc (retries_doc (Z.to_N (cl_retries (w_client w))))) by congruence.
        pose proof (co_retries E _ K). eexists. split; [apply Doc_retries|rewrite B; eexists; split; [reflexivity|apply retries_good]]; lia.
      * right. match type of R with Ok (0 :: cenc ?v) = _ => exists v; assert (B : r = 0 :: cenc v) by congruence end.
        rewrite B. split; [constructor|]. eexists. split; [reflexivity|].
        pose proof (co_ka E _ K) as V.
        apply agreement_good; auto using big_bytes_wf; apply big_256; [apply (l_pub_x _ (eo_laws E L))|apply (l_pub_y _ (eo_laws E L))]; auto.
    + match goal with H : _ \/ _ |- _ => destruct H as [[-> _]|[-> _]] end; [left; exists 55; congruence|discriminate].
    + right. match type of R with Ok (0 :: cenc ?v) = _ => exists v; assert (B : r = 0 :: cenc v) by congruence end.
      rewrite B. split; [constructor|]. eexists. split; [reflexivity|]. now apply token_good.
Qed.

(* ------------------------------------------------------------------ *)
(* C44, what holds                                                      *)

Definition on_curve (E : Env) (k : ec2_key) : Prop :=
  forall d, p256_mul (e_C E) d (be_dec (or_nil (e2_x k)), be_dec (or_nil (e2_y k))) <> None.

Lemma no_panic E msg w w' r : env_ok E -> client_ok E (w_client w) -> wfb msg ->
  ctap_handle E msg w = (w', r) ->
  (exists data a, msg = 1 :: data /\ unmarshal dec_mc data = Some a /\ mc_rp a <> None /\ mc_user a <> None /\
     can_certify E (w_client w)) \/
  (exists data, msg = 2 :: data) \/ (exists data, msg = 4 :: data) \/
  (exists data, msg = 6 :: data /\
     (cl_pin (w_client w) = false \/ unmarshal dec_cp data = None \/
      exists a, unmarshal dec_cp data = Some a /\
        (cl_retries (w_client w) <> 0%Z \/ pn_sub a = 2 \/ pn_sub a = 3) /\
        (pn_sub a = 5 -> pn_key a <> None) /\
        (forall k, pn_key a = Some k -> on_curve E k) /\
        len (or_nil (pn_new a)) mod 16 = 0 /\ len (or_nil (pn_hash a)) mod 16 = 0)) ->
  r <> Panic.
Proof.
  intros L K W H G. apply ctap_run in H; auto. pose proof (co_retries E _ K) as RR.
  destruct H as [|data w' r H|data w' r H|data|data w' r H|cmd data]; try discriminate.
  - destruct G as [(? & ? & G & _)|[(? & G)|[(? & G)|(? & G & _)]]]; discriminate G.
  - destruct G as [(? & a0 & G & U & R & Us & CT)|[(? & G)|[(? & G)|(? & G & _)]]]; try discriminate G.
    injection G as <-. intro Z. destruct H; try congruence;
    match goal with A : unmarshal dec_mc _ = Some ?a1, B : unmarshal dec_mc _ = Some ?a2 |- _ =>
      assert (a2 = a1) by congruence; subst a2 end; try congruence; eapply CT; [apply (eo_scalar E L)|eassumption].
  - intro Z. destruct H; discriminate Z.
  - destruct G as [(? & ? & G & _)|[(? & G)|[(? & G)|(? & G & G1)]]]; try discriminate G.
    injection G as <-. intro Z.
    assert (NP : forall a, unmarshal dec_cp data = Some a -> cl_pin (w_client w) = true ->
      (cl_retries (w_client w) <> 0%Z \/ pn_sub a = 2 \/ pn_sub a = 3) /\
        (pn_sub a = 5 -> pn_key a <> None) /\
        (forall k, pn_key a = Some k -> on_curve E k) /\
        len (or_nil (pn_new a)) mod 16 = 0 /\ len (or_nil (pn_hash a)) mod 16 = 0).
    { intros a U P. destruct G1 as [G1|[G1|(a0 & G1 & G2)]]; try congruence. now replace a with a0 by congruence. }
    destruct H; try discriminate Z;
      match goal with U : unmarshal dec_cp _ = Some ?a |- _ =>
        destruct (NP a U ltac:(assumption)) as (N1 & N2 & N3 & N4 & N5) end.
    + match goal with H : pin_plain _ _ _ _ |- _ => destruct H end; try discriminate Z.
      * destruct N1 as [N1|[N1|N1]]; [lia| |]; rewrite N1 in *; intuition discriminate.
      * intuition congruence.
      * match goal with X : pn_key a = Some _ |- _ => apply N3 in X; eapply X end. eassumption.
      * match goal with X : pn_new a = Some _ |- _ => rewrite X in N4 end. cbn [or_nil] in N4. congruence.
    + congruence.
    + match goal with H : _ \/ _ |- _ => destruct H as [[-> _]|[_ B]] end; congruence.
  - destruct G as [(? & ? & G & _)|[(? & G)|[(? & G)|(? & G & _)]]]; congruence.
Qed.

(* ------------------------------------------------------------------ *)
(* C56                                                                  *)

Lemma crash_points es k : saves es = [] -> saves (firstn k es) = [].
Proof.
  intro H. assert (X : saves es = saves (firstn k es) ++ saves (skipn k es)).
  { unfold saves. rewrite <- flat_map_app, firstn_skipn. reflexivity. }
  rewrite H in X. symmetry in X. now apply app_eq_nil in X.
Qed.

Lemma crash_points_one es k d : saves es = [d] -> saves (firstn k es) = [] \/ saves (firstn k es) = [d].
Proof.
  intro H. assert (X : saves es = saves (firstn k es) ++ saves (skipn k es)).
  { unfold saves. rewrite <- flat_map_app, firstn_skipn. reflexivity. }
  rewrite H in X. destruct (saves (firstn k es)) as [|a l]; auto. injection X as <- X. symmetry in X.
  apply app_eq_nil in X as [-> _]. auto.
Qed.
