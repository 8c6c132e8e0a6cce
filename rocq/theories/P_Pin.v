(* A platform and the device run PIN protocol one. *)
From Verif Require Import Base M_Str M_Util M_Utf8 M_Cbor M_Json M_Crypto M_Cose M_State M_Client M_Ctap.
From Verif Require Import S_Crypto S_Cbor S_Cose S_State S_Client S_Ctap S_CtapReq S_Pin.
From Verif Require Import P_Crypto P_Cbor P_Cbor2 P_Cose P_Cose2 P_Json P_State P_Client P_Ctap P_Ctap2 P_Ctap3 P_CtapReq.

Lemma xor_bytes_xor a b : xor_bytes a b = xor a b.
Proof. unfold xor_bytes. revert b. induction a as [|x a IH]; intros [|y b]; cbn; auto. now rewrite IH. Qed.

Lemma cbc_enc_spec C k : forall iv plain cipher, cbc C k iv plain cipher ->
  len plain mod 16 = 0 /\ cipher = cbc_enc C (length plain / 16) k iv plain.
Proof.
  induction 1 as [iv|iv b m c cs Hb Hc H [IH1 IH2]]; [split; reflexivity|].
  assert (Lb : length b = 16%nat) by (unfold len in Hb; lia).
  split; [rewrite len_app, Hb; lia|].
  rewrite app_length, Lb. replace ((16 + length m) / 16)%nat with (S (length m / 16)) by lia.
  cbn [cbc_enc]. rewrite firstn_app, skipn_app, Lb, Nat.sub_diag, firstn_O, skipn_O, app_nil_r.
  rewrite firstn_all2 by lia. rewrite skipn_all2 by lia. cbn [app].
  rewrite <- xor_bytes_xor, <- Hc. now rewrite <- IH2.
Qed.

Lemma enciphers_iff C k plain cipher : aes_key k -> enciphers C k plain cipher -> encrypt_cbc C k plain = Ok cipher.
Proof.
  intros A H. apply cbc_enc_spec in H as [H1 ->]. unfold encrypt_cbc.
  rewrite (proj2 (aes_key_ok_iff k) A), (proj2 (N.eqb_eq _ _) H1). reflexivity.
Qed.

Lemma cbc_enc_cbc C k n : laws C -> forall iv plain, (length plain = 16 * n)%nat -> cbc C k iv plain (cbc_enc C n k iv plain).
Proof.
  intro L. induction n as [|n IH]; intros iv plain H; cbn [cbc_enc].
  - destruct plain; [constructor|cbn in H; lia].
  - rewrite <- (firstn_skipn 16 plain) at 1. constructor.
    + unfold len. rewrite firstn_length. lia.
    + now rewrite xor_bytes_xor.
    + apply IH. rewrite skipn_length. lia.
Qed.

Lemma encrypt_enciphers C k plain cipher : laws C -> encrypt_cbc C k plain = Ok cipher -> enciphers C k plain cipher.
Proof.
  intros L H. unfold encrypt_cbc in H. destruct (aes_key_ok k && (len plain mod 16 =? 0))%bool eqn:X; [|discriminate].
  injection H as <-. apply andb_prop in X as [_ X]. apply N.eqb_eq in X.
  apply cbc_enc_cbc; auto. now apply mod16.
Qed.

Lemma decipher C k plain cipher : laws C -> aes_key k -> wfb plain -> enciphers C k plain cipher ->
  decrypt_cbc C k cipher = Ok plain /\ wfb cipher /\ len cipher = len plain.
Proof.
  intros L A W H. pose proof (cbc_enc_spec _ _ _ _ _ H) as [M _]. apply enciphers_iff in H; auto.
  destruct (decrypt_encrypt_cbc C k plain L A M W) as (c & E & Hl & Hw & Hd). rewrite H in E. injection E as <-. auto.
Qed.

Lemma padded_unique d p1 p2 : padded_pin d p1 -> padded_pin d p2 -> In 0 d -> p1 = p2.
Proof.
  intros [(r1 & -> & N1)|[-> N1]] [(r2 & E2 & N2)|[-> N2]] I; try contradiction.
  clear I. revert p2 E2 N2. induction p1 as [|x p1 IH]; intros [|y p2] E2 N2; cbn [app] in E2; auto.
  - injection E2 as <- _. destruct N2. now left.
  - injection E2 as -> _. destruct N1. now left.
  - injection E2 as -> E2. f_equal. apply IH; auto.
    + intro I. apply N1. now right.
    + intro I. apply N2. now right.
Qed.

Lemma padding pin : fair_pin pin ->
  len (pin ++ repeat 0 (64 - length pin)) = 64 /\ wfb (pin ++ repeat 0 (64 - length pin)) /\
  padded_pin (pin ++ repeat 0 (64 - length pin)) pin /\ In 0 (pin ++ repeat 0 (64 - length pin)).
Proof.
  intros (W & [H1 H2] & N). unfold len in H1, H2.
  split; [unfold len; rewrite app_length, repeat_length; lia|].
  split; [apply wfb_app; split; auto; apply wfb_zeros|].
  assert (E : exists n, (64 - length pin)%nat = S n) by (exists (63 - length pin)%nat; lia).
  destruct E as [n ->]. cbn [repeat]. split; [left; eauto|]. apply in_or_app. right. now left.
Qed.

Lemma be32_dec x : x < 2 ^ 256 -> big_set (be 32 x) = x.
Proof. intro H. apply be_dec_be_small. exact H. Qed.

Lemma device_secret E c p z s : env_ok E -> valid_scalar p -> valid_scalar (cl_ka c) ->
  platform_secret (e_C E) p (p256_pub (e_C E) (cl_ka c)) z s -> 2 ^ 248 <= z ->
  forall k, or_nil (e2_x k) = fst (platform_key (e_C E) p) -> or_nil (e2_y k) = snd (platform_key (e_C E) p) ->
  forall s', secret_of E c k s' -> s' = s.
Proof.
  intros L P K [Hz ->] B k X Y s' (x & Hx & ->). pose proof (eo_laws E L) as LC.
  unfold platform_key in X, Y. cbn [fst snd] in X, Y. rewrite X, Y in Hx.
  rewrite !be32_dec in Hx by (apply (l_pub_x _ LC) || apply (l_pub_y _ LC); auto).
  destruct (l_ecdh _ LC p (cl_ka c) P K) as (q & Hq & E1 & E2).
  rewrite Hz in E1. injection E1 as ->.
  rewrite <- surjective_pairing, E2 in Hx. injection Hx as <-.
  f_equal. apply coordinate_len; auto.
Qed.

Lemma key_on_curve E c p k : env_ok E -> valid_scalar p -> valid_scalar (cl_ka c) ->
  or_nil (e2_x k) = fst (platform_key (e_C E) p) -> or_nil (e2_y k) = snd (platform_key (e_C E) p) ->
  p256_mul (e_C E) (cl_ka c) (big_set (or_nil (e2_x k)), big_set (or_nil (e2_y k))) <> None.
Proof.
  intros L P K X Y. pose proof (eo_laws E L) as LC. rewrite X, Y. unfold platform_key. cbn [fst snd].
  rewrite !be32_dec by (apply (l_pub_x _ LC) || apply (l_pub_y _ LC); auto).
  rewrite <- surjective_pairing. destruct (l_ecdh _ LC p (cl_ka c) P K) as (q & Hq & E1 & ->). discriminate.
Qed.


Lemma canonical_wf v b : canonical v b -> wfb b.
Proof. intro H. rewrite (canonical_cenc _ _ H). apply cenc_wf. eapply canonical_cgood; eauto. Qed.

(* What the handler reads from a platform's request. *)
Definition sent (sub : N) (k : option (bytes * bytes)) au nw h : cp_args :=
  {| pn_protocol := 1; pn_sub := sub;
     pn_key := option_map (fun k => {| e2_kty := 2; e2_alg := -25; e2_crv := 1; e2_x := Some (fst k);
                                       e2_y := Some (snd k); e2_d := None |}) k;
     pn_auth := au; pn_new := nw; pn_hash := h |}.

Lemma cp_read sub k au nw h b : canonical (cp_request sub k au nw h) b -> sub < 4294967296 ->
  unmarshal dec_cp b = Some (sent sub k au nw h) /\ wfb b.
Proof.
  intros H S. split; [|eapply canonical_wf; eauto].
  rewrite <- (app_nil_r b). eapply cp_decoded; eauto.
Qed.

Ltac same_args U := repeat match goal with
  | H : unmarshal dec_cp _ = Some ?a |- _ => lazymatch H with U => fail | _ =>
      let X := fresh in assert (X : a = _) by (rewrite U in H; injection H as <-; reflexivity); clear H; subst a end
  end.

Section Steps.
  Variable E : Env.
  Hypothesis L : env_ok E.
  Local Notation C := (e_C E).
  Variables (p z : N) (s : bytes).
  Hypothesis Vp : valid_scalar p.

  Definition shares (c : client) : Prop :=
    platform_secret C p (p256_pub C (cl_ka c)) z s /\ 2 ^ 248 <= z.

  Lemma secret_aes c : shares c -> aes_key s.
  Proof. intros [[_ ->] _]. right; right. apply (l_sha_len _ (eo_laws E L)). Qed.

  Let the_key : ec2_key := {| e2_kty := 2; e2_alg := -25; e2_crv := 1; e2_x := Some (fst (platform_key C p));
                              e2_y := Some (snd (platform_key C p)); e2_d := None |}.

  Lemma shared_once c s' : client_ok E c -> shares c -> secret_of E c the_key s' -> s' = s.
  Proof. intros K [H B]. apply (device_secret E c p z s L Vp (co_ka E c K) H B the_key eq_refl eq_refl). Qed.

  Lemma on_the_curve c : client_ok E c ->
    p256_mul (e_C E) (cl_ka c) (big_set (or_nil (e2_x the_key)), big_set (or_nil (e2_y the_key))) <> None.
  Proof. intro K. apply (key_on_curve E c p the_key L Vp (co_ka E c K) eq_refl eq_refl). Qed.

  Lemma agreement_step w b : client_ok E (w_client w) -> cl_pin (w_client w) = true ->
    canonical ask_agreement b ->
    exists r x y, ctap_handle E (6 :: b) w = (w, Ok r) /\ response (agreement_doc x y) r /\
      (be_dec x, be_dec y) = p256_pub C (cl_ka (w_client w)).
  Proof.
    intros K P Hb. destruct (cp_read _ _ _ _ _ _ Hb) as [U W]; [reflexivity|]. clear Hb.
    destruct (ctap_handle E (6 :: b) w) as [w' r] eqn:H. pose proof H as H0. apply pin_run in H; auto.
    inversion H as [| | |a r0 P1 U1 Q1 Q| | | | | |]; subst; try congruence; same_args U; cbn in *;
      try discriminate; try lia.
    inversion Q; subst; cbn in *; try discriminate; try lia.
    set (q := p256_pub (e_C E) (cl_ka (w_client w'))) in *.
    assert (Qx : fst q < 2 ^ 256 /\ snd q < 2 ^ 256).
    { split; [apply (l_pub_x _ (eo_laws E L))|apply (l_pub_y _ (eo_laws E L))]; apply (co_ka E _ K). }
    exists (0 :: cenc (agreement_doc (big_bytes (fst q)) (big_bytes (snd q)))), (big_bytes (fst q)), (big_bytes (snd q)).
    split; [reflexivity|]. split.
    - eexists. split; [reflexivity|]. apply agreement_good; unfold big_bytes; auto using be_wf; now apply big_256.
    - change be_dec with big_set. rewrite !big_set_bytes. symmetry. apply surjective_pairing.
  Qed.

  (* Hypotheses that contradict the request sent. *)
  Ltac nope := cbn [sent pn_sub pn_key pn_auth pn_new pn_hash pn_protocol option_map e2_x e2_y or_nil] in *; try congruence; try lia;
    try match goal with H : _ \/ _ |- _ => destruct H; [|destruct H]; congruence end.
  Ltac samepin P3 P4 := match goal with H : padded_pin _ ?x |- _ => lazymatch H with P3 => fail | _ =>
    pose proof (padded_unique _ _ _ P3 H P4); subst x end end.
  Ltac keys := repeat match goal with
    | H : Some _ = Some ?x |- _ => is_var x; injection H as <-
    | H : Some ?x = Some _ |- _ => is_var x; injection H as ->
    end.

  Lemma set_step w pin v b : client_ok E (w_client w) -> cl_pin (w_client w) = true -> cl_hash (w_client w) = None ->
    shares (w_client w) -> fair_pin pin -> set_pin_request C p s pin v -> canonical v b ->
    exists w', ctap_handle E (6 :: b) w = (w', Ok [0]) /\
      w_client w' = pin_client (w_client w) 8 (Some (half (sha256 C pin))) /\ client_ok E (w_client w').
  Proof.
    intros K P HN Sh Fp (enc & Hen & ->) Hb. destruct (cp_read _ _ _ _ _ _ Hb) as [U W]; [reflexivity|]. clear Hb.
    destruct (padding pin Fp) as (P1 & P2 & P3 & P4).
    destruct (decipher C s _ _ (eo_laws E L) (secret_aes _ Sh) P2 Hen) as (D & _ & Dl).
    destruct Fp as (_ & [F1 F2] & _).
    set (pl := pin ++ repeat 0 (64 - length pin)) in *. clearbody pl.
    destruct (ctap_handle E (6 :: b) w) as [w' r] eqn:H. apply pin_run in H; auto.
    inversion H as [| | |a r0 Z1 U1 Q1 Q| | | | | |]; subst; try congruence; same_args U; nope.
    - inversion Q; subst; nope.
      + match goal with H : 3 = 3 -> _ |- _ => destruct (H eq_refl) as (_ & [X|[X|X]]); discriminate X end.
      + keys. match goal with H : secret_of _ _ _ _ |- _ => apply shared_once in H; auto; subst end.
        match goal with H : half _ <> _ |- _ => now destruct H end.
      + keys. match goal with H : secret_of _ _ _ _ |- _ => apply shared_once in H; auto; subst end.
        match goal with H : decrypt_cbc _ _ _ = Ok ?d |- _ => rewrite D in H; injection H as <- end.
        samepin P3 P4. lia.
      + keys. match goal with H : p256_mul _ _ _ = None |- _ => now apply (on_the_curve _ K) in H end.
      + keys. match goal with H : len _ mod 16 <> 0 |- _ => rewrite Dl, P1 in H; now destruct H end.
    - keys. match goal with H : secret_of _ _ _ _ |- _ => apply shared_once in H; auto; subst end.
      match goal with H : decrypt_cbc _ _ _ = Ok ?d |- _ => rewrite D in H; injection H as <- end.
      samepin P3 P4.
      eexists. split; [reflexivity|]. split; [reflexivity|]. assumption.
  Qed.

  Lemma token_step w pin v b : client_ok E (w_client w) -> cl_pin (w_client w) = true ->
    cl_hash (w_client w) = Some (half (sha256 C pin)) -> (0 < cl_retries (w_client w))%Z ->
    shares (w_client w) -> token_request C p s pin v -> canonical v b ->
    exists w' r enc, ctap_handle E (6 :: b) w = (w', Ok r) /\ response (token_doc enc) r /\
      enciphers C s (cl_token (w_client w)) enc /\
      w_client w' = set_retries (w_client w) 8 /\ client_ok E (w_client w') /\ w_tick w' = w_tick w.
  Proof.
    intros K P HN R Sh (enc & Hen & ->) Hb. destruct (cp_read _ _ _ _ _ _ Hb) as [U W]; [reflexivity|]. clear Hb.
    assert (Wh : wfb (half (sha256 C pin))) by (apply wfb_firstn, (l_sha_wf _ (eo_laws E L))).
    assert (Lh : len (half (sha256 C pin)) = 16).
    { pose proof (l_sha_len _ (eo_laws E L) pin) as X. unfold half, len in *. rewrite firstn_length.  lia. }
    destruct (decipher C s _ _ (eo_laws E L) (secret_aes _ Sh) Wh Hen) as (D & _ & Dl).
    destruct (ctap_handle E (6 :: b) w) as [w' r] eqn:H. pose proof H as H0. apply pin_run in H; auto.
    inversion H as [| | |a r0 Z1 U1 Q1 Q| | | | | |]; subst; try congruence; same_args U; nope.
    - inversion Q; subst; nope.
      + match goal with H : 5 = 5 -> _ |- _ => destruct (H eq_refl) as [X|(k & X & Y)]; [discriminate X|];
          injection X as <-; discriminate Y end.
      + keys. match goal with H : p256_mul _ _ _ = None |- _ => now apply (on_the_curve _ K) in H end.
    - keys. match goal with H : secret_of _ _ _ _ |- _ => apply shared_once in H; auto; subst end.
      match goal with H : decrypt_cbc _ _ _ = Ok ?d |- _ => rewrite D in H; injection H as <- end.
      match goal with H : half _ <> _ |- _ => rewrite HN in H; now destruct H end.
    - keys. match goal with H : secret_of _ _ _ _ |- _ => apply shared_once in H; auto; subst end.
      do 3 eexists. split; [reflexivity|]. split; [eexists; split; [reflexivity|now apply token_good]|].
      split; [now apply encrypt_enciphers; [apply (eo_laws E L)|]|]. split; [reflexivity|]. split; [|reflexivity].
      apply ctap_effect in H0; auto; [apply H0|]. apply wfb_cons. split; [unfold byte_ok; lia|auto].
  Qed.

  Lemma change_step w old pin v b : client_ok E (w_client w) -> cl_pin (w_client w) = true ->
    cl_hash (w_client w) = Some (half (sha256 C old)) -> (0 < cl_retries (w_client w))%Z ->
    shares (w_client w) -> fair_pin pin -> change_pin_request C p s old pin v -> canonical v b ->
    exists w', ctap_handle E (6 :: b) w = (w', Ok [0]) /\
      w_client w' = pin_client (w_client w) 8 (Some (half (sha256 C pin))) /\ client_ok E (w_client w').
  Proof.
    intros K P HN R Sh Fp (enc & henc & Hen & Hhe & ->) Hb. destruct (cp_read _ _ _ _ _ _ Hb) as [U W]; [reflexivity|]. clear Hb.
    assert (Wh : wfb (half (sha256 C old))) by (apply wfb_firstn, (l_sha_wf _ (eo_laws E L))).
    assert (Lh : len (half (sha256 C old)) = 16).
    { pose proof (l_sha_len _ (eo_laws E L) old) as X. unfold half, len in *. rewrite firstn_length.  lia. }
    destruct (decipher C s _ _ (eo_laws E L) (secret_aes _ Sh) Wh Hhe) as (D & _ & Dl).
    destruct (padding pin Fp) as (P1 & P2 & P3 & P4).
    destruct (decipher C s _ _ (eo_laws E L) (secret_aes _ Sh) P2 Hen) as (D' & _ & Dl').
    destruct Fp as (_ & [F1 F2] & _).
    set (pl := pin ++ repeat 0 (64 - length pin)) in *. clearbody pl.
    destruct (ctap_handle E (6 :: b) w) as [w' r] eqn:H. pose proof H as H0. apply pin_run in H; auto.
    inversion H as [| | |a r0 Z1 U1 Q1 Q| | | | | |]; subst; try congruence; same_args U; nope.
    - inversion Q; subst; nope.
      + match goal with H : 4 = 4 -> _ |- _ => destruct (H eq_refl) as [X|X]; discriminate X end.
      + keys. match goal with H : secret_of _ _ _ _ |- _ => apply shared_once in H; auto; subst end.
        match goal with H : half _ <> _ |- _ => now destruct H end.
      + keys. match goal with H : p256_mul _ _ _ = None |- _ => now apply (on_the_curve _ K) in H end.
    - keys. match goal with H : secret_of _ _ _ _ |- _ => apply shared_once in H; auto; subst end.
      match goal with H : decrypt_cbc _ _ henc = Ok ?d |- _ => rewrite D in H; injection H as <- end.
      match goal with H : half _ <> _ |- _ => rewrite HN in H; now destruct H end.
    - keys. match goal with H : secret_of _ _ _ _ |- _ => apply shared_once in H; auto; subst end.
      rewrite D', Dl', P1 in *.
      match goal with H : _ \/ _ |- _ => destruct H as [(-> & d2 & q & X1 & X2 & X3)|(_ & X)] end.
      + injection X1 as <-. samepin P3 P4. lia.
      + now destruct X.
    - keys. match goal with H : secret_of _ _ _ _ |- _ => apply shared_once in H; auto; subst end.
      match goal with H : decrypt_cbc _ _ enc = Ok ?d |- _ => rewrite D' in H; injection H as <- end.
      samepin P3 P4.
      eexists. split; [reflexivity|]. split; [reflexivity|]. assumption.
  Qed.
End Steps.

(* Registration succeeds when everyone cooperates. *)
Lemma registration_succeeds E w data a rp u : env_ok E -> client_ok E (w_client w) -> wfb data ->
  unmarshal dec_mc data = Some a -> offers_es256 a -> mc_rp a = Some rp -> mc_user a = Some u ->
  (cl_pin (w_client w) = true -> mc_verified (e_C E) (w_client w) a \/ (mc_auth a = None /\ cl_hash (w_client w) = None)) ->
  e_approve E (w_tick w) ActMakeCredential (rp_name rp) [] = true ->
  can_certify E (w_client w) ->
  exists w' b, ctap_handle E (1 :: data) w = (w', Ok (0 :: b)).
Proof.
  intros L K W U O R Us V A Ct. destruct (ctap_handle E (1 :: data) w) as [w' r] eqn:H.
  apply mc_run in H; auto. destruct H as [|a0 U0 O0|a0 e U0 O0 X0| | | | |]; try congruence.
  - assert (a0 = a) as -> by congruence. exfalso. unfold mc_check in X0.
    destruct (cl_pin (w_client w)) eqn:P; [|discriminate].
    destruct (V eq_refl) as [(_ & q & V1 & V2 & V3)|[V1 V2]].
    + rewrite V1, V2, V3, bytes_eqb_refl in X0. discriminate X0.
    + rewrite V1, V2 in X0. discriminate X0.
  - exfalso. eapply Ct; [apply (eo_scalar E L)|eassumption].
  - eauto.
Qed.

Lemma mc_read h ri rn ui un ud ps ex au b :
  canonical (mc_request h ri rn ui un ud ps ex au) b -> fits ps -> fits_opt ex ->
  Forall (fun p => (-2147483648 <= snd p < 2147483648)%Z) ps ->
  unmarshal dec_mc b = Some (dec_mc_fields h ri rn ui un ud ps ex au) /\ wfb b.
Proof.
  intros. split; [|eapply canonical_wf; eauto]. rewrite <- (app_nil_r b). eapply mc_decoded; eauto.
Qed.

(* Registration under the PIN token is accepted and marked as user verified. *)
Lemma verified_registration E w h ri rn ui un ud ps ex b : env_ok E -> client_ok E (w_client w) ->
  cl_pin (w_client w) = true ->
  canonical (mc_request h ri rn ui un ud ps ex (Some (half (hmac256 (e_C E) (cl_token (w_client w)) h)))) b ->
  fits ps -> fits_opt ex -> Forall (fun p => (-2147483648 <= snd p < 2147483648)%Z) ps ->
  In (text_public_key, (-7)%Z) ps ->
  e_approve E (w_tick w) ActMakeCredential rn [] = true -> can_certify E (w_client w) ->
  exists w' r auth sig cert ad, ctap_handle E (1 :: b) w = (w', Ok r) /\
    response (attestation_doc auth sig cert) r /\ has_auth_data auth ad /\ UV (ad_flags ad) = true.
Proof.
  intros L K P Hb F1 F2 F3 I A Ct. destruct (mc_read _ _ _ _ _ _ _ _ _ _ Hb F1 F2 F3) as [U W].
  assert (V : mc_verified (e_C E) (w_client w)
     (dec_mc_fields h ri rn ui un ud ps ex (Some (half (hmac256 (e_C E) (cl_token (w_client w)) h))))).
  { split; [assumption|]. eexists. repeat split. }
  destruct (registration_succeeds E w b _ {| rp_id := ri; rp_name := rn |}
    {| us_id := Some ui; us_display := ud; us_name := un |} L K W U) as (w' & q & H); auto; try reflexivity.
  { exists {| cp_type := text_public_key; cp_alg := -7 |}. split; [|split; reflexivity].
    cbn [mc_params dec_mc_fields]. apply in_map_iff. now exists (text_public_key, (-7)%Z). }
  destruct (registration_flags E w b w' q L K W H) as (a & auth & sig & cert & ad & es & U' & R & D & _ & _ & UVx).
  assert (a = dec_mc_fields h ri rn ui un ud ps ex (Some (half (hmac256 (e_C E) (cl_token (w_client w)) h)))) as ->
    by congruence.
  exists w', (0 :: q), auth, sig, cert, ad. split; [exact H|]. split; [exact R|]. split; [exact D|]. now apply UVx.
Qed.

(* C37 *)
Lemma pin_round_trip E w p z s pin b0 v1 b1 : env_ok E -> client_ok E (w_client w) ->
  cl_pin (w_client w) = true -> cl_hash (w_client w) = None -> valid_scalar p -> fair_pin pin ->
  canonical ask_agreement b0 ->
  platform_secret (e_C E) p (p256_pub (e_C E) (cl_ka (w_client w))) z s -> 2 ^ 248 <= z ->
  set_pin_request (e_C E) p s pin v1 -> canonical v1 b1 ->
  (exists r0 x y, ctap_handle E (6 :: b0) w = (w, Ok r0) /\ response (agreement_doc x y) r0 /\
     (be_dec x, be_dec y) = p256_pub (e_C E) (cl_ka (w_client w))) /\
  exists w1, ctap_handle E (6 :: b1) w = (w1, Ok [0]) /\
  forall v2 b2, token_request (e_C E) p s pin v2 -> canonical v2 b2 ->
  exists w2 r2 token enc, ctap_handle E (6 :: b2) w1 = (w2, Ok r2) /\ response (token_doc enc) r2 /\
    enciphers (e_C E) s token enc /\ len token = 16 /\
  forall h ri rn ui un ud ps ex b3,
    canonical (mc_request h ri rn ui un ud ps ex (Some (half (hmac256 (e_C E) token h)))) b3 ->
    fits ps -> fits_opt ex -> Forall (fun p => (-2147483648 <= snd p < 2147483648)%Z) ps ->
    In (text_public_key, (-7)%Z) ps ->
    e_approve E (w_tick w2) ActMakeCredential rn [] = true -> can_certify E (w_client w) ->
  exists w3 r3 auth sig cert ad, ctap_handle E (1 :: b3) w2 = (w3, Ok r3) /\
    response (attestation_doc auth sig cert) r3 /\ has_auth_data auth ad /\ UV (ad_flags ad) = true.
Proof.
  intros L K P HN Vp Fp B0 Sh Z R1 B1. split; [now apply agreement_step|].
  destruct (set_step E L p z s Vp w pin v1 b1 K P HN (conj Sh Z) Fp R1 B1) as (w1 & H1 & C1 & K1).
  exists w1. split; [exact H1|]. intros v2 b2 R2 B2.
  assert (Sh1 : shares E p z s (w_client w1)) by (rewrite C1; split; assumption).
  assert (P1 : cl_pin (w_client w1) = true) by now rewrite C1.
  assert (N1 : cl_hash (w_client w1) = Some (half (sha256 (e_C E) pin))) by now rewrite C1.
  assert (T1 : (0 < cl_retries (w_client w1))%Z) by (rewrite C1; reflexivity).
  destruct (token_step E L p z s Vp w1 pin v2 b2 K1 P1 N1 T1 Sh1 R2 B2) as (w2 & r2 & enc & H2 & T2 & E2 & C2 & K2 & _).
  exists w2, r2, (cl_token (w_client w1)), enc. split; [exact H2|]. split; [exact T2|]. split; [exact E2|].
  split; [apply (co_token E _ K1)|]. intros h ri rn ui un ud ps ex b3 B3 F1 F2 F3 I A Ct.
  assert (T : cl_token (w_client w2) = cl_token (w_client w1)) by now rewrite C2.
  rewrite <- T in B3. assert (Ct' : can_certify E (w_client w2)) by (unfold can_certify; rewrite C2, C1; exact Ct).
  eapply verified_registration; eauto. rewrite C2, C1. exact P.
Qed.

Lemma ga_read ri h al up au b : canonical (ga_request ri h al up au) b -> fits_opt al ->
  unmarshal dec_ga b = Some
    {| ga_rp := ri; ga_hash := Some h;
       ga_allow := option_map (map (fun id => {| de_type := text_public_key; de_id := Some id; de_transports := None |})) al;
       ga_options := {| op_rk := false; op_uv := false; op_up := up |};
       ga_auth := au; ga_protocol := match au with Some _ => 1 | None => 0 end |} /\ wfb b.
Proof.
  intros. split; [|eapply canonical_wf; eauto]. rewrite <- (app_nil_r b). eapply ga_decoded; eauto.
Qed.

(* An assertion succeeds when a credential is allowed and the user agrees. *)
Lemma assertion_succeeds E w data a s0 : env_ok E -> client_ok E (w_client w) -> wfb data ->
  unmarshal dec_ga data = Some a ->
  (cl_pin (w_client w) = true -> ga_verified (e_C E) (w_client w) a \/ ga_auth a = None) ->
  In s0 (cl_vault (w_client w)) -> allowed (ga_rp a) (ga_allow a) s0 ->
  (op_up (ga_options a) <> Some false -> forall rp u, e_approve E (w_tick w + 4) ActGetAssertion rp u = true) ->
  exists w' b, ctap_handle E (2 :: data) w = (w', Ok (0 :: b)).
Proof.
  intros L K W U V I A Y. destruct (ctap_handle E (2 :: data) w) as [w' r] eqn:H.
  apply ga_run in H; auto. destruct H as [|a0 e U0 X0|a0 f U0 X0 M0|a0 f v1 x v2 d c' U0 X0 V0 M0 N0 K0 S0 P0 Y0|]; try congruence.
  - assert (a0 = a) as -> by congruence. exfalso. unfold ga_check in X0.
    destruct (cl_pin (w_client w)) eqn:P; [|discriminate].
    destruct (V eq_refl) as [(_ & q & V1 & V2 & V3)|V1].
    + rewrite V1, V2, V3, bytes_eqb_refl in X0. discriminate X0.
    + rewrite V1 in X0. discriminate X0.
  - assert (a0 = a) as -> by congruence. exfalso.
    assert (G : In s0 (matching (cl_vault (w_client w)) (ga_rp a) (ga_allow a))).
    { rewrite matching_filter. apply filter_In. split; auto. now apply allowed_iff. }
    rewrite M0 in G. destruct G.
  - assert (a0 = a) as -> by congruence. exfalso. rewrite Y in Y0; [discriminate|].
    intro Z. unfold wants_up in P0. rewrite Z in P0. discriminate.
  - eauto.
Qed.
