(* What holds of overlapping requests at all times. *)
From Coq Require Import Permutation.
From Verif Require Import Base M_Str M_Util M_Utf8 M_Cbor M_Json M_Crypto M_Cose M_State M_Client M_Ctap M_U2f M_History M_Overlap.
From Verif Require Import S_Crypto S_Cbor S_Cose S_State S_Client S_Ctap S_CtapReq S_Pin S_U2f S_History.
From Verif Require Import P_Crypto P_Cbor P_Cbor2 P_Cbor3 P_Cose P_Cose2 P_State P_Client P_Ctap P_Ctap2 P_U2f P_U2f2 P_Vault P_History P_Overlap1.

(* ------------------------------------------------------------------ *)
(* What the answers say                                                *)

Definition deletion (id : bytes) : entry := HDone (IDelete id) (OBool true).

Lemma vault_one v s s' : NoDup (map cs_id v) -> In s v -> In s' v -> cs_id s = cs_id s' -> s = s'.
Proof.
  intros ND I I' Q. destruct (in_split _ _ I) as (a1 & a2 & ->). rewrite map_app in ND. cbn in ND.
  apply NoDup_remove_2 in ND. apply in_app_iff in I' as [I'|[I'|I']]; [|auto|]; exfalso; apply ND;
    rewrite Q, in_app_iff; [left|right]; now apply in_map.
Qed.

(* Whatever a request says is about a credential in the vault, unless it deletes one. *)
Lemma said_in E i o w w' : env_ok E -> client_ok E (w_client w) -> good_input i -> handle E i w = (w', Ok o) ->
  forall id P, says (HDone i o) id P ->
    (exists z, In z (cl_vault (w_client w')) /\ cs_id z = id) \/ HDone i o = deletion id.
Proof.
  intros L K G H id P S. inversion S as [d r id' x y R Q1 Q2 Q3|d r id' n R Q1 Q2 Q3|id' Q1 Q2 Q3]; subst; [left|left|now right].
  - apply handle_ctap in H as (r' & Q & H). injection Q as <-. destruct (registered_ok _ _ _ _ R) as (b & ->).
    cbn [good_input] in G. apply wfb_cons in G as [_ G].
    apply registration_verifies in H as (a & rp & u & au & sg & ce & ad & id1 & key & xb & yb & s1 & _ & _ & _ & H1 & H2 & _ & _ & _ & _ & H3 & _ & H4 & _ & _ & H5 & H6 & _); auto.
    assert (R1 : registered (0 :: b) id1 (be_dec xb) (be_dec yb)) by (exists au, sg, ce, ad, key, xb, yb; auto 10).
    destruct (registered_one _ _ _ _ _ _ _ R R1) as (-> & _). exists s1. split; [rewrite H5; apply in_elt|assumption].
  - apply handle_ctap in H as (r' & Q & H). injection Q as <-. destruct (asserted_ok _ _ _ R) as (b & ->).
    cbn [good_input] in G. apply wfb_cons in G as [_ G].
    apply assertion_facts in H as (a & au & sg & ad & v1 & s1 & v2 & s2 & x & y & es & _ & H1 & H2 & _ & _ & H3 & H4 & _ & _ & _ & _ & H5 & H6 & H7 & _); auto.
    assert (R1 : asserted (0 :: b) (cs_id s1) (ad_count ad)) by (exists au, sg, ad; auto).
    destruct (asserted_one _ _ _ _ _ R R1) as (-> & _). exists s2. split; [rewrite H5; apply in_elt|]. now rewrite H6.
Qed.

(* A created credential. *)
Lemma created_says E a rp f u w auth sig cert : env_ok E -> f = 0 \/ f = 4 ->
  let s := made E (w_tick w + 1) rp u in
  auth = mc_auth_data E rp (cs_id s) (e_scalar E (w_tick w + 2)) f ->
  sig = ecdsa_sign (e_C E) (e_scalar E (w_tick w + 2)) (sha256 (e_C E) (auth ++ or_nil (mc_hash a))) (e_rand E (w_tick w + 8) 32) ->
  (exists t c k q, e_make_cert E t c k q = Some cert) ->
  exists x y, registered (0 :: cenc (attestation_doc auth sig cert)) (cs_id s) x y /\ public_of (cs_key s) x y /\
    response (attestation_doc auth sig cert) (0 :: cenc (attestation_doc auth sig cert)) /\
    ecdsa_verify (e_C E) (x, y) (sha256 (e_C E) (auth ++ or_nil (mc_hash a))) sig = true.
Proof.
  intros L F s QA QS (t & c & k & q & Ct).
  destruct (rand_id E (w_tick w + 1) L) as [I1 I2].
  set (d0 := e_scalar E (w_tick w + 2)) in *.
  assert (V : valid_scalar d0) by apply (eo_scalar E L).
  destruct (cred_key_canonical (e_C E) d0 (eo_laws E L) V) as (CK & A & B).
  destruct (mc_auth_wf E rp (w_tick w + 1) d0 f L V F) as [AW AL].
  cbn [made cs_id s] in *. rewrite <- QA in AW, AL.
  destruct (sig_wf E (w_tick w + 8) d0 (sha256 (e_C E) (auth ++ or_nil (mc_hash a))) L) as [SW SL]. rewrite <- QS in SW, SL.
  destruct (eo_cert E L _ _ _ _ _ Ct) as [CW CL].
  assert (RS : response (attestation_doc auth sig cert) (0 :: cenc (attestation_doc auth sig cert))).
  { eexists. split; [reflexivity|]. apply attestation_good; auto; lia. }
  exists (fst (p256_pub (e_C E) d0)), (snd (p256_pub (e_C E) d0)). split; [|split; [|split]].
  - exists auth, sig, cert. eexists. exists (cred_key (e_C E) d0), (big_bytes (fst (p256_pub (e_C E) d0))), (big_bytes (snd (p256_pub (e_C E) d0))).
    split; [assumption|]. split; [rewrite QA; now apply mc_has|]. cbn [ad_rest].
    split; [unfold attested; rewrite I1; split; [reflexivity|]; split; [reflexivity|lia]|]. split; [assumption|].
    change (be_dec (big_bytes ?x)) with (big_set (big_bytes x)). rewrite !big_set_bytes. auto.
  - exists d0. unfold d0. cbn [made cs_key s]. replace (w_tick w + 1 + 1) with (w_tick w + 2) by lia. reflexivity.
  - assumption.
  - rewrite QS. rewrite <- surjective_pairing. apply (l_ecdsa _ (eo_laws E L)). assumption.
Qed.

(* A login. *)
Lemma login_says E a f s k w auth sig : env_ok E -> f = 0 \/ f = 4 -> source_ok (e_C E) s ->
  auth = sha256 (e_C E) (ga_rp a) ++ [N.lor f 1] ++ ctr_bytes (cs_ctr s) ->
  sig = ecdsa_sign (e_C E) k (sha256 (e_C E) (auth ++ or_nil (ga_hash a))) (e_rand E (w_tick w + 1) 32) ->
  valid_scalar k -> cs_key s = priv_ec (ec_key (e_C E) k) ->
  let r := 0 :: cenc (assertion_doc (cs_id s) auth sig) in
  asserted r (cs_id s) (uctr s) /\ response (assertion_doc (cs_id s) auth sig) r /\
  (exists ad, has_auth_data auth ad /\ ad_rp_hash ad = sha256 (e_C E) (ga_rp a) /\ ad_count ad = uctr s) /\
  exists x y, public_of (cs_key s) x y /\
    ecdsa_verify (e_C E) (x, y) (sha256 (e_C E) (auth ++ or_nil (ga_hash a))) sig = true.
Proof.
  intros L F SO QA QS Vk Kx r. destruct SO as (_ & I1 & I2 & _).
  assert (FL : N.lor f 1 < 256) by (destruct F; subst f; reflexivity).
  assert (AW : wfb auth).
  { rewrite QA. apply wfb_app. split; [apply (l_sha_wf _ (eo_laws E L))|].
    apply wfb_app. split; [apply wfb_cons; split; [exact FL|apply wfb_nil]|apply be_wf]. }
  assert (AL : len auth < 65536).
  { rewrite QA. unfold ctr_bytes. rewrite !len_app, be_len, (l_sha_len _ (eo_laws E L)). change (len [_]) with 1. lia. }
  destruct (sig_wf E (w_tick w + 1) k (sha256 (e_C E) (auth ++ or_nil (ga_hash a))) L) as [SW SL]. rewrite <- QS in SW, SL.
  assert (RS : response (assertion_doc (cs_id s) auth sig) r).
  { eexists. split; [reflexivity|]. apply assertion_good; auto; lia. }
  set (ad := {| ad_rp_hash := sha256 (e_C E) (ga_rp a); ad_flags := N.lor f 1; ad_count := uctr s; ad_rest := [] |}).
  assert (HA : has_auth_data auth ad).
  { unfold has_auth_data, ad. cbn [ad_rp_hash ad_flags ad_count ad_rest]. split; [|split; [|split]].
    - rewrite QA. unfold ctr_bytes, uctr. now rewrite app_nil_r.
    - apply (l_sha_len _ (eo_laws E L)).
    - assumption.
    - unfold uctr. lia. }
  split; [exists auth, sig, ad; auto|]. split; [assumption|]. split; [exists ad; auto|].
  exists (fst (p256_pub (e_C E) k)), (snd (p256_pub (e_C E) k)). split; [exists k; exact Kx|].
  rewrite QS, <- surjective_pairing. apply (l_ecdsa _ (eo_laws E L)). assumption.
Qed.

(* ------------------------------------------------------------------ *)
(* Logins that wait                                                    *)

Definition login_ok (E : Env) (h : list entry) (t : N) (v : list source) (n : nat) (s : source) : Prop :=
  (n <= length h)%nat /\ drawn E t (cs_id s) /\ uctr s <= len h /\
  (forall z, In z v -> cs_id z = cs_id s -> z = s) /\
  (forall e P, In e h -> says e (cs_id s) P -> P s \/ e = deletion (cs_id s)) /\
  (forall d r c, In (HDone (ICtap (2 :: d)) (OBytes r)) (firstn n h) -> asserted r (cs_id s) c -> c < uctr s) /\
  ~ In (deletion (cs_id s)) (firstn n h).

Definition now (v : list source) (s : source) : source :=
  match find (fun s' => bytes_eqb (cs_id s') (cs_id s)) v with Some s' => s' | None => s end.

Lemma refresh_login v a f s : refresh v (PLogin a f s) = PLogin a f (now v s).
Proof. unfold refresh, now. destruct (find _ v); reflexivity. Qed.

Lemma now_id v s : cs_id (now v s) = cs_id s.
Proof. unfold now. destruct (find _ v) as [s'|] eqn:X; [|reflexivity]. apply find_some in X as [_ X]. now apply bytes_eqb_eq in X. Qed.

Lemma now_in v s z : NoDup (map cs_id v) -> In z v -> cs_id z = cs_id s -> now v s = z.
Proof.
  intros ND I Q. unfold now. destruct (find _ v) as [s'|] eqn:X.
  - apply find_some in X as [I' X]. apply bytes_eqb_eq in X. apply (vault_one v); auto. congruence.
  - apply find_none with (x := z) in X; auto. rewrite Q in X. assert (bytes_eqb (cs_id s) (cs_id s) = true) by now apply bytes_eqb_eq. congruence.
Qed.

Lemma now_cases v s : (In (now v s) v /\ cs_id (now v s) = cs_id s) \/
  (now v s = s /\ forall z, In z v -> cs_id z <> cs_id s).
Proof.
  unfold now. destruct (find _ v) as [s'|] eqn:X.
  - left. apply find_some in X as [I X]. apply bytes_eqb_eq in X. auto.
  - right. split; [reflexivity|]. intros z I Q. apply find_none with (x := z) in X; auto.
    assert (bytes_eqb (cs_id z) (cs_id s) = true) by now apply bytes_eqb_eq. congruence.
Qed.

(* A source that waits is changed only by being counted up. *)
Lemma now_change E i h t t' v v' s : sound E h t v -> vchange E i t t' v v' -> t <= t' -> no_clash E t' ->
  drawn E t (cs_id s) -> (forall z, In z v -> cs_id z = cs_id s -> z = s) ->
  now v' s = s \/ now v' s = bump s.
Proof.
  intros (ND & DR & _) C LE NC D A. destruct (now_cases v' s) as [[I Q]|[-> _]]; [|now left].
  destruct C as [|k rp u Tk Tk'|v1 x v2 ->|z v' Qi P].
  - left. now apply A.
  - apply in_app_iff in I as [I|[I|[]]]; [left; now apply A|]. exfalso. rewrite <- I in Q. cbn in Q.
    destruct D as (j & J & JQ). rewrite JQ in Q. apply NC in Q; lia.
  - apply in_app_iff in I as [I|[I|I]].
    + left. apply A; [apply in_app_iff; now left|assumption].
    + right. rewrite <- I in *. f_equal. apply A; [apply in_elt|assumption].
    + left. apply A; [apply in_app_iff; right; now right|assumption].
  - left. apply A; [|assumption]. eapply Permutation_in; [symmetry; exact P|now right].
Qed.

Lemma firstn_snoc {A} n (h es : list A) : (n <= length h)%nat -> firstn n (h ++ es) = firstn n h.
Proof. intro H. rewrite firstn_app. replace (n - length h)%nat with 0%nat by lia. cbn. apply app_nil_r. Qed.

Lemma login_step E i h es t t' v v' n s : sound E h t v -> vchange E i t t' v v' -> t <= t' -> no_clash E t' ->
  len h < 4294967295 -> NoDup (map cs_id v') -> es <> [] -> login_ok E h t v n s ->
  (forall e P, In e es -> says e (cs_id s) P ->
    P s \/ ((exists z, In z v' /\ cs_id z = cs_id s) /\ (forall z, In z v' -> cs_id z = cs_id s -> P z)) \/ e = deletion (cs_id s)) ->
  login_ok E (h ++ es) t' v' n (now v' s).
Proof.
  intros SO VC LE NC LH ND' NE (A & B & D & F & G & I & J) HE.
  pose proof (now_change E i h t t' v v' s SO VC LE NC B F) as CH.
  assert (LES : 1 <= len es) by (destruct es; [congruence|unfold len; cbn [length]; lia]).
  assert (UB : uctr s <= uctr (now v' s) /\ uctr (now v' s) <= uctr s + 1).
  { destruct CH as [-> | ->]; [lia|]. rewrite uctr_bump; lia. }
  assert (PB : forall e P, says e (cs_id s) P -> P s -> P (now v' s)).
  { intros e P S X. destruct CH as [-> | ->]; [assumption|]. eapply says_bump; eauto. lia. }
  unfold login_ok. rewrite now_id, len_app, app_length, firstn_snoc by assumption.
  split; [lia|]. split; [eapply drawn_le; eauto|]. split; [lia|].
  split; [intros z Z Q; symmetry; now apply now_in|].
  split.
  { intros e P X S. apply in_app_iff in X as [X|X].
    - destruct (G e P X S) as [Y|Y]; [left; eapply PB; eauto|now right].
    - destruct (HE e P X S) as [Y|[[(z & Z & Q) Y]|Y]]; [left; eapply PB; eauto| |now right].
      left. apply Y; [|apply now_id]. rewrite (now_in v' s z); auto. }
  split; [|assumption]. intros d r c X S. specialize (I d r c X S). lia.
Qed.

(* All requests that wait. *)
Definition all_ok (E : Env) (h : list entry) (w : world) (l : list waiting) : Prop :=
  (forall x a f s, In x l -> wt_state x = PLogin a f s -> login_ok E h (w_tick w) (cl_vault (w_client w)) (wt_no x) s) /\
  (forall x y a f s a' f' s', In x l -> In y l -> wt_state x = PLogin a f s -> wt_state y = PLogin a' f' s' ->
     cs_id s = cs_id s' -> s = s').

Lemma refreshed_in w l x : In x (refreshed w l) ->
  exists y, In y l /\ wt_no x = wt_no y /\ wt_input x = wt_input y /\ wt_state x = refresh (cl_vault (w_client w)) (wt_state y).
Proof. unfold refreshed. intro I. apply in_map_iff in I as (y & <- & I). exists y. auto. Qed.

Lemma refresh_was v p a f s : refresh v p = PLogin a f s -> exists s0, p = PLogin a f s0 /\ s = now v s0.
Proof.
  destruct p as [b rp g|b g s0|d chal app k|k chal app]; cbn [refresh]; try discriminate.
  intro H. exists s0. change (refresh v (PLogin b g s0) = PLogin a f s) in H. rewrite refresh_login in H. now injection H as -> -> <-.
Qed.

Lemma all_step E i h es w w' l : sound E h (w_tick w) (cl_vault (w_client w)) -> step_ok E i w w' -> no_clash E (w_tick w') ->
  len h < 4294967295 -> es <> [] -> all_ok E h w l ->
  (forall e id P, In e es -> says e id P ->
    (forall x a f s, In x l -> wt_state x = PLogin a f s -> cs_id s = id -> P s) \/
    ((exists z, In z (cl_vault (w_client w')) /\ cs_id z = id) /\ (forall z, In z (cl_vault (w_client w')) -> cs_id z = id -> P z)) \/
    e = deletion id) ->
  all_ok E (h ++ es) w' (refreshed w' l).
Proof.
  intros SO (K & LE & VC & _) NC LH NE [A B] HE.
  destruct (sound_change E i h _ _ _ _ SO VC LE NC LH) as (ND & _).
  split.
  - intros x a f s I Q. apply refreshed_in in I as (y & I & -> & _ & R). rewrite R in Q. apply refresh_was in Q as (s0 & Q & ->).
    eapply login_step; eauto. intros e P Ie S. destruct (HE e (cs_id s0) P Ie S) as [Z|Z]; [left; eauto|now right].
  - intros x y a f s a' f' s' I J Q Q' ID. apply refreshed_in in I as (x0 & I & _ & _ & R). apply refreshed_in in J as (y0 & J & _ & _ & R').
    rewrite R in Q. rewrite R' in Q'. apply refresh_was in Q as (s0 & Q & ->). apply refresh_was in Q' as (s1 & Q' & ->).
    rewrite !now_id in ID. f_equal. eauto.
Qed.
