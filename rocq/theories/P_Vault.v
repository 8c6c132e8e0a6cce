From Coq Require Import Permutation.
From Verif Require Import Base M_Str M_Util M_Cbor M_Json M_Crypto M_Cose M_State M_Client.
From Verif Require Import S_Crypto S_Cbor S_State S_Client S_Ctap S_Vault.
From Verif Require Import P_Crypto P_Cbor P_Cbor2 P_Cose P_State P_Client P_Ctap.

Lemma lookup_selects v rp allow : selects (allowed rp allow) v (matching v rp allow).
Proof.
  rewrite matching_filter. induction v as [|x v IH]; cbn [filter]; [constructor|].
  destruct (matches rp allow x) eqn:M.
  - constructor; auto. now apply matches_iff.
  - constructor; auto. intro A. apply matches_iff in A. congruence.
Qed.

Lemma delete_exact v id v' ok : delete_identity v id = (v', ok) ->
  (ok = true <-> exists s, In s v /\ cs_id s = id) /\
  (ok = true -> exists v1 s v2, v = v1 ++ s :: v2 /\ cs_id s = id /\ (forall z, In z v1 -> cs_id z <> id) /\
                  Permutation v' (v1 ++ v2)) /\
  (ok = false -> v' = v).
Proof.
  intro H. pose proof (delete_spec _ _ _ _ H) as S.
  split; [|split].
  - destruct S as [[-> (s & I & D & _)]|(-> & _ & N)]; split; eauto; try discriminate.
    intros (s & I & D). now apply N in I.
  - intros ->. revert H. unfold delete_identity. destruct (find_id v id) as [i|] eqn:F; [|discriminate].
    apply find_id_some in F as (v1 & s & v2 & -> & <- & D & N). intro H. exists v1, s, v2.
    split; [reflexivity|]. split; [assumption|]. split; [assumption|].
    destruct (rev (v1 ++ s :: v2)) as [|l r] eqn:R; [discriminate|]. injection H as <-. rewrite set_nth_app.
    destruct v2 as [|b v2 _] using rev_ind.
    + now rewrite removelast_last, app_nil_r.
    + assert (l = b) as -> by (rewrite app_comm_cons, app_assoc, rev_app_distr in R; cbn in R; congruence).
      replace (v1 ++ b :: v2 ++ [b]) with ((v1 ++ b :: v2) ++ [b]) by (rewrite <- app_assoc; reflexivity).
      rewrite removelast_last. apply Permutation_app_head. apply Permutation_cons_append.
  - intros ->. destruct S as [[? _]|(_ & ? & _)]; [discriminate|assumption].
Qed.

Lemma delete_nodup v id v' ok : NoDup (map cs_id v) -> delete_identity v id = (v', ok) ->
  NoDup (map cs_id v') /\ forall s, In s v' <-> In s v /\ cs_id s <> id.
Proof.
  intros D H. apply delete_spec in H as [[-> (s & I & S & P)]|(-> & -> & N)].
  - pose proof (Permutation_map cs_id P) as PM. cbn in PM. pose proof (Permutation_NoDup PM D) as D'.
    inversion D' as [|? ? NI D'']; subst. split; [assumption|]. intro x. split.
    + intro J. split; [eapply Permutation_in; [symmetry; eassumption|now right]|].
      intro Q. apply NI. rewrite <- Q. now apply in_map.
    + intros [J Q]. apply (Permutation_in _ P) in J as [->|J]; [congruence|assumption].
  - split; auto. intro x. firstorder.
Qed.

Lemma added_app l l' : added (l ++ l') = added l ++ added l'.
Proof. unfold added. apply flat_map_app. Qed.

Lemma in_added l s : In s (added l) <-> In (OpAdd s) l.
Proof.
  unfold added. rewrite in_flat_map. split.
  - intros (o & I & J). destruct o; [|easy]. destruct J as [->|[]]; assumption.
  - intro I. exists (OpAdd s). split; [assumption|now left].
Qed.

Lemma present_in l s : present l s -> In s (added l).
Proof. intros (l1 & l2 & -> & _). apply in_added, in_elt. Qed.

Lemma present_add l x s : present (l ++ [OpAdd x]) s <-> present l s \/ s = x.
Proof.
  split.
  - intros (l1 & l2 & H & N). destruct l2 as [|o l2 _] using rev_ind.
    + apply app_inj_tail in H as [_ H]. injection H as ->. now right.
    + rewrite app_comm_cons, app_assoc in H. apply app_inj_tail in H as [-> <-]. left. exists l1, l2.
      split; [reflexivity|]. intro I. apply N, in_app_iff. auto.
  - intros [(l1 & l2 & -> & N)| ->].
    + exists l1, (l2 ++ [OpAdd x]). split; [now rewrite <- app_assoc|]. rewrite in_app_iff. intros [I|[I|[]]]; auto. discriminate I.
    + exists l, []. split; [reflexivity|]. intros [].
Qed.

Lemma present_delete l id s : present (l ++ [OpDelete id]) s <-> present l s /\ cs_id s <> id.
Proof.
  split.
  - intros (l1 & l2 & H & N). destruct l2 as [|o l2 _] using rev_ind.
    + apply app_inj_tail in H as [_ H]. discriminate H.
    + rewrite app_comm_cons, app_assoc in H. apply app_inj_tail in H as [-> <-]. split.
      * exists l1, l2. split; [reflexivity|]. intro I. apply N, in_app_iff. auto.
      * intro Q. apply N, in_app_iff. right. left. now rewrite Q.
  - intros [(l1 & l2 & -> & N) D]. exists l1, (l2 ++ [OpDelete id]). split; [now rewrite <- app_assoc|].
    rewrite in_app_iff. intros [I|[I|[]]]; auto. injection I as I. congruence.
Qed.

Lemma vault_operations l v bs : performs l v bs -> NoDup (map cs_id (added l)) ->
  NoDup (map cs_id v) /\ forall s, In s v <-> present l s.
Proof.
  induction 1 as [|l v bs s P IH|l v bs id v' b P IH H]; intro D.
  - split; [constructor|]. intro s. split; [intros []|]. intros (l1 & l2 & H & _). now destruct l1.
  - rewrite added_app, map_app in D. cbn in D.
    assert (D1 : NoDup (map cs_id (added l))) by (apply NoDup_remove_1 in D; now rewrite app_nil_r in D).
    apply NoDup_remove_2 in D. rewrite app_nil_r in D. destruct (IH D1) as [N S]. unfold add_identity. split.
    + rewrite map_app. cbn. eapply Permutation_NoDup; [apply Permutation_cons_append|]. constructor; auto.
      intro I. apply D. apply in_map_iff in I as (x & Q & I). rewrite <- Q. apply in_map, present_in, S, I.
    + intro x. rewrite in_app_iff, present_add, S. cbn. firstorder.
  - rewrite added_app in D. cbn in D. rewrite app_nil_r in D. destruct (IH D) as [N S].
    destruct (delete_nodup _ _ _ _ N H) as [N' S']. split; auto. intro x. rewrite S', S, present_delete. tauto.
Qed.

(* The answers: true exactly when the identity was there. *)
Lemma vault_answers l v bs : performs l v bs -> NoDup (map cs_id (added l)) ->
  forall l1 id l2, l = l1 ++ OpDelete id :: l2 ->
  exists v1 bs1 b bs2, performs l1 v1 bs1 /\ bs = bs1 ++ b :: bs2 /\
    (b = true <-> exists s, present l1 s /\ cs_id s = id).
Proof.
  induction 1 as [|l v bs s P IH|l v bs id v' b P IH H]; intros D l1 i l2 Q.
  - now destruct l1.
  - destruct l2 as [|o l2 _] using rev_ind; [apply app_inj_tail in Q as [_ Q]; discriminate Q|].
    rewrite app_comm_cons, app_assoc in Q. apply app_inj_tail in Q as [Q _]. apply IH with l2; auto.
    rewrite added_app, map_app in D. cbn in D. apply NoDup_remove_1 in D. now rewrite app_nil_r in D.
  - rewrite added_app in D. cbn in D. rewrite app_nil_r in D.
    destruct l2 as [|o l2 _] using rev_ind.
    + apply app_inj_tail in Q as [-> Q]. injection Q as ->. exists v, bs, b, [].
      split; [assumption|]. split; [reflexivity|]. destruct (vault_operations _ _ _ P D) as [_ S].
      destruct (delete_exact _ _ _ _ H) as (X & _). rewrite X. split; intros (s & A & B); exists s; split; auto; now apply S.
    + rewrite app_comm_cons, app_assoc in Q. apply app_inj_tail in Q as [-> _].
      destruct (IH D l1 i l2 eq_refl) as (v1 & bs1 & b1 & bs2 & P1 & -> & X). exists v1, bs1, b1, (bs2 ++ [b]).
      split; [assumption|]. split; [now rewrite <- app_assoc|assumption].
Qed.

(* The client's add. *)
Lemma new_identity_adds E rp u w w' r : env_ok E -> new_identity E rp u w = (w', r) ->
  exists s d, r = Ok s /\ w_client w' = set_vault (w_client w) (cl_vault (w_client w) ++ [s]) /\
    w_trace w' = w_trace w /\ len (cs_id s) = 16 /\ cs_rp s = rp /\ cs_user s = u /\ cs_ctr s = 0%Z /\
    valid_scalar d /\ cs_key s = priv_ec (ec_key (e_C E) d).
Proof.
  intros L H. pattern w', r. eapply wp_eq; [|exact H]. clear w' r H. unfold new_identity.
  apply wp_bind, wp_random. wcbn. apply wp_bind, wp_scalar. wcbn. apply wp_bind, wp_get. wcbn.
  apply wp_bind, wp_put. wcbn. apply wp_ret. do 2 eexists. split; [reflexivity|]. split; [reflexivity|].
  split; [reflexivity|]. split; [apply (eo_rand_len E L)|]. do 3 (split; [reflexivity|]).
  split; [apply (eo_scalar E L)|reflexivity].
Qed.

(* The client's delete. *)
Lemma delete_api E id w w' r : env_ok E -> client_ok E (w_client w) -> delete_identity_api E id w = (w', r) ->
  client_ok E (w_client w') /\ w_tick w <= w_tick w' /\
  ((r = Ok false /\ w' = w /\ forall s, In s (cl_vault (w_client w)) -> cs_id s <> id) \/
   (exists v d, r = Ok true /\ delete_identity (cl_vault (w_client w)) id = (v, true) /\
      w_client w' = set_vault (w_client w) v /\ w_trace w' = w_trace w ++ [EvSave d] /\ stored E d (w_client w'))).
Proof.
  intros L K H. pattern w', r. eapply wp_eq; [|exact H]. clear w' r H. unfold delete_identity_api.
  apply wp_bind, wp_get. destruct (delete_identity _ id) as [v ok] eqn:D.
  pose proof (delete_spec _ _ _ _ D) as S. destruct ok.
  - destruct S as [(_ & s & I & _ & P)|[X _]]; [|discriminate X].
    assert (K' : client_ok E (set_vault (w_client w) v)).
    { apply client_ok_vault; auto. pose proof (co_vault E _ K) as F. eapply Permutation_Forall in F; [|exact P].
      now inversion F. }
    apply wp_bind, wp_put. wcbn. apply wp_bind. apply wp_save; auto. intros d S. apply wp_ret. wcbn.
    split; [assumption|]. split; [cbn; lia|]. right. exists v, d. auto.
  - destruct S as [[X _]|(_ & _ & N)]; [discriminate X|]. apply wp_ret. split; [assumption|]. split; [lia|]. left. auto.
Qed.

(* ------------------------------------------------------------------ *)
(* C55                                                                 *)

Definition restart_point (E : Env) (d : bytes) (c : client) : Prop := stored E d c /\ client_ok E c.

Lemma restart E p d c w : env_ok E -> params_ok E p -> stored E d c -> client_ok E c ->
  exists w', start E p (Some d) w = (w', Ok tt) /\ client_ok E (w_client w') /\
    w_trace w' = w_trace w /\
    cl_key (w_client w') = cl_key c /\ cl_cert (w_client w') = cl_cert c /\
    cl_certkey (w_client w') = cl_certkey c /\ cl_ctr (w_client w') = cl_ctr c /\
    cl_pin (w_client w') = cl_pin c /\ cl_hash (w_client w') = cl_hash c /\
    cl_vault (w_client w') = smeared (cl_vault c).
Proof.
  intros L P S K.
  set (c0 := new_client p (e_rand E (w_tick w) 16) (e_scalar E (w_tick w + 1))).
  exists (mkw (reloaded c0 c) (w_tick w + 2) (w_trace w)). split.
  - destruct (start E p (Some d) w) as [w1 r] eqn:X. revert X.
    apply (wp_eq _ (fun w1 r => (w1, r) = (mkw (reloaded c0 c) (w_tick w + 2) (w_trace w), Ok tt))). apply wp_start. fold c0. exists c. split; [assumption|].
    split; [apply (co_cert E _ K)|reflexivity].
  - split; [|repeat (split; [reflexivity|]); reflexivity]. apply reloaded_ok; auto.
    apply new_client_ok; auto; [apply (eo_rand_len E L)|apply (eo_rand_wf E L)|apply (eo_scalar E L)].
Qed.

Lemma smeared_same v : (forall s z, In s v -> In z v -> cs_rp s = cs_rp z /\ cs_user s = cs_user z) -> smeared v = v.
Proof.
  intro H. unfold smeared. destruct (rev v) as [|z r] eqn:R.
  - destruct v as [|a v _] using rev_ind; [reflexivity|]. rewrite rev_app_distr in R. discriminate.
  - assert (Iz : In z v) by (apply in_rev; rewrite R; now left).
    rewrite <- (map_id v) at 2. apply map_ext_in. intros s I. destruct (H s z I Iz) as [A B].
    unfold with_owner. rewrite <- A, <- B. now destruct s.
Qed.

(* Exactly when nothing is lost. *)
Lemma smeared_iff v : smeared v = v <->
  forall s z, In s v -> In z v -> cs_rp s = cs_rp z /\ cs_user s = cs_user z.
Proof.
  split; [|apply smeared_same]. intros H. 
  assert (X : v = [] \/ exists rp u, forall s, In s v -> cs_rp s = rp /\ cs_user s = u).
  { unfold smeared in H. destruct (rev v) as [|z r]; [now left|]. right. exists (cs_rp z), (cs_user z).
    intros s I. rewrite <- H in I. apply in_map_iff in I as (x & <- & _). split; reflexivity. }
  intros s z I J. destruct X as [->|(rp & u & X)]; [destruct I|]. destruct (X s I), (X z J). split; congruence.
Qed.

(* Saving and starting again, on the same world. *)
Lemma save_then_start E p w : env_ok E -> params_ok E p -> client_ok E (w_client w) ->
  exists w1 d w2, save_data E w = (w1, Ok tt) /\ w_trace w1 = w_trace w ++ [EvSave d] /\
    stored E d (w_client w) /\
    start E p (Some d) w1 = (w2, Ok tt) /\ client_ok E (w_client w2) /\
    cl_key (w_client w2) = cl_key (w_client w) /\ cl_cert (w_client w2) = cl_cert (w_client w) /\
    cl_certkey (w_client w2) = cl_certkey (w_client w) /\ cl_ctr (w_client w2) = cl_ctr (w_client w) /\
    cl_pin (w_client w2) = cl_pin (w_client w) /\ cl_hash (w_client w2) = cl_hash (w_client w) /\
    cl_vault (w_client w2) = smeared (cl_vault (w_client w)).
Proof.
  intros L P K. destruct (save_data E w) as [w1 r] eqn:X.
  assert (Y : exists d, stored E d (w_client w) /\ w1 = mkw (w_client w) (w_tick w + 4) (w_trace w ++ [EvSave d]) /\ r = Ok tt).
  { pattern w1, r. eapply wp_eq; [|exact X]. clear w1 r X. apply wp_save; auto. intros d S. exists d. auto. }
  destruct Y as (d & S & -> & ->). destruct (restart E p d _ (mkw (w_client w) (w_tick w + 4) (w_trace w ++ [EvSave d])) L P S K)
    as (w2 & H & K2 & T & R). exists (mkw (w_client w) (w_tick w + 4) (w_trace w ++ [EvSave d])), d, w2. auto 10.
Qed.
