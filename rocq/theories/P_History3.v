From Coq Require Import Permutation.
From Verif Require Import Base M_Str M_Util M_Utf8 M_Cbor M_Json M_Crypto M_Cose M_State M_Client M_Ctap M_U2f M_HidConc M_History M_Race.
From Verif Require Import S_Crypto S_Cbor S_Cose S_State S_Client S_Ctap S_CtapReq S_Pin S_U2f S_History.
From Verif Require Import P_Crypto P_Cbor P_Cbor2 P_Cbor3 P_Cose P_Cose2 P_Json P_State P_Client P_Ctap P_Ctap2 P_Ctap3 P_U2f P_U2f2 P_Vault P_History P_History2.

(* ------------------------------------------------------------------ *)
(* Credentials come from registration requests                         *)

Definition asked_for (i : input) (rp : rp_ent) (u : user_ent) : Prop :=
  exists d a, i = ICtap (1 :: d) /\ unmarshal dec_mc d = Some a /\ mc_rp a = Some rp /\ mc_user a = Some u.

Lemma handle_origin E i w w' r s : env_ok E -> client_ok E (w_client w) -> good_input i -> handle E i w = (w', r) ->
  In s (cl_vault (w_client w')) ->
  (exists z, In z (cl_vault (w_client w)) /\ cs_rp s = cs_rp z /\ cs_user s = cs_user z) \/
  asked_for i (cs_rp s) (cs_user s).
Proof.
  intros L K G H I.
  assert (SAME : cl_vault (w_client w') = cl_vault (w_client w) ->
    (exists z, In z (cl_vault (w_client w)) /\ cs_rp s = cs_rp z /\ cs_user s = cs_user z) \/
    asked_for i (cs_rp s) (cs_user s)) by (intro Q; left; exists s; rewrite <- Q; auto).
  destruct i as [m|m|b|p|id]; cbn [handle good_input] in *; unfold fmapM, bind at 1 in H.
  - destruct (ctap_handle E m w) as [w1 r1] eqn:X. assert (w' = w1) as -> by (destruct r1; cbv [ret] in H; congruence). clear H.
    apply ctap_run in X; auto.
    destruct X as [|data w' r' X|data w' r' X| |data w' r' X|]; try (now apply SAME).
    + destruct X; try (now apply SAME); cbn [w_client cl_vault set_vault] in I;
        (apply in_app_iff in I as [I|[<-|[]]]; [left; exists s; auto|right; exists data, a; auto]).
    + destruct X; try (now apply SAME); cbn [w_client cl_vault set_vault] in I; left;
        match goal with V : cl_vault _ = ?v1 ++ ?x :: ?v2 |- _ => rewrite V end;
        (apply in_app_iff in I as [I|[<-|I]];
          [exists s; rewrite in_app_iff; auto
          |eexists; split; [apply in_elt|split; reflexivity]
          |exists s; rewrite in_app_iff; split; [right; now right|auto]]).
    + destruct X; now apply SAME.
  - destruct (u2f_handle E m w) as [w1 r1] eqn:X. assert (w' = w1) as -> by (destruct r1; cbv [ret] in H; congruence).
    apply SAME. apply u2f_effect in X as (_ & _ & _ & [->|(-> & _)]); auto.
  - destruct (enable_pin E b w) as [w1 r1] eqn:X. assert (w' = w1) as -> by (destruct r1; cbv [ret] in H; congruence).
    apply SAME. unfold enable_pin in X. unfold bind at 1 in X. cbn [get] in X.
    apply (save_step E (IEnablePin b) (set_pin (w_client w) b)) in X as (_ & -> & _); auto using client_ok_pin. unfold same_keys; auto.
  - destruct (set_pin_api E p w) as [w1 r1] eqn:X. assert (w' = w1) as -> by (destruct r1; cbv [ret] in H; congruence).
    apply SAME. unfold set_pin_api, set_pin_hash in X. unfold bind at 1 in X. cbn [get] in X.
    destruct (hash16 (e_C E) p (eo_laws E L)) as [A B].
    apply (save_step E (ISetPin p) (set_hash (w_client w) (Some (firstn 16 (sha256 (e_C E) p))))) in X as (_ & -> & _); auto using client_ok_hash.
    unfold same_keys; auto.
  - destruct (delete_identity_api E id w) as [w1 r1] eqn:X. assert (w' = w1) as -> by (destruct r1; cbv [ret] in H; congruence).
    apply delete_api in X as (_ & _ & [(_ & -> & _)|(v & d & _ & D & Q & _)]); auto. left. exists s. split; [|auto].
    destruct (delete_exact _ _ _ _ D) as (_ & X & _). destruct (X eq_refl) as (v1 & z & v2 & V & _ & _ & P).
    rewrite Q in I. cbn in I. apply (Permutation_in _ P) in I. rewrite V. apply in_app_iff in I as [I|I]; apply in_app_iff; [now left|right; now right].
Qed.

Definition requested (h : list entry) (v : list source) : Prop :=
  forall s, In s v -> exists e i, In e h /\ input_of e = Some i /\ asked_for i (cs_rp s) (cs_user s).

Lemma requested_more h h' v : requested h v -> requested (h ++ h') v.
Proof. intros H s I. destruct (H s I) as (e & i & A & B). exists e, i. rewrite in_app_iff. auto. Qed.

Lemma vault_requested E h up w : env_ok E -> history E h up w -> starts_ok E h ->
  (up = true -> requested h (cl_vault (w_client w))) /\ forall c, saved_client E w c -> requested h (cl_vault c).
Proof.
  intros L H. induction H as [c t|h w p w' H IH S|h w p w' H IH S|h w i w' o H IH G S|h w i w' H IH G S|h w i w' r es rest H IH G S T]; intros ST;
    try (destruct IH as [IH1 IH2]; [now apply starts_ok_app in ST|]);
    try pose proof (starts_ok_app _ _ _ ST) as ST0.
  1: { split; [discriminate|]. intros c0 (d & A & _). discriminate A. }
  1: { assert (P : params_ok E p) by (apply ST; left; apply in_elt).
    destruct (start_trace _ _ _ _ _ _ L P H ST0 S) as (T & _).
    split; [|intros c (d & A & B); apply requested_more, IH2; exists d; now rewrite <- T].
    intros _. destruct (start_saved _ _ _ _ _ _ L P H ST0 S) as [(_ & -> & _)|(c & A & -> & _)]; [intros s []|].
    apply requested_more. intros s I. apply smeared_in in I as (x & z & _ & Iz & ->). exact (IH2 c A z Iz). }
  1: { assert (P : params_ok E p) by (apply ST; right; apply in_elt).
    destruct (start_trace _ _ _ _ _ _ L P H ST0 S) as (_ & _ & X). discriminate X. }
  all: destruct (history_inv E h _ w L H ST0) as (V & _ & LV & _); destruct (LV eq_refl) as [K _];
    pose proof (handle_step E i w w' _ L K G S) as SO; specialize (IH1 eq_refl);
    match goal with |- (_ -> requested (_ ++ [?e]) _) /\ _ =>
      assert (Q : requested (h ++ [e]) (cl_vault (w_client w'))) by
       (intros s I; destruct (handle_origin E i w w' _ s L K G S I) as [(z & Iz & -> & ->)|A];
        [exact (requested_more h _ _ IH1 z Iz)|exists e, i; split; [apply in_elt|split; [reflexivity|assumption]]]) end.
  - split; [auto|]. intros c X.
    destruct (saved_done E i w w' c SO X) as [[Y _]|(_ & _ & _ & _ & _ & _ & Y)]; [now apply requested_more, IH2|]. rewrite Y. auto.
  - split; [discriminate|]. intros c X.
    destruct (saved_done E i w w' c SO X) as [[Y _]|(_ & _ & _ & _ & _ & _ & Y)]; [now apply requested_more, IH2|]. rewrite Y. auto.
  - split; [discriminate|]. intros c X.
    destruct (saved_step E i w w' es rest c SO T X) as [[_ Y]|(_ & _ & _ & _ & _ & _ & Y)]; [now apply requested_more, IH2|]. rewrite Y. auto.
Qed.

(* Nobody who did not register is served. *)
Lemma asserts_for_registered E h1 d2 r2 h3 up w id n : env_ok E ->
  let h := h1 ++ HDone (ICtap (2 :: d2)) (OBytes r2) :: h3 in
  history E h up w -> starts_ok E h -> fresh E w -> len h < 4294967296 -> asserted r2 id n ->
  exists g e d a rp, unmarshal dec_ga d2 = Some g /\ In e h1 /\ input_of e = Some (ICtap (1 :: d)) /\
    unmarshal dec_mc d = Some a /\ mc_rp a = Some rp /\ rp_id rp = ga_rp g.
Proof.
  intros L h H ST F LH A2. unfold h in *. clear h.
  destruct (at_request _ _ _ _ _ _ _ L H ST F ltac:(lia)) as (w0 & w1 & H0 & _ & T1 & G & X & K0 & S0 & _).
  apply handle_ctap in X as (r & Q & X). injection Q as <-. destruct (asserted_ok _ _ _ A2) as (b & ->).
  cbn [good_input] in G. apply wfb_cons in G as [_ G].
  apply assertion_facts in X as (g & au & sg & ad & v1 & s1 & v2 & s2 & xx & yy & es & Ug & Y1 & Y2 & _ & _ & Y3 & Y4 & AL & _); auto.
  pose proof (starts_ok_app _ _ _ ST) as ST0.
  destruct (vault_requested E h1 true w0 L H0 ST0) as [R _]. specialize (R eq_refl s1).
  destruct R as (e & i & Ie & Qi & d & a & -> & U & RP & _); [rewrite Y4; apply in_elt|].
  exists g, e, d, a, (cs_rp s1). destruct AL as [AL _]. auto 10.
Qed.

(* C31, no credential. *)
Lemma nothing_to_assert E w data w' r a : env_ok E -> client_ok E (w_client w) -> wfb data ->
  ctap_handle E (2 :: data) w = (w', r) -> unmarshal dec_ga data = Some a ->
  (cl_pin (w_client w) = true -> ga_auth a = None \/ ga_verified (e_C E) (w_client w) a) ->
  (forall s, In s (cl_vault (w_client w)) -> ~ allowed (ga_rp a) (ga_allow a) s) ->
  w' = w /\ r = Ok [46].
Proof.
  intros L K W H U P N.
  assert (X : exists f, ga_check (e_C E) (w_client w) a = inl f).
  { unfold ga_check. destruct (cl_pin (w_client w)); eauto. destruct (P eq_refl) as [->|V]; eauto.
    destruct V as (_ & p & -> & Pr & PP). unfold pin_proof in PP. rewrite Pr, N.eqb_refl. subst p. rewrite bytes_eqb_refl. eauto. }
  destruct X as [f X]. eapply no_credentials; eauto.
Qed.

(* ------------------------------------------------------------------ *)
(* C51: concurrent requests                                            *)

Lemma list_set_at {A} (l1 : list A) x y l2 : list_set (length l1) y (l1 ++ x :: l2) = l1 ++ y :: l2.
Proof. induction l1 as [|z l1 IH]; cbn; [reflexivity|]. now rewrite IH. Qed.

Lemma nth_at {A} (l1 : list A) x l2 : nth_error (l1 ++ x :: l2) (length l1) = Some x.
Proof. rewrite nth_error_app2 by lia. now rewrite Nat.sub_diag. Qed.

(* A goroutine that is not interrupted. *)
Lemma race_one l1 l2 n g : race_run [length l1; length l1; length l1] (mk_race n (l1 ++ A_call :: l2) g) =
  Some (mk_race ((n + 1) mod 4294967296) (l1 ++ A_done n :: l2) (g ++ [n])).
Proof.
  cbn [race_run]. unfold race_step at 1. cbn [rc_threads rc_ctr rc_given]. rewrite nth_at, list_set_at.
  unfold race_step at 1. cbn [rc_threads rc_ctr rc_given]. rewrite nth_at, list_set_at.
  unfold race_step at 1. cbn [rc_threads rc_ctr rc_given]. now rewrite nth_at, list_set_at.
Qed.

Lemma race_run_app l l' s : race_run (l ++ l') s = match race_run l s with Some s' => race_run l' s' | None => None end.
Proof. revert s. induction l as [|i l IH]; intro s; cbn; [reflexivity|]. destruct (race_step s i); auto. Qed.

Lemma race_serial order : forall ts n g, NoDup order -> (forall i, In i order -> nth_error ts i = Some A_call) ->
  n + N.of_nat (length order) < 4294967296 ->
  exists ts', race_run (flat_map (fun i => [i; i; i]) order) (mk_race n ts g) =
    Some (mk_race (n + N.of_nat (length order)) ts' (g ++ map (fun k => n + N.of_nat k) (seq 0 (length order)))).
Proof.
  induction order as [|i o IH]; intros ts n g ND C B.
  - exists ts. cbn. now rewrite app_nil_r, N.add_0_r.
  - apply NoDup_cons_iff in ND as [NI ND]. pose proof (C i (or_introl eq_refl)) as Ci.
    apply nth_error_split in Ci as (l1 & l2 & -> & <-).
    change (flat_map (fun i => [i; i; i]) (length l1 :: o)) with ([length l1; length l1; length l1] ++ flat_map (fun i => [i; i; i]) o).
    rewrite race_run_app, race_one. cbn [length] in B.
    rewrite N.mod_small by lia.
    destruct (IH (l1 ++ A_done n :: l2) (n + 1) (g ++ [n]) ND) as (ts' & X).
    + intros j J. specialize (C j (or_intror J)). destruct (lt_eq_lt_dec j (length l1)) as [[Q|Q]|Q].
      * rewrite nth_error_app1 in * by assumption. assumption.
      * subst j. contradiction.
      * rewrite nth_error_app2 in * by lia. destruct (j - length l1)%nat eqn:Z; [lia|]. exact C.
    + lia.
    + exists ts'. rewrite X. f_equal. cbn [length]. f_equal; [lia|]. rewrite <- app_assoc. f_equal.
      cbn [seq map app]. rewrite N.add_0_r. f_equal. rewrite <- seq_shift, map_map. apply map_ext. intro k. lia.
Qed.

(* Whatever the interleaving, the values stay in the range of the serial ones. *)
Definition finished (t : auth_thread) : bool := match t with A_done _ => true | _ => false end.
Definition fin (ts : list auth_thread) : N := N.of_nat (length (filter finished ts)).
Definition between (n top : N) (t : auth_thread) : Prop :=
  match t with A_call | A_done _ => True | A_num v => n <= v <= top | A_loaded v c => n <= v <= top /\ n <= c <= top end.

Definition race_inv (n : N) (k : nat) (s : race) : Prop :=
  length (rc_threads s) = k /\ n <= rc_ctr s <= n + fin (rc_threads s) /\
  Forall (between n (n + fin (rc_threads s))) (rc_threads s) /\
  Forall (fun v => n <= v < n + N.of_nat k) (rc_given s) /\ length (rc_given s) = length (filter finished (rc_threads s)).

Lemma fin_app a b : fin (a ++ b) = fin a + fin b.
Proof. unfold fin. rewrite filter_app, app_length. lia. Qed.
Lemma fin_bound l : fin l <= N.of_nat (length l).
Proof. unfold fin. induction l as [|t l IH]; cbn; [lia|]. destruct (finished t); cbn [length]; lia. Qed.

Lemma between_more n top top' l : top <= top' -> Forall (between n top) l -> Forall (between n top') l.
Proof. intros H. apply Forall_impl. intros [|v|v c|v]; cbn; lia. Qed.

Lemma race_inv_step n k s i s' : n + N.of_nat k < 4294967296 -> race_inv n k s -> race_step s i = Some s' -> race_inv n k s'.
Proof.
  intros B (L & C & T & G & Q) E. unfold race_step in E.
  destruct (nth_error (rc_threads s) i) as [t|] eqn:Nt; [|discriminate].
  apply nth_error_split in Nt as (l1 & l2 & Eq & <-). rewrite Eq in *.
  apply Forall_app in T as [T1 T2]. pose proof (Forall_inv T2) as T3. apply Forall_inv_tail in T2.
  pose proof (fin_bound l1) as F1. pose proof (fin_bound l2) as F2. rewrite app_length in L. cbn [length] in L.
  rewrite filter_app, app_length in Q. change (t :: l2) with ([t] ++ l2) in C, T1, T2, T3. rewrite !fin_app in C, T1, T2, T3.
  destruct t as [|v|v c|v]; [..|discriminate E]; rewrite list_set_at in E; injection E as <-; unfold race_inv; cbn [rc_threads rc_ctr rc_given];
    rewrite app_length, filter_app, app_length; cbn [length filter finished] in *.
  - change (A_num (rc_ctr s) :: l2) with ([A_num (rc_ctr s)] ++ l2). rewrite !fin_app.
    change (fin [A_num (rc_ctr s)]) with 0. change (fin [A_call]) with 0 in *.
    split; [exact L|]. split; [exact C|]. split; [|auto]. apply Forall_app. split; [exact T1|].
    constructor; [exact C|exact T2].
  - change (A_loaded v (rc_ctr s) :: l2) with ([A_loaded v (rc_ctr s)] ++ l2). rewrite !fin_app.
    change (fin [A_loaded v (rc_ctr s)]) with 0. change (fin [A_num v]) with 0 in *.
    split; [exact L|]. split; [exact C|]. split; [|auto]. apply Forall_app. split; [exact T1|].
    constructor; [split; [exact T3|exact C]|exact T2].
  - change (A_done v :: l2) with ([A_done v] ++ l2). rewrite !fin_app.
    change (fin [A_done v]) with 1. change (fin [A_loaded v c]) with 0 in *. cbn in T3.
    rewrite N.mod_small by lia.
    split; [exact L|]. split; [lia|]. split.
    + apply Forall_app. split; [eapply between_more; [|exact T1]; lia|].
      constructor; [exact Logic.I|]. eapply between_more; [|exact T2]; lia.
    + split; [|rewrite app_length; cbn [length]; lia]. apply Forall_app. split; [exact G|]. constructor; [lia|constructor].
Qed.

Lemma race_range k n schedule s : n + N.of_nat k < 4294967296 -> race_run schedule (race_start k n) = Some s ->
  n <= rc_ctr s <= n + N.of_nat (length (rc_given s)) /\ Forall (fun v => n <= v < n + N.of_nat k) (rc_given s) /\
  (length (rc_given s) <= k)%nat.
Proof.
  intros B R. assert (I : race_inv n k s).
  { assert (I : race_inv n k (race_start k n)).
    { unfold race_inv, race_start, fin. cbn [rc_threads rc_ctr rc_given]. rewrite repeat_length.
      assert (filter finished (repeat A_call k) = []) as -> by (clear; induction k; cbn; auto).
      split; [reflexivity|]. split; [cbn; lia|]. split; [|split; [constructor|reflexivity]].
      apply Forall_forall. intros x Hx. apply repeat_spec in Hx. subst x. exact Logic.I. }
    revert I R. generalize (race_start k n). induction schedule as [|i l IH]; intros s0 I R; cbn [race_run] in R.
    - now injection R as <-.
    - destruct (race_step s0 i) eqn:E; [|discriminate]. eapply IH; [|exact R]. eapply race_inv_step; eauto. }
  destruct I as (L & C & T & G & Q). pose proof (fin_bound (rc_threads s)) as F. unfold fin in *. rewrite <- Q in *.
  split; [exact C|]. split; [exact G|]. lia.
Qed.

