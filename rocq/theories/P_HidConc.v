(* Proofs: C12, C13, C14. *)
From Coq Require Import Permutation.
From Verif Require Import Base M_Util M_Hid M_HidConc S_Hid S_HidConc P_Hid1 P_Hid2 P_Hid4.

Lemma list_set_length {A} n (x : A) l : length (list_set n x l) = length l.
Proof. revert n; induction l; intros [|n]; cbn; auto. Qed.

Lemma list_set_nth_eq {A} n (x y : A) l :
  nth_error l n = Some y -> nth_error (list_set n x l) n = Some x.
Proof. revert n; induction l; intros [|n] H; cbn in *; try easy. auto. Qed.

Lemma list_set_nth_neq {A} n m (x : A) l :
  n <> m -> nth_error (list_set n x l) m = nth_error l m.
Proof.
  revert n m; induction l; intros [|n] [|m] H; cbn in *; try easy. apply IHl. lia.
Qed.

Lemma map_list_set {A B} (f : A -> B) n x y l :
  nth_error l n = Some y -> f x = f y -> map f (list_set n x l) = map f l.
Proof.
  revert n; induction l; intros [|n] H E; cbn in *; try easy.
  - injection H as ->. now rewrite E.
  - now rewrite (IHl n).
Qed.

(* ---- C12 ---- *)

Record lock_inv (s : lock_state) (order : list nat) (sent : list bytes) : Prop := {
  li_nodup : NoDup order;
  li_order : forall t, In t order -> exists all, nth_error (lk_senders s) t = Some (mk_sender all [] Finished);
  li_other : forall t sn, nth_error (lk_senders s) t = Some sn -> ~ In t order ->
     lk_holder s <> Some t -> sn_status sn = Waiting /\ sn_left sn = sn_all sn;
  li_hold : match lk_holder s with
            | None => sent = []
            | Some t => ~ In t order /\
                exists all lft, nth_error (lk_senders s) t = Some (mk_sender all lft Holding) /\
                  sent ++ lft = all
            end;
  li_out : lk_out s = concat (map (fun t => nth t (map sn_all (lk_senders s)) []) order) ++ sent
}.

Lemma concat_map_nth_app (all : list (list bytes)) x order :
  Forall (fun t => (t < length all)%nat) order ->
  map (fun t => nth t (all ++ x) []) order = map (fun t => nth t all []) order.
Proof.
  intro F. apply map_ext_in. intros t Ht. rewrite Forall_forall in F.
  apply app_nth1. auto.
Qed.

Lemma nth_error_lt {A} (l : list A) n x : nth_error l n = Some x -> (n < length l)%nat.
Proof. intro H. apply nth_error_Some. congruence. Qed.

Lemma nth_map_error {A B} (f : A -> B) l n x d :
  nth_error l n = Some x -> nth n (map f l) d = f x.
Proof. revert n; induction l; intros [|n] H; cbn in *; try easy; [congruence | auto]. Qed.

Lemma lock_step_inv s order sent l s' :
  lock_inv s order sent -> lock_step s l = Some s' ->
  (exists order' sent', lock_inv s' order' sent') /\
  map sn_all (lk_senders s') = map sn_all (lk_senders s) ++ arrived [l].
Proof.
  intros [N O Ot H Out] St. destruct l as [ps|t|t|t]; cbn [lock_step] in St.
  - injection St as <-. cbn [arrived lk_senders]. rewrite map_app. cbn [map sn_all]. split; auto.
    exists order, sent.
    assert (L : forall t sn, nth_error (lk_senders s) t = Some sn ->
      nth_error (lk_senders s ++ [mk_sender ps ps Waiting]) t = Some sn).
    { intros t sn E. rewrite nth_error_app1; eauto using nth_error_lt. }
    split; cbn [lk_senders lk_holder lk_out]; auto.
    + intros t Ht. destruct (O t Ht) as [all E]. eauto.
    + intros t sn E Hn Hh.
      destruct (Nat.lt_ge_cases t (length (lk_senders s))) as [B|B].
      * rewrite nth_error_app1 in E by auto. eauto.
      * rewrite nth_error_app2 in E by auto.
        destruct (t - length (lk_senders s))%nat as [|k]; cbn in E.
        -- injection E as <-. auto.
        -- destruct k; discriminate.
    + destruct (lk_holder s) as [t|]; auto.
      destruct H as (Hn & all & lft & E & Eq). eauto 8.
    + rewrite map_app, concat_map_nth_app; auto.
      apply Forall_forall. intros t Ht. destruct (O t Ht) as [all E].
      rewrite map_length. eauto using nth_error_lt.
  - destruct (lk_holder s) as [|] eqn:Hh; [discriminate|].
    destruct (nth_error (lk_senders s) t) as [[all lft []]|] eqn:E; try discriminate.
    injection St as <-. cbn [arrived lk_senders]. rewrite app_nil_r. 
    assert (~ In t order) as Hn.
    { intro K. destruct (O t K) as [a' E']. congruence. }
    assert (Hm : map sn_all (list_set t (mk_sender all lft Holding) (lk_senders s))
      = map sn_all (lk_senders s)) by (eapply map_list_set; eauto).
    split; auto.
    destruct (Ot t _ E Hn ltac:(congruence)) as [_ Hl]. cbn in Hl. subst lft.
    exists order, []. subst sent. split; cbn [lk_senders lk_holder lk_out]; auto.
    + intros t' Ht'. destruct (O t' Ht') as [a' E']. exists a'.
      rewrite list_set_nth_neq; auto. intros ->. auto.
    + intros t' sn E' Hn' Hh'. rewrite list_set_nth_neq in E' by congruence.
      eapply Ot; eauto. easy.
    + split; auto. exists all, all. split; auto. eapply list_set_nth_eq; eauto.
    + now rewrite Hm.
  - destruct (nth_error (lk_senders s) t) as [[all [|p lft] []]|] eqn:E; try discriminate.
    injection St as <-. cbn [arrived lk_senders]. rewrite app_nil_r.
    assert (Hm : map sn_all (list_set t (mk_sender all lft Holding) (lk_senders s))
      = map sn_all (lk_senders s)) by (eapply map_list_set; eauto).
    split; auto.
    destruct (lk_holder s) as [t0|] eqn:Hh.
    + destruct H as (Hn & all0 & lft0 & E0 & Eq).
      assert (t = t0) as ->.
      { destruct (Nat.eq_dec t t0); auto. exfalso.
        assert (~ In t order) as Hn'. { intro K. destruct (O t K) as [a' E']. congruence. }
        destruct (Ot t _ E Hn' ltac:(congruence)). discriminate. }
      rewrite E in E0. injection E0 as <- <-.
      exists order, (sent ++ [p]). split; cbn [lk_senders lk_holder lk_out]; auto.
      * intros t' Ht'. destruct (O t' Ht') as [a' E']. exists a'.
        rewrite list_set_nth_neq; auto. intros ->. auto.
      * intros t' sn E' Hn' Hh'. rewrite list_set_nth_neq in E' by congruence. eapply Ot; eauto.
      * split; auto. exists all, lft. split; [eapply list_set_nth_eq; eauto|].
        rewrite <- app_assoc. exact Eq.
      * now rewrite Hm, Out, app_assoc.
    + exfalso.
      assert (~ In t order) as Hn'. { intro K. destruct (O t K) as [a' E']. congruence. }
      destruct (Ot t _ E Hn' ltac:(congruence)). discriminate.
  - destruct (nth_error (lk_senders s) t) as [[all [|p lft] []]|] eqn:E; try discriminate.
    injection St as <-. cbn [arrived lk_senders]. rewrite app_nil_r.
    assert (Hm : map sn_all (list_set t (mk_sender all [] Finished) (lk_senders s))
      = map sn_all (lk_senders s)) by (eapply map_list_set; eauto).
    split; auto.
    destruct (lk_holder s) as [t0|] eqn:Hh.
    + destruct H as (Hn & all0 & lft0 & E0 & Eq).
      assert (t = t0) as ->.
      { destruct (Nat.eq_dec t t0); auto. exfalso.
        assert (~ In t order) as Hn'. { intro K. destruct (O t K) as [a' E']. congruence. }
        destruct (Ot t _ E Hn' ltac:(congruence)). discriminate. }
      rewrite E in E0. injection E0 as <- <-. rewrite app_nil_r in Eq. subst all.
      exists (order ++ [t0]), []. split; cbn [lk_senders lk_holder lk_out]; auto.
      * apply NoDup_rev in N. rewrite <- (rev_involutive order). 
        change (rev (rev order) ++ [t0]) with (rev (t0 :: rev order)).
        apply NoDup_rev. constructor; auto. now rewrite <- in_rev.
      * intros t' Ht'. apply in_app_iff in Ht' as [Ht'|[<-|[]]].
        -- destruct (O t' Ht') as [a' E']. exists a'.
           rewrite list_set_nth_neq; auto. intros ->. auto.
        -- exists sent. eapply list_set_nth_eq; eauto.
      * intros t' sn E' Hn' _. rewrite in_app_iff in Hn'.
        assert (t0 <> t') by (intros ->; apply Hn'; right; now left).
        rewrite list_set_nth_neq in E' by auto. eapply Ot; eauto. congruence.
      * rewrite Hm, Out, map_app, concat_app. cbn [map concat].
        rewrite (nth_map_error _ _ _ _ _ E). cbn [sn_all]. now rewrite !app_nil_r.
    + exfalso.
      assert (~ In t order) as Hn'. { intro K. destruct (O t K) as [a' E']. congruence. }
      destruct (Ot t _ E Hn' ltac:(congruence)). discriminate.
Qed.

Lemma arrived_cons l ls : arrived (l :: ls) = arrived [l] ++ arrived ls.
Proof. destruct l; reflexivity. Qed.

Lemma lock_run_inv : forall ls s order sent s',
  lock_inv s order sent -> lock_run s ls = Some s' ->
  (exists order' sent', lock_inv s' order' sent') /\
  map sn_all (lk_senders s') = map sn_all (lk_senders s) ++ arrived ls.
Proof.
  induction ls as [|l ls IH]; intros s order sent s' I R; cbn [lock_run] in R.
  - injection R as <-. cbn. rewrite app_nil_r. eauto.
  - destruct (lock_step s l) as [s1|] eqn:E; [|discriminate].
    destruct (lock_step_inv _ _ _ _ _ I E) as [(o' & se' & I') M].
    destruct (IH _ _ _ _ I' R) as [K M']. split; auto.
    rewrite M', M, (arrived_cons l ls), app_assoc. reflexivity.
Qed.

Lemma lock_init_inv : lock_inv lock_init [] [].
Proof.
  split; cbn; auto; try easy; [constructor|]. intros [|t] sn E; discriminate.
Qed.

Lemma fresh_index (order : list nat) n :
  Forall (fun t => (t < n)%nat) order -> exists c, ~ In c order /\ (n <= c)%nat.
Proof.
  intro F. exists n. split; auto. intro K. rewrite Forall_forall in F. specialize (F n K). lia.
Qed.

Lemma contiguous ls s :
  lock_run lock_init ls = Some s -> whole_responses (arrived ls) (lk_out s).
Proof.
  intro R. destruct (lock_run_inv _ _ _ _ _ lock_init_inv R) as [(order & sent & I) M].
  cbn in M. destruct I as [N O Ot H Out]. rewrite M in Out.
  assert (F : Forall (fun t => (t < length (arrived ls))%nat) order).
  { apply Forall_forall. intros t Ht. destruct (O t Ht) as [all E].
    rewrite <- M, map_length. eauto using nth_error_lt. }
  destruct (lk_holder s) as [t|].
  - destruct H as (Hn & all & lft & E & Eq).
    exists order, t, sent, lft. repeat split; auto.
    + constructor; auto.
    + rewrite <- M, (nth_map_error _ _ _ _ _ E). exact Eq.
  - subst sent. destruct (fresh_index order (length (arrived ls)) F) as (c & Hc & Hl).
    exists order, c, [], []. repeat split; auto.
    + constructor; auto.
    + now rewrite nth_overflow.
Qed.

(* When every sender is done, everything was sent exactly once. *)
Lemma all_sent ls s :
  lock_run lock_init ls = Some s ->
  Forall (fun sn => sn_status sn = Finished) (lk_senders s) ->
  exists order, Permutation order (seq 0 (length (arrived ls))) /\
    lk_out s = concat (map (fun t => nth t (arrived ls) []) order).
Proof.
  intros R Fin. destruct (lock_run_inv _ _ _ _ _ lock_init_inv R) as [(order & sent & I) M].
  cbn in M. destruct I as [N O Ot H Out]. rewrite M in Out.
  assert (length (arrived ls) = length (lk_senders s)) as Hlen by (now rewrite <- M, map_length).
  rewrite Forall_forall in Fin.
  exists order. split.
  - apply NoDup_Permutation; auto using seq_NoDup.
    intro t. rewrite in_seq. split.
    + intro K. destruct (O t K) as [all E]. apply nth_error_lt in E. lia.
    + intros [_ B]. destruct (in_dec Nat.eq_dec t order) as [|Hn]; auto. exfalso.
      destruct (nth_error (lk_senders s) t) as [sn|] eqn:E.
      2:{ apply nth_error_None in E. lia. }
      pose proof (Fin sn (nth_error_In _ _ E)) as Fs.
      destruct (lk_holder s) as [t0|] eqn:Hh.
      * destruct (Nat.eq_dec t0 t) as [->|D].
        -- destruct H as (_ & all & lft & E' & _). rewrite E in E'. injection E' as ->.
           discriminate.
        -- destruct (Ot t sn E Hn ltac:(congruence)). congruence.
      * destruct (Ot t sn E Hn ltac:(congruence)). congruence.
  - destruct (lk_holder s) as [t0|] eqn:Hh.
    + exfalso. destruct H as (_ & all & lft & E & _).
      specialize (Fin _ (nth_error_In _ _ E)). discriminate.
    + subst sent. now rewrite app_nil_r in Out.
Qed.

(* ---- C13 ---- *)

Lemma sched_fifo {A} (pending : list A) :
  sched_order pending (repeat 0%nat (length pending)) = pending.
Proof. induction pending; cbn; auto. now f_equal. Qed.

(* ---- C14 ---- *)

Definition outstanding (s : tick_state) : nat :=
  tk_sleeping s + tk_sending s + (if tk_trigger s then 1 else 0).

Definition tick_inv (s : tick_state) : Prop :=
  outstanding s = match tk_main s with InFunction => 0 | _ => 1 end%nat.

Lemma tick_step_inv s l s' : tick_inv s -> tick_step s l = Some s' -> tick_inv s'.
Proof.
  destruct s as [m sl sd tr st h e]. unfold tick_inv, outstanding. cbn.
  intros I St. destruct l.
  - destruct sl; [discriminate|]. injection St as <-. cbn. destruct m; lia.
  - destruct sd, tr; try discriminate. injection St as <-. cbn. destruct m; lia.
  - destruct m, tr; try discriminate. injection St as <-. cbn. lia.
  - destruct m; try discriminate. injection St as <-. cbn. lia.
  - destruct m, st; try discriminate. injection St as <-. cbn. lia.
  - destruct h, st; try discriminate. injection St as <-. cbn. destruct m; lia.
  - destruct h; try discriminate. injection St as <-. cbn. destruct m; lia.
Qed.

(* Keepalives still to come without a further timer expiration. *)
Definition armed (s : tick_state) : nat :=
  (match tk_main s with InFunction => 1 | Exited => 0 | AtSelect =>
     tk_sending s + (if tk_trigger s then 1 else 0) end)%nat.

Definition is_answered (h : handler_pc) : bool := match h with HAnswered => true | _ => false end.
Definition is_stopped (h : handler_pc) : bool := match h with HRunning => false | _ => true end.

Lemma late_app b e e' : late b (e ++ e') = (late b e + late (existsb (fun x => match x with EvResponse => true | _ => false end) e || b) e')%nat.
Proof.
  revert b; induction e as [|[] e IH]; intro b; cbn; auto.
  - rewrite IH. destruct b; cbn; auto.
  - rewrite IH. rewrite !orb_true_r. cbn. reflexivity.
Qed.

(* Bound on keepalives after stop, counted from any state. *)
Fixpoint kcount (e : list tick_event) : nat :=
  match e with [] => 0 | EvKeepalive :: r => S (kcount r) | EvResponse :: r => kcount r end.

Lemma kcount_app e e' : kcount (e ++ e') = (kcount e + kcount e')%nat.
Proof. induction e as [|[] e IH]; cbn; auto. Qed.

Lemma tick_bound : forall ls s s',
  tick_inv s -> is_stopped (tk_handler s) = true -> tick_run s ls = Some s' ->
  is_stopped (tk_handler s') = true /\ tick_inv s' /\
  (kcount (tk_trace s') + armed s' <= kcount (tk_trace s) + armed s + wakes_after_stop true ls)%nat.
Proof.
  induction ls as [|l ls IH]; intros s s' I H R; cbn [tick_run] in R.
  - injection R as <-. cbn. repeat split; auto. lia.
  - destruct (tick_step s l) as [s1|] eqn:E; [|discriminate].
    pose proof (tick_step_inv _ _ _ I E) as I1.
    assert (is_stopped (tk_handler s1) = true /\
      (kcount (tk_trace s1) + armed s1 <=
       kcount (tk_trace s) + armed s + if is_wake l then 1 else 0)%nat) as [H1 B1].
    { destruct s as [m sl sd tr st h e]. unfold tick_inv, outstanding, armed in *. cbn in *.
      destruct l; cbn in E.
      - destruct sl; [discriminate|]. injection E as <-. cbn in *. destruct m; split; auto; lia.
      - destruct sd, tr; try discriminate. injection E as <-. cbn in *. destruct m; split; auto; lia.
      - destruct m, tr; try discriminate. injection E as <-. cbn in *. split; auto; lia.
      - destruct m; try discriminate. injection E as <-. cbn in *. rewrite kcount_app. cbn.
        split; auto. destruct tr; lia.
      - destruct m, st; try discriminate. injection E as <-. cbn in *. split; auto. lia.
      - destruct h, st; try discriminate.
      - destruct h; try discriminate. injection E as <-. cbn in *. rewrite kcount_app. cbn.
        split; auto. destruct m; lia. }
    destruct (IH _ _ I1 H1 R) as (H2 & I2 & B2). repeat split; auto.
    destruct l; cbn [wakes_after_stop is_wake] in *; lia.
Qed.

(* Split a run at the moment the handler stops. *)
Lemma tick_before_stop : forall ls s s',
  tick_inv s -> tk_handler s = HRunning -> ~ In EvResponse (tk_trace s) ->
  tick_run s ls = Some s' ->
  (tk_handler s' = HRunning /\ ~ In EvResponse (tk_trace s')) \/
  exists s1 ls1 ls2, ls = ls1 ++ THandlerDone :: ls2 /\
    tick_inv s1 /\ tk_handler s1 = HStopped /\ ~ In EvResponse (tk_trace s1) /\
    tick_run s1 ls2 = Some s' /\ wakes_after_stop false ls = wakes_after_stop true ls2.
Proof.
  induction ls as [|l ls IH]; intros s s' I H N R; cbn [tick_run] in R.
  - injection R as <-. auto.
  - destruct (tick_step s l) as [s1|] eqn:E; [|discriminate].
    pose proof (tick_step_inv _ _ _ I E) as I1.
    destruct l; try (
      assert (tk_handler s1 = HRunning /\ ~ In EvResponse (tk_trace s1)) as [H1 N1] by
        (destruct s as [m sl sd tr st h e]; cbn in *; subst h;
         repeat (match type of E with context [match ?x with _ => _ end] => destruct x end; try discriminate);
         injection E as <-; cbn; rewrite ?in_app_iff; split; auto; intros [K|[K|[]]]; auto; discriminate);
      destruct (IH _ _ I1 H1 N1 R) as [K|(s2 & l1 & l2 & -> & K)]; auto;
      right; eexists s2, (_ :: l1), l2; split; [reflexivity|exact K]).
    + (* THandlerDone *)
      right. exists s1, [], ls.
      destruct s as [m sl sd tr st h e]. cbn in *. subst h.
      destruct st; try discriminate. injection E as <-. cbn in *. repeat split; auto.
    + (* TRespond *)
      destruct s as [m sl sd tr st h e]. cbn in *. subst h. discriminate.
Qed.

Lemma late_false e : ~ In EvResponse e -> late false e = 0%nat.
Proof.
  induction e as [|[] e IH]; cbn; auto; intro H; tauto.
Qed.

Lemma late_le_kcount b e : (late b e <= kcount e)%nat.
Proof.
  revert b; induction e as [|[] e IH]; intro b; cbn; auto.
  destruct b; [specialize (IH true) | specialize (IH false)]; lia.
Qed.

Lemma tick_trace_prefix : forall ls s s', tick_run s ls = Some s' ->
  exists e, tk_trace s' = tk_trace s ++ e.
Proof.
  induction ls as [|l ls IH]; intros s s' R; cbn [tick_run] in R.
  - injection R as <-. exists []. now rewrite app_nil_r.
  - destruct (tick_step s l) as [s1|] eqn:E; [|discriminate].
    destruct (IH _ _ R) as [e He].
    assert (exists e1, tk_trace s1 = tk_trace s ++ e1) as [e1 He1].
    { destruct s as [m sl sd tr st h tre]. destruct l; cbn in E;
        repeat (match type of E with context [match ?x with _ => _ end] => destruct x end; try discriminate);
        injection E as <-; cbn; eauto; exists []; now rewrite app_nil_r. }
    exists (e1 ++ e). now rewrite He, He1, app_assoc.
Qed.

Lemma late_keepalives ls s :
  tick_run tick_init ls = Some s ->
  (late false (tk_trace s) <= 1 + wakes_after_stop false ls)%nat.
Proof.
  intro R.
  destruct (tick_before_stop ls tick_init s) as [[_ N]|(s1 & l1 & l2 & -> & I & H & N & R2 & W)]; auto;
    try reflexivity.
  - rewrite late_false by auto. lia.
  - rewrite W.
    destruct (tick_bound l2 s1 s I ltac:(rewrite H; reflexivity) R2) as (_ & _ & B).
    destruct (tick_trace_prefix _ _ _ R2) as [e He].
    rewrite He, late_app, late_false by auto. rewrite He, kcount_app in B.
    assert (armed s1 <= 1)%nat as A.
    { unfold tick_inv, outstanding in I. unfold armed. destruct (tk_main s1); lia. }
    match goal with |- (0 + late ?b e <= _)%nat => pose proof (late_le_kcount b e) end. lia.
Qed.

(* Once the ticker goroutine has returned there are no further keepalives, and
   the one remaining waiter can always finish (no goroutine is leaked). *)
Lemma exited_silent : forall ls s s', tk_main s = Exited -> tick_run s ls = Some s' ->
  tk_main s' = Exited /\ kcount (tk_trace s') = kcount (tk_trace s).
Proof.
  induction ls as [|l ls IH]; intros s s' H R; cbn [tick_run] in R.
  - injection R as <-. auto.
  - destruct (tick_step s l) as [s1|] eqn:E; [|discriminate].
    assert (tk_main s1 = Exited /\ kcount (tk_trace s1) = kcount (tk_trace s)) as [H1 K1].
    { destruct s as [m sl sd tr st h e]. cbn in H. subst m.
      destruct l; cbn in E;
        repeat (match type of E with context [match ?x with _ => _ end] => destruct x end; try discriminate);
        try discriminate; injection E as <-; cbn; rewrite ?kcount_app; cbn; split; auto. }
    destruct (IH _ _ H1 R) as [H2 K2]. split; auto. congruence.
Qed.

Lemma tick_run_inv : forall ls s s', tick_inv s -> tick_run s ls = Some s' -> tick_inv s'.
Proof.
  induction ls as [|l ls IH]; intros s s' I R; cbn [tick_run] in R.
  - now injection R as <-.
  - destruct (tick_step s l) eqn:E; [|discriminate]. eauto using tick_step_inv.
Qed.

Lemma no_leak ls s : tick_run tick_init ls = Some s -> tk_main s = Exited ->
  exists ls' s', tick_run s ls' = Some s' /\ tk_sleeping s' = 0%nat /\ tk_sending s' = 0%nat.
Proof.
  intros R H. pose proof (tick_run_inv ls tick_init s eq_refl R) as I.
  unfold tick_inv, outstanding in I. rewrite H in I.
  destruct s as [m sl sd tr st h e]. cbn in *. subst m.
  destruct sl as [|[|sl]]; [| |lia].
  - destruct sd as [|[|sd]]; [| |lia].
    + exists [], (mk_tick Exited 0 0 tr st h e). auto.
    + destruct tr; [lia|]. exists [TSend], (mk_tick Exited 0 0 true st h e). auto.
  - destruct tr; [lia|]. assert (sd = 0)%nat as -> by lia.
    exists [TWake; TSend], (mk_tick Exited 0 0 true st h e). auto.
Qed.

(* Without timing assumptions the number of late keepalives is unbounded. *)
Lemma late_unbounded n : exists ls s,
  tick_run tick_init ls = Some s /\ late false (tk_trace s) = n.
Proof.
  exists (THandlerDone :: TRespond :: concat (repeat [TWake; TSend; TSelTrigger; TFunction] n)).
  cbn [tick_run tick_step tick_init].
  assert (forall n e, exists s,
    tick_run (mk_tick AtSelect 1 0 false true HAnswered e)
      (concat (repeat [TWake; TSend; TSelTrigger; TFunction] n)) = Some s /\
    tk_trace s = e ++ repeat EvKeepalive n) as G.
  { clear n. induction n as [|n IH]; intro e; cbn [repeat concat].
    - eexists. split; [reflexivity|]. cbn. now rewrite app_nil_r.
    - cbn [app tick_run tick_step]. destruct (IH (e ++ [EvKeepalive])) as (s & R & T).
      exists s. split; auto. rewrite T, <- app_assoc. reflexivity. }
  destruct (G n ([] ++ [EvResponse])) as (s & R & T). exists s. split; auto.
  rewrite T. cbn. clear. induction n; cbn; auto.
Qed.
