(* The Windows client and the Go server together: what a run of the pair is for the one and
   for the other. *)
From Verif Require Import P_WinMem Base M_Util M_Usb M_ReqBuf M_Usbip S_ReqBuf S_Usb S_Usbip S_UsbipSys P_ReqBuf P_Usb P_Usbip1 P_Usbip2 P_Usbip3 S_Device P_Device2 P_WinGo1
  M_WinFwd M_WinDrv S_WinFwd S_WinDrv P_WinFwd P_WinRun P_WinRep P_WinDrv P_WinDrv2 P_WinOnce P_WinAns P_WinAns2 P_WinAns3 S_WinGo P_WinGo2 M_WinPair S_WinPair.
From Verif Require M_Win.
From Coq Require Import Lia.
Open Scope N_scope.

(* ------------------------------------------------- more to read *)
Lemma read_full_more x : forall cs n b r, read_full n cs = Some (b, r) -> read_full n (cs ++ x) = Some (b, r ++ x).
Proof.
  induction cs as [|c cs IH]; intros n b r E; cbn [read_full app] in *.
  - destruct (N.eqb_spec n 0) as [->|]; [|discriminate]. injection E as <- <-. destruct x; reflexivity.
  - destruct (n =? 0); [now injection E as <- <-|]. destruct (n <? len c); [now injection E as <- <-|].
    destruct (read_full (n - len c) cs) as [[d r']|] eqn:R; [|discriminate]. cbn [obind] in E. injection E as <- <-.
    now rewrite (IH _ _ _ R).
Qed.

Lemma read_once_more x : forall cs n b r, read_once n cs = Some (b, r) -> read_once n (cs ++ x) = Some (b, r ++ x).
Proof.
  induction cs as [|c cs IH]; intros n b r E; cbn [read_once app] in *; [discriminate|].
  destruct c; [now apply IH|]. injection E as <- <-. destruct (_ <=? n); reflexivity.
Qed.

Lemma read_submit_more x h cs b d r : read_submit h cs = Some (b, d, r) -> read_submit h (cs ++ x) = Some (b, d, r ++ x).
Proof.
  unfold read_submit. destruct (read_full 28 cs) as [[y s1]|] eqn:R; [|discriminate]. cbn [obind].
  rewrite (read_full_more x _ _ _ _ R). cbn [obind]. destruct (_ && _); [|now intros [= <- <- <-]].
  destruct (read_once _ s1) as [[z s2]|] eqn:Q; [|discriminate]. cbn [obind]. rewrite (read_once_more x _ _ _ _ Q).
  cbn [obind]. now intros [= <- <- <-].
Qed.

Lemma util_read_more x n cs b r : util_read n cs = Some (b, r) -> util_read n (cs ++ x) = Some (b, r ++ x).
Proof.
  unfold util_read. destruct (read_once n cs) as [[z s2]|] eqn:Q; [|discriminate]. cbn [obind].
  rewrite (read_once_more x _ _ _ _ Q). cbn [obind]. now intros [= <- <-].
Qed.

Lemma conn_more x c c' a : conn_step [usb_device] c = (c', a) -> a <> ANone ->
  conn_step [usb_device] (mk_conn (cn_phase c) (cn_stream c ++ x)) = (mk_conn (cn_phase c') (cn_stream c' ++ x), a).
Proof.
  unfold conn_step. cbn [cn_phase cn_stream]. destruct (cn_phase c) as [| d |].
  - destruct (read_full 8 (cn_stream c)) as [[h s1]|] eqn:R; [|intros [= <- <-]; congruence].
    rewrite (read_full_more x _ _ _ _ R).
    destruct (_ =? 0x8005); [now intros [= <- <-]|]. destruct (_ =? 0x8003); [|intros [= <- <-]; congruence].
    destruct (util_read 32 s1) as [[z s2]|] eqn:Q; [|intros [= <- <-]; congruence].
    rewrite (util_read_more x _ _ _ _ Q). destruct (cstring z); [|intros [= <- <-]; congruence].
    destruct (get_device _ _ _) as [[i d]|]; now intros [= <- <-].
  - destruct (read_full 20 (cn_stream c)) as [[b s1]|] eqn:R; [|intros [= <- <-]; congruence].
    rewrite (read_full_more x _ _ _ _ R).
    destruct (_ =? 1).
    + destruct (read_submit _ s1) as [[[body buf] s2]|] eqn:Q; [|intros [= <- <-]; congruence].
      rewrite (read_submit_more x _ _ _ _ _ Q). now intros [= <- <-].
    + destruct (_ =? 2); [|intros [= <- <-]; congruence].
      destruct (read_full 28 s1) as [[u s2]|] eqn:Q; [|intros [= <- <-]; congruence].
      rewrite (read_full_more x _ _ _ _ Q). now intros [= <- <-].
  - intros [= <- <-]; congruence.
Qed.

Lemma sys_more x s l s' : (l = SRead -> can_read s = true) -> sys_step s l = Some s' ->
  sys_step (M_Win.feed s x) l = Some (M_Win.feed s' x).
Proof.
  intros G E. destruct l as [| |choice data|j|j]; cbn [sys_step] in E |- *.
  - specialize (G eq_refl). unfold can_read in G. cbn [M_Win.feed sy_pending sy_conn sy_in sy_subs sy_delegate sy_out sy_log].
    destruct (sy_pending s); [discriminate|].
    destruct (conn_step [usb_device] (sy_conn s)) as [c a] eqn:C. cbn [snd] in G.
    assert (a <> ANone) as An by (destruct a; [discriminate|discriminate..]).
    rewrite (conn_more x _ _ _ C An).
    destruct a as [|r|d h st b|d h t]; [congruence| | |].
    + injection E as <-. reflexivity.
    + destruct (hd_ep h =? 0); [destruct (handle_control_message _); injection E as <-; reflexivity|].
      destruct (hd_ep h =? 1).
      * destruct (in_step (sy_in s) _); [|discriminate]. cbn [obind] in E |- *. injection E as <-. reflexivity.
      * destruct (hd_ep h =? 2); injection E as <-; reflexivity.
    + destruct (in_step (sy_in s) _); [|discriminate]. cbn [obind] in E |- *. injection E as <-. reflexivity.
  - cbn [M_Win.feed sy_pending sy_conn sy_in sy_subs sy_delegate sy_out sy_log].
    destruct (sy_pending s); [|discriminate]. injection E as <-. reflexivity.
  - cbn [M_Win.feed sy_in]. destruct (in_step (sy_in s) _); [|discriminate]. cbn [obind] in E |- *. injection E as <-. reflexivity.
  - cbn [M_Win.feed sy_in sy_subs]. destruct (nth_error (in_flight (sy_in s)) j) as [f|]; [|discriminate]. cbn [obind] in E |- *.
    destruct (nth_error (sy_subs s) (fl_key f)) as [[h b]|]; [|discriminate]. cbn [obind] in E |- *.
    destruct (in_step (sy_in s) _); [|discriminate]. cbn [obind] in E |- *. injection E as <-. reflexivity.
  - cbn [M_Win.feed sy_in]. destruct (in_step (sy_in s) _); [|discriminate]. cbn [obind] in E |- *. injection E as <-. reflexivity.
Qed.

(* a run of the server in which nothing was read before it had come *)
Inductive waited : sys -> list sys_label -> sys -> Prop :=
| wt_nil s : waited s [] s
| wt_cons s l s1 ls s2 : (l = SRead -> can_read s = true) -> sys_step s l = Some s1 -> waited s1 ls s2 -> waited s (l :: ls) s2.

Lemma can_more x s : can_read s = true -> can_read (M_Win.feed s x) = true.
Proof.
  unfold can_read. destruct (conn_step [usb_device] (sy_conn s)) as [c a] eqn:C. cbn [snd]. intro G.
  cbn [M_Win.feed sy_conn]. rewrite (conn_more x _ _ _ C); [exact G|]. now destruct a.
Qed.

Lemma waited_more x s ls s' : waited s ls s' -> waited (M_Win.feed s x) ls (M_Win.feed s' x).
Proof.
  induction 1 as [|s l s1 ls s2 G E W IH]; [constructor|]. econstructor; [|apply sys_more; eassumption|exact IH].
  intro L. apply can_more. auto.
Qed.

Lemma waited_snoc s ls s1 l s2 : waited s ls s1 -> (l = SRead -> can_read s1 = true) -> sys_step s1 l = Some s2 -> waited s (ls ++ [l]) s2.
Proof.
  induction 1 as [|s m t ls u G E W IH]; intros Gl El; cbn [app].
  - econstructor; [exact Gl|exact El|constructor].
  - econstructor; [exact G|exact E|]. now apply IH.
Qed.

Lemma waited_run s ls s' : waited s ls s' -> sys_run s ls = Some s'.
Proof. induction 1 as [|s l s1 ls s2 G E W IH]; [reflexivity|]. cbn [sys_run]. rewrite E. exact IH. Qed.

Lemma waited_log s ls s' : waited s ls s' -> exists n,
  (sy_conn s', snd (conn_run [usb_device] n (sy_conn s))) = conn_run [usb_device] n (sy_conn s) /\
  sy_log s' = sy_log s ++ snd (conn_run [usb_device] n (sy_conn s)) /\
  Forall (fun a => a <> ANone) (snd (conn_run [usb_device] n (sy_conn s))).
Proof.
  induction 1 as [|s l s1 ls s2 G E W (n & N1 & N2 & N3)].
  - exists 0%nat. cbn. rewrite app_nil_r. auto.
  - destruct (step_conn _ _ _ E) as [[C L]|(a & C & L)].
    + exists n. rewrite <- C, <- L. auto.
    + exists (S n). cbn [conn_run]. rewrite C. destruct (conn_run [usb_device] n (sy_conn s1)) as [c2 l2] eqn:R. cbn [snd] in *.
      injection N1 as ->. split; [reflexivity|]. split; [rewrite N2, L, <- app_assoc; reflexivity|]. constructor; [|exact N3].
      destruct l; cbn [sys_step] in E.
      * specialize (G eq_refl). unfold can_read in G. rewrite C in G. cbn [snd] in G. now destruct a.
      * exfalso. destruct (sy_pending s); [|discriminate]. injection E as <-. cbn [sy_log] in L.
        apply (f_equal (@length _)) in L. rewrite app_length in L. cbn [length] in L. lia.
      * exfalso. destruct (in_step _ _); [|discriminate]. injection E as <-. cbn [sy_log] in L.
        apply (f_equal (@length _)) in L. rewrite app_length in L. cbn [length] in L. lia.
      * exfalso. destruct (nth_error _ _); [|discriminate]. cbn [obind] in E. destruct (nth_error _ _) as [[h b]|]; [|discriminate]. cbn [obind] in E.
        destruct (in_step _ _); [|discriminate]. injection E as <-. cbn [sy_log] in L.
        apply (f_equal (@length _)) in L. rewrite app_length in L. cbn [length] in L. lia.
      * exfalso. destruct (in_step _ _); [|discriminate]. injection E as <-. cbn [sy_log] in L.
        apply (f_equal (@length _)) in L. rewrite app_length in L. cbn [length] in L. lia.
Qed.

(* ------------------------------------------------- what grows *)
Lemma sys_out_grows s l s' : sys_step s l = Some s' -> prefix (concat (sy_out s)) (concat (sy_out s')) /\ exists x, sy_out s' = sy_out s ++ x.
Proof.
  intro E. assert (exists x, sy_out s' = sy_out s ++ x) as (x & X).
  { destruct l as [| |choice data|j|j]; cbn [sys_step] in E.
    - destruct (sy_pending s); [discriminate|]. destruct (conn_step [usb_device] (sy_conn s)) as [c a].
      destruct a as [|r|d h st b|d h t].
      + injection E as <-. exists []. now rewrite app_nil_r.
      + injection E as <-. exists []. now rewrite app_nil_r.
      + destruct (hd_ep h =? 0); [destruct (handle_control_message _); injection E as <-; exists []; now rewrite app_nil_r|].
        destruct (hd_ep h =? 1).
        * destruct (in_step (sy_in s) _); [|discriminate]. cbn [obind] in E. injection E as <-. eexists. reflexivity.
        * destruct (hd_ep h =? 2); injection E as <-; exists []; now rewrite app_nil_r.
      + destruct (in_step (sy_in s) _); [|discriminate]. cbn [obind] in E. injection E as <-. exists []. now rewrite app_nil_r.
    - destruct (sy_pending s); [|discriminate]. injection E as <-. eexists. reflexivity.
    - destruct (in_step (sy_in s) _); [|discriminate]. cbn [obind] in E. injection E as <-. exists []. now rewrite app_nil_r.
    - destruct (nth_error (in_flight (sy_in s)) j) as [f|]; [|discriminate]. cbn [obind] in E.
      destruct (nth_error (sy_subs s) (fl_key f)) as [[h b]|]; [|discriminate]. cbn [obind] in E.
      destruct (in_step (sy_in s) _); [|discriminate]. cbn [obind] in E. injection E as <-. eexists. reflexivity.
    - destruct (in_step (sy_in s) _); [|discriminate]. cbn [obind] in E. injection E as <-. exists []. now rewrite app_nil_r. }
  rewrite X, concat_app. split; [eexists; reflexivity|eauto].
Qed.

Definition got (w : win) : bytes := pi_in (fw_rep (wi_fwd w)).
Definition sent (w : win) : bytes := concat (pi_out (fw_req (wi_fwd w))).

Lemma fwd_grows f l g : fwd_step f l = Some (Ok g) ->
  prefix (concat (pi_out (fw_req f))) (concat (pi_out (fw_req g))) /\
  pi_in (fw_rep g) = pi_in (fw_rep f) ++ match l with ReadDone false b => b | _ => [] end.
Proof.
  intro E. destruct l as [|[|] data|[|] n]; cbn [fwd_step] in E.
  - injection E as E. destruct (iterate_parts _ _ E) as (c1 & T & T' & _).
    pose proof (turn_out _ _ _ _ T) as To. pose proof (turn_ends _ _ _ _ T') as (Ei & _).
    rewrite To, Ei, app_nil_r. split; [exists []; now rewrite app_nil_r|reflexivity].
  - destruct (fw_waiting f); [|discriminate]. cbn [pipe_of] in E.
    destruct (read_done (fw_req f) data) as [q|] eqn:D; [|discriminate]. cbn [obind] in E. injection E as <-.
    cbn [with_pipe fw_req fw_rep]. rewrite app_nil_r. split; [|reflexivity].
    unfold read_done in D. destruct (pi_reading _); [|discriminate]. destruct (_ || _); [discriminate|].
    injection D as <-. exists []. now rewrite app_nil_r.
  - destruct (fw_waiting f); [|discriminate]. cbn [pipe_of] in E.
    destruct (read_done (fw_rep f) data) as [q|] eqn:D; [|discriminate]. cbn [obind] in E. injection E as <-.
    cbn [with_pipe fw_req fw_rep]. split; [exists []; now rewrite app_nil_r|].
    unfold read_done in D. destruct (pi_reading _); [|discriminate]. destruct (_ || _); [discriminate|].
    injection D as <-. reflexivity.
  - destruct (fw_waiting f); [|discriminate]. cbn [pipe_of] in E.
    destruct (write_done (fw_req f) n) as [q|] eqn:D; [|discriminate]. cbn [obind] in E. injection E as <-.
    cbn [with_pipe fw_req fw_rep]. rewrite app_nil_r. split; [|reflexivity].
    unfold write_done in D. destruct (pi_writing _); [|discriminate]. destruct (_ || _); [discriminate|].
    injection D as <-. cbn [pi_out]. rewrite concat_app. eexists. reflexivity.
  - destruct (fw_waiting f); [|discriminate]. cbn [pipe_of] in E.
    destruct (write_done (fw_rep f) n) as [q|] eqn:D; [|discriminate]. cbn [obind] in E. injection E as <-.
    cbn [with_pipe fw_req fw_rep]. rewrite app_nil_r. split; [exists []; now rewrite app_nil_r|].
    unfold write_done in D. destruct (pi_writing _); [|discriminate]. destruct (_ || _); [discriminate|].
    injection D as <-. reflexivity.
Qed.

Lemma win_grows w l v : win_step w l = Some (Ok v) ->
  prefix (sent w) (sent v) /\ got v = got w ++ match l with WGot b => b | _ => [] end.
Proof.
  intro E. unfold sent, got.
  assert (forall fl d r e, fwd_does w fl d r e = Some (Ok v) -> fwd_step (wi_fwd w) fl = Some (Ok (wi_fwd v))) as Fd.
  { intros fl d r e F. unfold fwd_does in F. destruct (fwd_step (wi_fwd w) fl) as [[g|]|]; try discriminate.
    cbn [obind rbind] in F. injection F as <-. reflexivity. }
  assert (forall x : bytes, prefix x x) as Pr by (intro x; exists []; now rewrite app_nil_r).
  destruct l as [id u|id|a|junk| | |data|k]; cbn [win_step] in E.
  - destruct (submit_block _ _ _) as [d b]. injection E as <-. cbn [wi_fwd]. rewrite app_nil_r. auto.
  - destruct (cancel_block _ _) as [[d b]|]; [|discriminate]. cbn [obind] in E. injection E as <-. cbn [wi_fwd]. rewrite app_nil_r. auto.
  - injection E as <-. cbn [wi_fwd]. rewrite app_nil_r. auto.
  - destruct (wi_ended w); [discriminate|]. destruct (_ && _); [discriminate|].
    destruct (fwd_step (wi_fwd w) Iterate) as [[g|]|] eqn:F; cbn [obind rbind] in E; try discriminate. injection E as E.
    destruct (match starts _ _ with Some n => _ | None => _ end) as [[d1 rr]|]; cbn [rbind] in E; [|discriminate].
    destruct (match starts (pi_writing _) _ with Some b => _ | None => _ end) as [d2|]; cbn [rbind] in E; [|discriminate].
    injection E as <-. cbn [wi_fwd]. exact (fwd_grows _ _ _ F).
  - destruct (wi_ended w); [discriminate|]. destruct (wi_ready w); [|discriminate]. cbn [obind] in E. apply Fd in E. exact (fwd_grows _ _ _ E).
  - destruct (wi_ended w); [discriminate|]. destruct (pi_writing _); [|discriminate]. cbn [obind] in E. apply Fd in E. exact (fwd_grows _ _ _ E).
  - destruct (wi_ended w); [discriminate|]. destruct (pi_writing _); [discriminate|]. apply Fd in E. exact (fwd_grows _ _ _ E).
  - destruct (wi_ended w); [discriminate|]. apply Fd in E. exact (fwd_grows _ _ _ E).
Qed.

Lemma begins_prefix p : forall s, begins p s = true <-> prefix p s.
Proof.
  induction p as [|x p IH]; intro s; cbn [begins]; [split; [intros _; exists s; reflexivity|reflexivity]|].
  destruct s as [|y s]; [split; [discriminate|intros (t & T); discriminate]|].
  rewrite andb_true_iff, N.eqb_eq, IH. split.
  - intros (-> & t & T). exists t. cbn [app]. now rewrite <- T.
  - intros (t & T). injection T as -> ->. split; [reflexivity|]. exists t. reflexivity.
Qed.

(* ------------------------------------------------- a run of the pair *)
Definition serves (ls : list pair_label) : list sys_label :=
  flat_map (fun l => match l with PSys l => [l] | _ => [] end) ls.

Lemma pair_run_snoc p ls l q : pair_run p (ls ++ [l]) = Some (Ok q) ->
  exists r, pair_run p ls = Some (Ok r) /\ pair_step r l = Some (Ok q).
Proof.
  revert p. induction ls as [|m ls IH]; intros p H.
  - exists p. split; [reflexivity|]. cbn [pair_run app] in H. destruct (pair_step p l) as [[x|]|]; congruence.
  - cbn [app pair_run] in *. destruct (pair_step p m) as [[x|]|]; try discriminate. now apply IH.
Qed.

Lemma pair_run_app p a b q : pair_run p (a ++ b) = Some (Ok q) -> exists r, pair_run p a = Some (Ok r) /\ pair_run r b = Some (Ok q).
Proof.
  revert p. induction a as [|m a IH]; intros p H; [exists p; auto|].
  cbn [app pair_run] in *. destruct (pair_step p m) as [[x|]|]; try discriminate. now apply IH.
Qed.

Lemma win_run_add w ls u l v : win_run w ls = Some (Ok u) -> win_step u l = Some (Ok v) -> win_run w (ls ++ [l]) = Some (Ok v).
Proof.
  revert w. induction ls as [|m ls IH]; intros w R E; cbn [win_run app] in *.
  - injection R as ->. now rewrite E.
  - destruct (win_step w m) as [[x|]|]; try discriminate. now apply IH.
Qed.

Definition pair_inv (devid : N) (start : list bytes) (ls : list pair_label) (p : pair) : Prop :=
  win_run (win0 devid) (wins ls) = Some (Ok (pr_win p)) /\
  waited (sys_init (start ++ pr_carried p)) (serves ls) (pr_sys p) /\
  prefix (concat (pr_carried p)) (sent (pr_win p)) /\
  (got (pr_win p) = [] \/ comes_back (sy_out (pr_sys p)) (got (pr_win p))).

Lemma prefix_trans (a b c : bytes) : prefix a b -> prefix b c -> prefix a c.
Proof. intros (x & ->) (y & ->). exists (x ++ y). now rewrite app_assoc. Qed.

Theorem pair_parts devid start ls : forall p, pair_run (pair0 devid start) ls = Some (Ok p) -> pair_inv devid start ls p.
Proof.
  induction ls as [|l ls IH] using rev_ind; intros p R.
  - injection R as <-. split; [reflexivity|]. cbn [pair0 pr_win pr_sys pr_carried]. rewrite app_nil_r.
    split; [constructor|]. split; [eexists; reflexivity|now left].
  - destruct (pair_run_snoc _ _ _ _ R) as (q & Rq & E). destruct (IH q Rq) as (I1 & I2 & I3 & I4).
    unfold pair_inv, wins, serves in *. rewrite !flat_map_app. cbn [flat_map].
    destruct l as [l|l|n]; cbn [pair_step] in E.
    + destruct (match l with WGot b => _ | _ => _ end) eqn:G; [|discriminate].
      destruct (win_step (pr_win q) l) as [[w|]|] eqn:W; cbn [obind rbind] in E; try discriminate. injection E as <-.
      cbn [pr_win pr_sys pr_carried app]. rewrite app_nil_r. destruct (win_grows _ _ _ W) as (Gs & Gg).
      split; [eapply win_run_add; eauto|]. split; [exact I2|]. split; [eapply prefix_trans; eauto|]. rewrite Gg.
      destruct l; try (rewrite app_nil_r; exact I4). right. unfold may_get in G. apply begins_prefix in G. exact G.
    + destruct (match l with SRead => _ | _ => _ end) eqn:G; [|discriminate].
      destruct (sys_step (pr_sys q) l) as [s|] eqn:S; cbn [obind] in E; [|discriminate]. injection E as <-.
      cbn [pr_win pr_sys pr_carried app]. rewrite app_nil_r. split; [exact I1|].
      split; [eapply waited_snoc; [exact I2|intros ->; exact G|exact S]|]. split; [exact I3|].
      destruct I4 as [I4|I4]; [now left|right]. eapply prefix_trans; [exact I4|]. now apply sys_out_grows in S.
    + destruct ((0 <? n) && _) eqn:G; [|discriminate]. injection E as <-. cbn [pr_win pr_sys pr_carried app].
      rewrite !app_nil_r. split; [exact I1|]. split; [|split; [|exact I4]].
      * apply (waited_more [takeN n (dropN (len (concat (pr_carried q))) (concat (pi_out (fw_req (wi_fwd (pr_win q))))))]) in I2.
        rewrite app_assoc. exact I2.
      * apply andb_true_iff in G. destruct G as (_ & G). apply N.leb_le in G.
        destruct I3 as (t & I3). unfold sent in *. rewrite I3 in *. rewrite concat_app. cbn [concat]. rewrite app_nil_r.
        rewrite (dropN_exact _ t) by reflexivity. exists (dropN n t). now rewrite <- app_assoc, takeN_dropN.
Qed.
