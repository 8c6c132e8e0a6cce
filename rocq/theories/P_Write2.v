(* The control phase, several connections, and what holds in every run. *)
From Verif Require Import Base M_Util M_Usb M_ReqBuf M_Usbip M_Write S_Write P_ReqBuf P_Usbip3 P_Write1.

Definition rw (l : sys_label) : Prop := l = SRead \/ l = SWrite.
Lemma rw_quiet ls : Forall rw ls -> produced ls = [].
Proof. induction 1 as [|l r [-> | ->] _ IH]; auto. Qed.

(* ---- before the import reply has been written: nothing but this connection has changed *)
Definition ctl (n : net) : Prop := exists old L ls out c pend,
  ne_links n = old ++ [L] /\ ne_subs n = [] /\ ne_calls n = [] /\ ne_timers n = [] /\ rb_waiting (ne_buf n) = [] /\
  ne_next n = 0%nat /\ ne_delegate n = [] /\ Forall rw ls /\
  (forall i sb dl lg, exists lg', sys_run (mk_sys (mk_conn Control (lk_input L)) i sb None dl [] lg) ls = Some (mk_sys c i sb pend dl out lg')) /\
  match ne_job n with
  | Some j => jb_inner j = false /\ jb_request j = None /\ lk_locked L = jb_writing j /\ c = ne_conn n /\
              pend = Some (jb_frame j) /\ lk_sent L = concat out
  | None => if lk_locked L then cn_phase (ne_conn n) = Closed /\ cut (lk_sent L) out
            else pend = None /\ c = ne_conn n /\ lk_sent L = concat out /\ forall d, cn_phase (ne_conn n) <> Commands d
  end.

Lemma ctl_init old s b : rb_waiting b = [] -> ctl (mk_net (old ++ [mk_link s false []]) (mk_conn Control s) None b 0 [] [] [] []).
Proof.
  intro W. exists old, (mk_link s false []), [], [], (mk_conn Control s), None. cbn. repeat split; auto.
  - intros. eexists. reflexivity.
  - intros d. discriminate.
Qed.

Lemma conn_step_control devices st : match snd (conn_step devices (mk_conn Control st)) with
  | ANone => forall d, cn_phase (fst (conn_step devices (mk_conn Control st))) <> Commands d
  | AWrite _ => True | _ => False end.
Proof.
  unfold conn_step. cbn [cn_phase cn_stream].
  destruct (read_full 8 st) as [[h s1]|]; [|cbn; discriminate].
  destruct (_ =? 0x8005); [exact I|]. destruct (_ =? 0x8003); [|cbn; discriminate].
  destruct (util_read 32 s1) as [[d s2]|]; [|cbn; discriminate].
  destruct (cstring d); [|cbn; discriminate]. destruct (get_device devices a 0) as [[i dv]|]; exact I.
Qed.

Lemma rw_snoc ls l : Forall rw ls -> rw l -> Forall rw (ls ++ [l]).
Proof. intros. apply Forall_app. auto. Qed.

Lemma run_snoc s ls l s1 : sys_run s ls = Some s1 -> sys_run s (ls ++ [l]) = sys_step s1 l.
Proof. intro H. rewrite sys_run_app, H. cbn. destruct (sys_step s1 l); reflexivity. Qed.

(* the state of M_Usbip the connection can be said to be in once it has been imported *)
Definition imports (n' : net) (input : stream) (buf : reqbuf) : Prop := exists ls, Forall rw ls /\
  forall tr lg, exists s', sys_run (mk_sys (mk_conn Control input) (mk_in buf [] [] 0 tr) [] None [] [] lg) ls = Some s' /\ com n' s' false.

Definition done_link (L : link) : Prop := exists ls s,
  Forall rw ls /\ sys_run (sys_init (lk_input L)) ls = Some s /\ cut (lk_sent L) (sy_out s).

Lemma ctl_done n old L : ctl n -> ne_links n = old ++ [L] -> ne_job n = None -> done_link L.
Proof.
  intros (old' & L' & ls & out & c & pend & HL & _ & _ & _ & _ & _ & _ & HR & Run & HJ) E J.
  rewrite E in HL. apply app_inj_tail in HL as [<- <-]. rewrite J in HJ.
  destruct (Run in_init [] [] []) as [lg' R]. exists ls. eexists. split; auto. split; [exact R|]. cbn.
  destruct (lk_locked L); [apply HJ|]. destruct HJ as (_ & _ & -> & _). apply cut_concat.
Qed.

Lemma ctl_step n l n' : ctl n -> net_step n l = Some (NUp n') ->
  (ctl n' /\ links_kept n n' /\ rb_responses (ne_buf n') = rb_responses (ne_buf n) ++ net_produced [l]) \/
  (exists s, l = NAccept s /\ ctl n' /\ ne_links n' = ne_links n ++ [mk_link s false []] /\ ne_job n = None /\ ne_buf n' = ne_buf n /\
     cn_phase (ne_conn n) = Closed) \/
  (l = NDone /\ links_kept n n' /\ ne_buf n' = ne_buf n /\ ne_delegate n' = [] /\
   forall old L, ne_links n = old ++ [L] -> imports n' (lk_input L) (ne_buf n)).
Proof.
  intros (old & L & ls & out & c & pend & HL & HS & HC & HT & HB & HX & HD & HR & Run & HJ) H.
  destruct l as [| | |k|i|i|i k|ch d|i|s]; cbn [net_step] in H.
  - (* NRead *)
    left. destruct (ne_job n) eqn:Ej; [discriminate|]. 
    assert (links_kept n n' /\ ne_buf n' = ne_buf n -> links_kept n n' /\ rb_responses (ne_buf n') = rb_responses (ne_buf n) ++ net_produced [NRead]) as Q.
    { intros [A B]. split; auto. cbn. now rewrite app_nil_r, B. }
    destruct (ne_conn n) as [ph st] eqn:Ec. destruct ph as [|d|].
    + (* Control *)
      destruct (lk_locked L) eqn:El; [destruct HJ as [HJ _]; discriminate|].
      destruct HJ as (-> & -> & HE & HP). cbn [cn_phase] in H.
      pose proof (conn_step_control [usb_device] st) as Cs.
      destruct (conn_step [usb_device] (mk_conn Control st)) as [c' a] eqn:Es. cbn [fst snd] in Cs.
      destruct a as [|r| |]; try contradiction; injection H as <-.
      * split.
        { exists old, L, (ls ++ [SRead]), out, c', None. cbn. repeat split; auto; [now apply rw_snoc; [|left]| |].
          - intros i sb dl lg. destruct (Run i sb dl lg) as [lg' R]. eexists. rewrite (run_snoc _ _ _ _ R). cbn [sys_step sy_pending sy_conn].
            rewrite Es. reflexivity.
          - rewrite El. cbn. now rewrite Ej. }
        apply Q. split; auto. exists old, L, L. auto.
      * split.
        { exists old, L, (ls ++ [SRead]), out, c', (Some r). cbn. repeat split; auto; [now apply rw_snoc; [|left]|].
          intros i sb dl lg. destruct (Run i sb dl lg) as [lg' R]. eexists. rewrite (run_snoc _ _ _ _ R). cbn [sys_step sy_pending sy_conn].
          rewrite Es. reflexivity. }
        apply Q. split; auto. exists old, L, L. auto.
    + destruct (lk_locked L); [destruct HJ as [HJ _]; discriminate|]. destruct HJ as (_ & _ & _ & HP). cbn in HP. now specialize (HP d).
    + cbn [cn_phase conn_step] in H. injection H as <-. split.
      { exists old, L, ls, out, c, pend. cbn. rewrite Ej. rewrite HL. repeat split; auto. }
      apply Q. split; auto. exists old, L, L. auto.
  - (* NLock *)
    left. destruct (ne_job n) as [[fr inn rq wr]|] eqn:Ej; [|discriminate]. cbn [obind jb_writing jb_frame jb_inner jb_request] in *.
    destruct wr; [discriminate|]. unfold is_free in H. rewrite (current_last _ _ _ HL), HL, nth_last in H.
    destruct (lk_locked L) eqn:El; [discriminate|]. cbn [andb negb] in H. injection H as <-. split.
    + exists old, (mk_link (lk_input L) true (lk_sent L)), ls, out, c, pend. split; [exact (lock_links n old L HL)|]. cbn.
      repeat split; auto; apply HJ.
    + split; [|cbn; now rewrite app_nil_r]. exists old, L. eexists. split; auto. split; [exact (lock_links n old L HL)|reflexivity].
  - (* NDone *)
    destruct (ne_job n) as [[fr inn rq wr]|] eqn:Ej; [|discriminate]. cbn [obind jb_writing jb_frame jb_inner jb_request] in *.
    destruct wr; [|discriminate]. injection H as <-. destruct HJ as (-> & -> & El & -> & -> & HE).
    assert (forall i sb dl lg, exists lg', sys_run (mk_sys (mk_conn Control (lk_input L)) i sb None dl [] lg) (ls ++ [SWrite]) =
      Some (mk_sys (ne_conn n) i sb None dl (out ++ [fr]) lg')) as Run'.
    { intros i sb dl lg. destruct (Run i sb dl lg) as [lg' R]. exists lg'. rewrite (run_snoc _ _ _ _ R). reflexivity. }
    assert (links_kept n (with_timers (with_job (unlock (current n) (wrote (current n) fr n)) None) (ne_timers n ++ opt_list None))) as LK.
    { exists old, L. eexists. split; auto. rewrite (current_last _ _ _ HL). split; [exact (done_links n old L _ HL)|reflexivity]. }
    destruct (cn_phase (ne_conn n)) as [|d|] eqn:Ep.
    + left. split; [|split; [exact LK|cbn; now rewrite app_nil_r]].
      exists old, (mk_link (lk_input L) false (lk_sent L ++ fr)), (ls ++ [SWrite]), (out ++ [fr]), (ne_conn n), None.
      rewrite (current_last _ _ _ HL). split; [exact (done_links n old L _ HL)|]. cbn. rewrite HT, HE. repeat split; auto.
      * now apply rw_snoc; [|right].
      * now rewrite concat_snoc.
      * intros d. rewrite Ep. discriminate.
    + right. right. split; auto. split; [exact LK|]. split; auto. split; [exact HD|]. intros old' L' E'. rewrite HL in E'. apply app_inj_tail in E' as [<- <-].
      exists (ls ++ [SWrite]). split; [now apply rw_snoc; [|right]|]. intros tr lg.
      destruct (Run' (mk_in (ne_buf n) [] [] 0 tr) [] [] lg) as [lg' R]. eexists. split; [exact R|].
      exists old, (mk_link (lk_input L) false (lk_sent L ++ fr)).
      rewrite (current_last _ _ _ HL). split; [exact (done_links n old L _ HL)|]. cbn. rewrite HS, HC, HT, HX.
      split; auto. split; [eauto|]. split; auto. split; [constructor|]. split; auto. split; auto.
      split; [unfold keys_ok; cbn; rewrite HB; repeat split; auto|].
      split; [unfold reader_rel; cbn; rewrite ?HS, ?HX; auto 10|].
      rewrite HE, concat_snoc. split; auto.
    + left. split; [|split; [exact LK|cbn; now rewrite app_nil_r]].
      exists old, (mk_link (lk_input L) false (lk_sent L ++ fr)), (ls ++ [SWrite]), (out ++ [fr]), (ne_conn n), None.
      rewrite (current_last _ _ _ HL). split; [exact (done_links n old L _ HL)|]. cbn. rewrite HT, HE. repeat split; auto.
      * now apply rw_snoc; [|right].
      * now rewrite concat_snoc.
      * intros d. rewrite Ep. discriminate.
  - (* NFail *)
    left. destruct (ne_job n) as [[fr inn rq wr]|] eqn:Ej; [|discriminate]. cbn [obind jb_writing jb_frame jb_inner jb_request] in *.
    destruct HJ as (-> & -> & El & -> & -> & HE).
    destruct wr; [|discriminate]. destruct (can_fail k fr); [|discriminate]. cbn [andb] in H. injection H as <-. split.
    + exists old, (mk_link (lk_input L) (lk_locked L) (lk_sent L ++ takeN k fr)), (ls ++ [SWrite]), (out ++ [fr]), (ne_conn n), None.
      rewrite (current_last _ _ _ HL). split; [exact (wrote_links n old L _ HL)|]. cbn. rewrite El. repeat split; auto.
      * now apply rw_snoc; [|right].
      * intros i sb dl lg. destruct (Run i sb dl lg) as [lg' R]. eexists. rewrite (run_snoc _ _ _ _ R). reflexivity.
      * rewrite HE. apply cut_fail.
    + split; [|cbn; now rewrite app_nil_r]. exists old, L. eexists. split; auto. rewrite (current_last _ _ _ HL).
      split; [exact (wrote_links n old L _ HL)|reflexivity].
  - rewrite HC in H. destruct i; discriminate.
  - rewrite HC in H. destruct i; discriminate.
  - rewrite HC in H. destruct i; discriminate.
  - (* NRespond *)
    left. destruct (buf_free n); [|discriminate]. unfold rb_respond in H. rewrite HB in H. cbn [obind] in H. injection H as <-. split.
    + exists old, L, ls, out, c, pend. cbn. rewrite app_nil_r. repeat split; auto.
    + split; [exists old, L, L; auto|]. reflexivity.
  - rewrite HT in H. destruct (buf_free n); [|discriminate]. destruct i; discriminate.
  - (* NAccept *)
    right. left. exists s. split; auto. destruct (cn_phase (ne_conn n)) eqn:Ep; try discriminate.
    destruct (ne_job n) eqn:Ej; [discriminate|]. injection H as <-. split; [|auto].
    pose proof (ctl_init (ne_links n) s (ne_buf n) HB) as Ci. 
    unfold with_conn, with_links. cbn. rewrite HS, HC, HT, HX, HD, Ej. exact Ci.
Qed.

(* ---- every run *)
Definition good_net (ls : list net_label) (n : net) : Prop := exists old L, ne_links n = old ++ [L] /\ Forall done_link old /\
  ((ctl n /\ rb_responses (ne_buf n) = net_produced ls) \/
   exists ls' s bad, sys_run (sys_init (lk_input L)) ls' = Some s /\ com n s bad /\ produced ls' = net_produced ls).

Lemma net_produced_app a b : net_produced (a ++ b) = net_produced a ++ net_produced b.
Proof. apply flat_map_app. Qed.
Lemma produced_app a b : produced (a ++ b) = produced a ++ produced b.
Proof. apply flat_map_app. Qed.

Lemma good_init s : good_net [] (net_init s).
Proof.
  exists [], (mk_link s false []). split; auto. split; auto. left. split; auto. now apply (ctl_init [] s make_request_buffer).
Qed.

Lemma links_same {A} (o o' : list A) x y : o ++ [x] = o' ++ [y] -> o = o' /\ x = y.
Proof. apply app_inj_tail. Qed.

(* packets for which there is no transfer yet wait in the buffer *)
Lemma buffered input rs : exists tr, sys_run (sys_init input) (map (SRespond 0) rs) =
  Some (mk_sys (mk_conn Control input) (mk_in (mk_reqbuf [] rs) [] [] 0 tr) [] None [] [] []).
Proof.
  induction rs as [|r rs IH] using rev_ind; [exists []; reflexivity|]. destruct IH as [tr R].
  rewrite map_app. cbn [map]. rewrite (run_snoc _ _ _ _ R). eexists. reflexivity.
Qed.
Lemma produced_responds rs : produced (map (SRespond 0) rs) = rs.
Proof. induction rs as [|r rs IH]; [reflexivity|]. cbn. f_equal. exact IH. Qed.

Lemma good_step ls n l n' : good_net ls n -> net_step n l = Some (NUp n') -> good_net (ls ++ [l]) n'.
Proof.
  intros (old & L & HL & HO & [[C P]|(ls' & s & bad & R & C & P)]) H.
  - destruct (ctl_step n l n' C H) as [(C' & (o & L1 & L2 & E1 & E2 & E3) & P')|[(st & -> & C' & El & J & B & _)|(-> & (o & L1 & L2 & E1 & E2 & E3) & B & _ & Im)]].
    + rewrite HL in E1. apply links_same in E1 as [<- <-]. exists old, L2. split; auto. split; auto. left. split; auto.
      rewrite P', P, net_produced_app. reflexivity.
    + exists (ne_links n), (mk_link st false []). split; auto. split.
      * rewrite HL. apply Forall_app. split; auto. constructor; auto. now apply (ctl_done n old L).
      * left. split; auto. rewrite B, P, net_produced_app. cbn. now rewrite app_nil_r.
    + rewrite HL in E1. apply links_same in E1 as [<- <-]. exists old, L2. split; auto. split; auto. right.
      specialize (Im _ _ HL) as (ls2 & Rw & F). destruct (buffered (lk_input L) (net_produced ls)) as [tr R].
      assert (ne_buf n = mk_reqbuf [] (net_produced ls)) as Eb.
      { destruct C as (? & ? & ? & ? & ? & ? & _ & _ & _ & _ & W & _). destruct (ne_buf n). cbn in *. congruence. }
      rewrite Eb in F. destruct (F tr []) as (s' & R' & Cm).
      exists (map (SRespond 0) (net_produced ls) ++ ls2), s', false. split; [rewrite E3, sys_run_app, R; exact R'|].
      split; auto. rewrite produced_app, produced_responds, (rw_quiet _ Rw), net_produced_app. reflexivity.
  - destruct (com_step n s bad l n' C H) as (ls2 & s' & R' & C' & D & (o & L1 & L2 & E1 & E2 & E3)).
    rewrite HL in E1. apply links_same in E1 as [<- <-]. exists old, L2. split; auto. split; auto. right.
    exists (ls' ++ ls2), s', (bad || is_fail l). split; [rewrite E3, sys_run_app, R; exact R'|]. split; auto.
    rewrite produced_app, net_produced_app, P, D. reflexivity.
Qed.

Lemma net_run_snoc ls : forall n l, net_run n (ls ++ [l]) =
  match net_run n ls with Some (NUp n1) => net_step n1 l | _ => None end.
Proof.
  induction ls as [|x r IH]; intros n l; cbn.
  - destruct (net_step n l) as [[]|]; reflexivity.
  - destruct (net_step n x) as [[n1|g]|]; cbn; [apply IH| |reflexivity].
    destruct (r ++ [l]) eqn:E; [destruct r; discriminate|]. destruct r; reflexivity.
Qed.
Lemma net_run_app a : forall n b n1, net_run n a = Some (NUp n1) -> net_run n (a ++ b) = net_run n1 b.
Proof.
  induction a as [|l r IH]; intros n b n1 H; cbn in *; [now injection H as <-|].
  destruct (net_step n l) as [[n2|g]|]; cbn in *; [now apply IH| |discriminate]. destruct r; discriminate.
Qed.

Lemma good_run st ls : forall n, net_run (net_init st) ls = Some (NUp n) -> good_net ls n.
Proof.
  induction ls as [|l ls IH] using rev_ind; intros n H.
  - cbn in H. injection H as <-. apply good_init.
  - rewrite net_run_snoc in H. destruct (net_run (net_init st) ls) as [[n1|g]|]; try discriminate.
    eapply good_step; eauto.
Qed.

Lemma run_cut st ls m c L : net_run (net_init st) ls = Some m -> nth_error (links_of m) c = Some L ->
  exists ls' s, sys_run (sys_init (lk_input L)) ls' = Some s /\ cut (lk_sent L) (sy_out s) /\ prefix (produced ls') (net_produced ls).
Proof.
  assert (forall L', done_link L' -> forall ps, exists ls' s, sys_run (sys_init (lk_input L')) ls' = Some s /\ cut (lk_sent L') (sy_out s) /\ prefix (produced ls') ps) as Old.
  { intros L' (ls' & s & Rw & R & C) ps. exists ls', s. split; auto. split; auto. exists ps. now rewrite (rw_quiet _ Rw). }
  assert (forall ls n L', good_net ls n -> In L' (ne_links n) -> exists ls' s, sys_run (sys_init (lk_input L')) ls' = Some s /\
    cut (lk_sent L') (sy_out s) /\ prefix (produced ls') (net_produced ls)) as Up.
  { clear st ls m c L. intros ls n L' (old & L & HL & HO & HG) I. rewrite HL in I. apply in_app_iff in I as [I|[<-|[]]].
    { apply Old. rewrite Forall_forall in HO. auto. }
    destruct HG as [[C P]|(ls' & s & bad & R & C & P)].
    - destruct C as (old' & L' & ls' & out & c & pend & E & _ & _ & _ & _ & _ & _ & Rw & Run & HJ).
      rewrite HL in E. apply links_same in E as [<- <-]. destruct (Run in_init [] [] []) as [lg' R]. exists ls'. eexists. split; [exact R|].
      split; [|exists (net_produced ls); now rewrite (rw_quiet _ Rw)]. cbn.
      destruct (ne_job n); [destruct HJ as (_ & _ & _ & _ & _ & ->); apply cut_concat|].
      destruct (lk_locked L); [apply HJ|destruct HJ as (_ & _ & -> & _); apply cut_concat].
    - exists ls', s. split; auto. split; [|exists []; now rewrite app_nil_r, P].
      destruct C as (old' & L' & E & _ & _ & _ & _ & _ & _ & _ & _ & W). rewrite HL in E. apply links_same in E as [<- <-].
      unfold sent_rel in W. destruct bad; [apply W|]. destruct W as [-> _]. apply cut_concat. }
  intros H HN. destruct m as [n|links]; cbn in HN; apply nth_error_In in HN.
  - eapply Up; eauto. now apply (good_run st).
  - destruct ls as [|l ls _] using rev_ind; [discriminate|]. rewrite net_run_snoc in H.
    destruct (net_run (net_init st) ls) as [[n|g]|] eqn:E; try discriminate.
    destruct (gone_by _ _ _ H) as (i & b & ->). destruct (good_run st ls n E) as (old & L0 & HL & HO & [[C P]|(ls' & s & bad & R & C & P)]).
    + destruct C as (? & ? & ? & ? & ? & ? & _ & _ & HC & _). cbn [net_step] in H. rewrite HC in H. destruct i; discriminate.
    + destruct (com_call_fail n s bad i b links C H) as (s' & o & L1 & L2 & R' & E1 & -> & E3 & Cu).
      rewrite HL in E1. apply links_same in E1 as [<- <-]. apply in_app_iff in HN as [I|[<-|[]]].
      { apply Old. rewrite Forall_forall in HO. auto. }
      exists (ls' ++ [SRun i]), s'. split; [rewrite E3, sys_run_app, R; exact R'|]. split; auto.
      exists []. rewrite produced_app, net_produced_app, P. cbn. now rewrite !app_nil_r.
Qed.
