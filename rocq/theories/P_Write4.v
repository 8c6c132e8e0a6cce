(* The whole device with locks and failing writes goes through the states of M_Threads. *)
From Verif Require Import Base M_Util M_Usb M_ReqBuf M_Usbip M_State M_Client M_History M_Overlap M_Device M_Threads M_Write S_Write
  S_Hid S_Usbip S_UsbipSys S_Client S_History S_Device S_Overlap S_Threads P_ReqBuf P_Usbip3 P_Threads5 P_Write1 P_Write2.
From Coq Require Import Sorted Permutation.

Lemma with_sys_idem a b r : with_sys a (with_sys b r) = with_sys a r.
Proof. reflexivity. Qed.

Lemma sys_read_some s : sy_pending s = None -> exists s', sys_step s SRead = Some s'.
Proof.
  intro P. cbn [sys_step]. rewrite P. destruct (conn_step _ _) as [c a]. destruct a; eauto.
  - destruct (hd_ep h =? 0); [destruct (handle_control_message _); eauto|]. destruct (hd_ep h =? 1).
    + cbn [in_step obind]. destruct (rb_request _ _ _) as [b []]; cbn [obind]; eauto.
    + destruct (hd_ep h =? 2); eauto.
  - cbn [in_step obind]. destruct (rb_cancel _ _); cbn [obind]; eauto.
Qed.

(* a process can be stopped between two steps *)
Lemma tlife_stop E ps t : tlife E ps (TUp t) -> tlife E ps (TDown (td_world t)).
Proof.
  intro T.
  assert (exists l t', (l = TRead \/ l = TWrite) /\ tdev_step E t l = Some (TRunning t') /\ td_world t' = td_world t) as (l & t' & Hl & S & W).
  { destruct (sy_pending (td_sys t)) eqn:P.
    - exists TWrite. eexists. split; auto. cbn [tdev_step]. unfold in_tsys. cbn [sys_step]. rewrite P. cbn [obind]. split; reflexivity.
    - destruct (sys_read_some _ P) as [s' E']. exists TRead. eexists. split; auto. cbn [tdev_step]. unfold in_tsys. rewrite E'. cbn [obind]. split; reflexivity. }
  assert (tlabel_ok l) as Ok by (destruct Hl as [-> | ->]; exact I).
  pose proof (T_kill E ps t l _ [] [] T Ok S) as K. cbn [tworld_after] in K. rewrite W, !app_nil_r in K.
  specialize (K eq_refl). destruct (td_world t). exact K.
Qed.

Lemma tlife_quiet E ps r : forall ls s s', produced ls = [] -> sys_run s ls = Some s' ->
  tlife E ps (TUp (with_sys s r)) -> tlife E ps (TUp (with_sys s' r)).
Proof.
  induction ls as [|l ls IH]; intros s s' P R T; cbn in R; [now injection R as <-|].
  destruct (sys_step s l) as [s1|] eqn:S; [|discriminate]. cbn [obind] in R.
  destruct l; cbn in P; try discriminate.
  - apply (IH s1 s' P R). apply (T_step E ps _ TRead _ T I). cbn [tdev_step]. unfold in_tsys. cbn [td_sys with_sys]. rewrite S. reflexivity.
  - apply (IH s1 s' P R). apply (T_step E ps _ TWrite _ T I). cbn [tdev_step]. unfold in_tsys. cbn [td_sys with_sys]. rewrite S. reflexivity.
  - apply (IH s1 s' P R). apply (T_step E ps _ (TRun i) _ T I). cbn [tdev_step]. unfold in_tsys. cbn [td_sys with_sys]. rewrite S. reflexivity.
  - apply (IH s1 s' P R). apply (T_step E ps _ (TTimeout i) _ T I). cbn [tdev_step]. unfold in_tsys. cbn [td_sys with_sys]. rewrite S. reflexivity.
Qed.

Lemma device_same E s s' r l m : device_label l = true -> sy_delegate s' = sy_delegate s ->
  tdev_step E (with_sys s r) l = Some m ->
  tdev_step E (with_sys s' r) l = Some match m with TRunning r' => TRunning (with_sys s' r') | TDead w => TDead w end.
Proof.
  intros D Q H. destruct l; try discriminate; cbn [tdev_step] in *; unfold blocked, locked in *; cbn [td_sys td_taken td_srv td_world td_waits td_out td_turn td_tickers with_sys] in *.
  - rewrite Q. destruct (existsb _ _); [discriminate|]. destruct (nth_error (sy_delegate s) i) as [q|]; [|discriminate]. cbn [obind] in *.
    destruct (match read_le 4 q with Ok _ => _ | Panic => _ end); [discriminate|].
    destruct (hid_front _ _) as [x|lk x p|ch x ctap reply b|]; [| | |].
    + now injection H as <-.
    + now injection H as <-.
    + destruct (begin _ _ _) as [w [[o|p]|]]; now injection H as <-.
    + now injection H as <-.
  - destruct (nth_error _ _) as [x|]; [|discriminate]. cbn [obind] in *. destruct (resume _ _ _) as [w []]; now injection H as <-.
  - destruct (nth_error _ _) as [x|]; [|discriminate]. cbn [obind] in *. now injection H as <-.
  - destruct (td_turn r); [discriminate|]. destruct (nth_error _ _) as [x|]; [|discriminate]. cbn [obind] in *. now injection H as <-.
  - destruct (local_input i); [|discriminate]. destruct (handle _ _ _) as [w []]; now injection H as <-.
Qed.

(* ---- the invariant: before the import the other model has not read from any connection *)
Definition fits (n : net) (sy : sys) : Prop :=
  (ctl n /\ cn_phase (sy_conn sy) = Closed /\ (exists tr, sy_in sy = mk_in (ne_buf n) [] [] 0 tr) /\ sy_subs sy = [] /\
   sy_pending sy = None /\ sy_delegate sy = []) \/
  exists bad, com n sy bad.
Definition inputs_ok (n : net) : Prop := Forall (fun L => Forall wfb (lk_input L)) (ne_links n).

Lemma fits_delegate n sy : fits n sy -> sy_delegate sy = ne_delegate n.
Proof.
  intros [(C & _ & _ & _ & _ & ->)|(bad & C)].
  - now destruct C as (old & L & ls & out & c & pend & _ & _ & _ & _ & _ & _ & -> & _).
  - now destruct C as (old & L & _ & _ & _ & _ & _ & _ & D & _).
Qed.
Lemma fits_flight n sy : fits n sy -> in_flight (sy_in sy) = map fst (ne_calls n).
Proof.
  intros [(C & _ & (tr & ->) & _)|(bad & C)].
  - now destruct C as (old & L & ls & out & c & pend & _ & _ & -> & _).
  - now destruct C as (old & L & _ & _ & _ & _ & _ & F & _).
Qed.

Lemma inputs_kept n n' : links_kept n n' -> inputs_ok n -> inputs_ok n'.
Proof.
  intros (old & L & L' & E1 & E2 & I) H. unfold inputs_ok in *. rewrite E1 in H. rewrite E2. apply Forall_app in H as [H1 H2].
  apply Forall_app. split; auto. constructor; auto. rewrite I. now inversion H2.
Qed.

Lemma net_follows E ps n sy r l n' : (forall c d, l <> NRespond c d) -> ndev_label_ok (ENet l) -> net_step n l = Some (NUp n') ->
  fits n sy -> inputs_ok n -> tlife E ps (TUp (with_sys sy r)) ->
  exists sy', fits n' sy' /\ inputs_ok n' /\ tlife E ps (TUp (with_sys sy' r)).
Proof.
  intros NR Ok S F I T. assert (net_produced [l] = []) as NP by (destruct l; auto; now destruct (NR choice data)).
  destruct F as [(C & Cl & (tr & Ei) & Es & Ep & Ed)|(bad & C)].
  - pose proof (fun c d => NR c d) as NR'.
    destruct (ctl_step n l n' C S) as [(C' & K & B)|[(s & -> & C' & El & J & B & _)|(-> & K & B & D & Im)]].
    + assert (ne_buf n' = ne_buf n) as B'.
      { rewrite NP, app_nil_r in B. destruct C as (? & ? & ? & ? & ? & ? & _ & _ & _ & _ & W & _), C' as (? & ? & ? & ? & ? & ? & _ & _ & _ & _ & W' & _).
        destruct (ne_buf n), (ne_buf n'). cbn in *. congruence. }
      exists sy. split; [|split; [eapply inputs_kept; eauto|exact T]]. left. split; auto. split; auto. split; [exists tr; now rewrite B'|auto].
    + exists sy. split; [|split; [|exact T]].
      * left. split; auto. split; auto. split; [exists tr; now rewrite B|auto].
      * unfold inputs_ok. rewrite El. apply Forall_app. split; auto.
    + pose proof C as (old & L & _ & _ & _ & _ & HL & _). destruct (Im old L HL) as (ls & Rw & Run).
      destruct (Run tr []) as (s' & R & C'). exists s'. split; [right; eauto|]. split; [eapply inputs_kept; eauto|].
      refine (tlife_quiet E ps r ls _ _ (rw_quiet _ Rw) R _).
      assert (Forall wfb (lk_input L)) as WL.
      { unfold inputs_ok in I. rewrite HL in I. apply Forall_app in I as [_ I]. now inversion I. }
      apply (T_step E ps _ (TAccept (lk_input L)) _ T WL). cbn [tdev_step with_sys td_sys]. rewrite Cl, Ei, Es, Ed. reflexivity.
  - destruct (com_step n sy bad l n' C S) as (ls & sy' & R & C' & D & K). exists sy'.
    split; [right; eauto|]. split; [eapply inputs_kept; eauto|]. refine (tlife_quiet E ps r ls _ _ _ R T). unfold did in D. now rewrite D.
Qed.

Lemma put_follows E ps n sy r c p lk rest n' : net_step n (NRespond c p) = Some (NUp n') -> respond_idle (sy_in (net_view n)) = true ->
  td_turn r = Some (mk_group lk (p :: rest)) ->
  fits n sy -> inputs_ok n -> tlife E ps (TUp (with_sys sy r)) ->
  exists sy', fits n' sy' /\ inputs_ok n' /\
    tlife E ps (TUp (with_sys sy' (with_turn match rest with [] => None | _ => Some (mk_group lk rest) end r))).
Proof.
  intros S Id Tu F I T.
  assert (respond_idle (sy_in sy) = true) as Id'.
  { unfold respond_idle in *. rewrite (fits_flight n sy F). exact Id. }
  assert (exists sy', sys_step sy (SRespond c p) = Some sy' /\ fits n' sy' /\ links_kept n n') as (sy' & Sy & F' & K).
  { destruct F as [(C & Cl & (tr & Ei) & Es & Ep & Ed)|(bad & C)].
    - destruct (ctl_step n _ n' C S) as [(C' & K & B)|[(s & X & _)|(X & _)]]; try discriminate.
      cbn [sys_step in_step obind]. rewrite Ei. cbn [in_step in_buf in_flight in_timers in_next in_trace].
      cbn [net_step] in S. destruct (buf_free n); [|discriminate].
      pose proof C as (old & L & ls & out & cc & pend & _ & _ & _ & _ & HB & _).
      unfold rb_respond in *. rewrite HB in *. cbn [obind] in *. injection S as <-. eexists. split; [reflexivity|]. split; auto.
      left. cbn. split; auto. split; auto. split; [eauto|auto].
    - destruct (com_responds n sy bad c p n' C S) as (sy' & Q & C' & K). exists sy'. split; auto. split; auto. right. eauto. }
  exists sy'. split; auto. split; [eapply inputs_kept; eauto|].
  refine (T_step E ps _ (TPut c) _ T Logic.I _). cbn [tdev_step with_sys td_turn td_sys]. rewrite Tu, Id', Sy. reflexivity.
Qed.

Definition tracks (E : Env) (ps : list params) (d : ndev) : Prop := exists sy,
  fits (nd_net d) sy /\ inputs_ok (nd_net d) /\ tlife E ps (TUp (with_sys sy (nd_rest d))).

Lemma tracks_step E ps d l m : tracks E ps d -> ndev_label_ok l -> ndev_step E d l = Some m ->
  match m with EUp d' => tracks E ps d' | EGone w => tlife E ps (TDown w) end.
Proof.
  intros (sy & F & I & T) Ok S. destruct l as [l|l|c]; cbn [ndev_step] in S.
  - assert (forall c x, l <> NRespond c x) as NR by (intros c x ->; discriminate).
    assert ((let! m0 := net_step (nd_net d) l in Some match m0 with NUp n => EUp (mk_ndev n (nd_rest d)) | NGone _ => EGone (td_world (nd_rest d)) end)
      = Some m) as S' by (destruct l; auto; discriminate). clear S.
    destruct (net_step (nd_net d) l) as [[n'|k]|] eqn:Q; cbn [obind] in S'; [| |discriminate]; injection S' as <-.
    + destruct (net_follows E ps _ sy (nd_rest d) l n' NR Ok Q F I T) as (sy' & A). exists sy'. exact A.
    + exact (tlife_stop E ps _ T).
  - destruct (device_label l) eqn:D; [|discriminate]. destruct (tdev_step E _ l) as [mm|] eqn:Q; [|discriminate]. cbn [obind] in S.
    pose proof (device_same E (net_view (nd_net d)) sy (nd_rest d) l mm D) as Q'. rewrite (fits_delegate _ _ F) in Q'. specialize (Q' eq_refl Q).
    destruct mm as [r|w]; injection S as <-.
    + exists sy. cbn. split; auto. split; auto. exact (T_step E ps _ l _ T Ok Q').
    + exact (T_panic E ps _ l w T Ok Q').
  - destruct (td_turn (nd_rest d)) as [[lk [|p rest]]|] eqn:Tu; try discriminate.
    destruct (respond_idle _) eqn:Id; [|discriminate]. destruct (net_step _ _) as [[n'|]|] eqn:Q; try discriminate. cbn [obind] in S.
    injection S as <-. destruct (put_follows E ps _ sy _ c p lk rest n' Q Id Tu F I T) as (sy' & A). exists sy'. exact A.
Qed.

Lemma app_empty {A} (a b c : list A) : a = a ++ b ++ c -> b = [].
Proof. intro H. rewrite <- (app_nil_r a) in H at 1. apply app_inv_head in H. destruct b; [auto|discriminate]. Qed.

Lemma tracks_kill E ps d l m es rest : tracks E ps d -> ndev_label_ok l -> ndev_step E d l = Some m ->
  w_trace (nworld_after m) = w_trace (td_world (nd_rest d)) ++ es ++ rest ->
  tlife E ps (TDown {| w_client := w_client (nworld_after m); w_tick := w_tick (nworld_after m);
                       w_trace := w_trace (td_world (nd_rest d)) ++ es |}).
Proof.
  intros (sy & F & I & T) Ok S W.
  assert (nworld_after m = td_world (nd_rest d) -> tlife E ps (TDown {| w_client := w_client (nworld_after m); w_tick := w_tick (nworld_after m);
    w_trace := w_trace (td_world (nd_rest d)) ++ es |})) as Same.
  { intro X. rewrite X in *. apply app_empty in W. subst es. rewrite app_nil_r. pose proof (tlife_stop E ps _ T) as K.
    cbn [td_world with_sys] in K. destruct (td_world (nd_rest d)). exact K. }
  destruct l as [l|l|c]; cbn [ndev_step] in S.
  - apply Same. assert ((let! m0 := net_step (nd_net d) l in Some match m0 with NUp n => EUp (mk_ndev n (nd_rest d)) | NGone _ => EGone (td_world (nd_rest d)) end)
      = Some m) as S' by (destruct l; auto; discriminate). destruct (net_step (nd_net d) l) as [[n'|k]|]; cbn [obind] in S'; [| |discriminate]; now injection S' as <-.
  - destruct (device_label l) eqn:D; [|discriminate]. destruct (tdev_step E _ l) as [mm|] eqn:Q; [|discriminate]. cbn [obind] in S.
    pose proof (device_same E (net_view (nd_net d)) sy (nd_rest d) l mm D) as Q'. rewrite (fits_delegate _ _ F) in Q'. specialize (Q' eq_refl Q).
    pose proof (T_kill E ps _ l _ es rest T Ok Q') as K. destruct mm as [r|w]; injection S as <-; exact (K W).
  - apply Same. destruct (td_turn (nd_rest d)) as [[lk [|p r]]|]; try discriminate.
    destruct (respond_idle _); [|discriminate]. destruct (net_step _ _) as [[n'|]|]; try discriminate. cbn [obind] in S. now injection S as <-.
Qed.

Lemma nlife_tracks E ps s : nlife E ps s -> match s with EDown w => tlife E ps (TDown w) | ERuns d => tracks E ps d end.
Proof.
  induction 1 as [c t|ps w p w' s H IH Ws St|ps w p w' H IH St|ps d l d' H IH Ok S|ps d l w H IH Ok S|ps d l m es rest H IH Ok S W].
  - constructor.
  - pose proof (T_start E ps w p w' [] IH (Forall_nil _) St) as T.
    assert (tdev_step E (tdev_init [] w') TRead = Some (TRunning (with_sys (mk_sys (mk_conn Closed []) in_init [] None [] [] [ANone]) (tdev_init [] w')))) as R
      by reflexivity.
    pose proof (T_step E _ _ TRead _ T I R) as T'. eexists. split; [|split; [|exact T']].
    + left. cbn. split; [now apply (ctl_init [] s make_request_buffer)|]. split; auto. split; [exists []; reflexivity|auto].
    + unfold inputs_ok. cbn. auto.
  - exact (T_start_failed E ps w p w' IH St).
  - exact (tracks_step E ps d l _ IH Ok S).
  - exact (tracks_step E ps d l _ IH Ok S).
  - exact (tracks_kill E ps d l m es rest IH Ok S W).
Qed.

(* and the bytes on the connection are those of that state *)
Lemma nlife_threads E ps s : nlife E ps s -> match s with
  | EDown w => tlife E ps (TDown w)
  | ERuns d => exists sy old L, tlife E ps (TUp (with_sys sy (nd_rest d))) /\ ne_links (nd_net d) = old ++ [L] /\
      cut (lk_sent L) (sy_out sy) /\ sy_delegate sy = ne_delegate (nd_net d) end.
Proof.
  intro H. apply nlife_tracks in H. destruct s as [w|d]; auto. destruct H as (sy & F & I & T).
  pose proof (fits_delegate _ _ F) as D. destruct F as [(C & Cl & (tr & Ei) & Es & Ep & Ed)|(bad & C)].
  - destruct C as (old & L & ls & out & c & pend & HL & _ & _ & _ & _ & _ & HD & HR & Run & HJ).
    assert (Forall wfb (lk_input L)) as WL.
    { unfold inputs_ok in I. rewrite HL in I. apply Forall_app in I as [_ I]. now inversion I. }
    assert (tlife E ps (TUp (with_sys (mk_sys (mk_conn Control (lk_input L)) (sy_in sy) [] None [] [] []) (nd_rest d)))) as T1.
    { apply (T_step E ps _ (TAccept (lk_input L)) _ T WL). cbn [tdev_step with_sys td_sys]. rewrite Cl, Es, Ed. reflexivity. }
    destruct (Run (sy_in sy) [] [] []) as [lg R]. pose proof (tlife_quiet E ps (nd_rest d) ls _ _ (rw_quiet _ HR) R T1) as T2.
    eexists. exists old, L. split; [exact T2|]. split; auto. cbn. split; [|now rewrite HD].
    destruct (ne_job (nd_net d)) as [j|].
    + destruct HJ as (_ & _ & _ & _ & _ & ->). apply cut_concat.
    + destruct (lk_locked L); [apply HJ|]. destruct HJ as (_ & _ & -> & _). apply cut_concat.
  - pose proof C as (old & L & HL & _ & _ & _ & _ & _ & _ & _ & _ & HW). exists sy, old, L. split; auto. split; auto. split; auto.
    unfold sent_rel in HW. destruct bad; [apply HW|]. destruct HW as [-> _]. apply cut_concat.
Qed.

Lemma nlife_approved E ps d : env_ok E -> Forall (params_ok E) ps -> nlife E ps (ERuns d) ->
  exists sy old L now turns, ne_links (nd_net d) = old ++ [L] /\ cut (lk_sent L) (sy_out sy) /\
    Forall (reason (written_of (sy_log sy)) now) turns /\ NoDup (numbers_of turns) /\
    Permutation (numbers_of turns) (answered_requests now) /\ reads_as (with_sys sy (nd_rest d)) turns /\
    forall a, (approved_sent a turns <= said_yes a (w_trace (td_world (nd_rest d))))%nat.
Proof.
  intros Eo Po H. destruct (nlife_threads E ps _ H) as (sy & old & L & T & HL & Cu & _).
  destruct (threads_approved E ps _ Eo Po T) as (now & turns & A & B & C & D & F). cbn [with_sys td_sys td_world] in *.
  exists sy, old, L, now, turns. auto 10.
Qed.

Fixpoint ndev_run (E : Env) (d : ndev) (ls : list ndev_label) : option ndev :=
  match ls with
  | [] => Some d
  | l :: r => match ndev_step E d l with Some (EUp d') => ndev_run E d' r | _ => None end
  end.
Lemma nlife_run E ps : forall ls d d', nlife E ps (ERuns d) -> Forall ndev_label_ok ls -> ndev_run E d ls = Some d' -> nlife E ps (ERuns d').
Proof.
  induction ls as [|l r IH]; intros d d' H Ok R; cbn in R; [now injection R as <-|].
  inversion Ok; subst. destruct (ndev_step E d l) as [[d1|]|] eqn:S; try discriminate.
  apply (IH d1 d'); auto. eapply E_step; eauto.
Qed.
