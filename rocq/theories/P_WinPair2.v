(* The Windows client and the Go server together: replies come in time, and at rest every
   block that the device answers has ended. *)
From Verif Require Import P_WinMem Base M_Util M_Usb M_ReqBuf M_Usbip S_ReqBuf S_Usb S_Usbip S_UsbipSys P_ReqBuf P_Usb P_Usbip1 P_Usbip2 P_Usbip3 S_Device P_Device2 P_WinGo1
  M_WinFwd M_WinDrv S_WinFwd S_WinDrv P_WinFwd P_WinRun P_WinRep P_WinDrv P_WinDrv2 P_WinOnce P_WinAns P_WinAns2 P_WinAns3 S_WinGo P_WinGo2 M_WinPair S_WinPair P_WinPair.
From Verif Require M_Win.
From Coq Require Import Lia.
Open Scope N_scope.

(* ------------------------------------------------- exactly what was read *)
Definition acts (m : message) (a : action) : Prop := spec_phase_action [usb_device] (Commands 0) m = Some (Commands 0, a).

Lemma run_exact n : forall ms cs, Forall well_formed ms -> Forall command ms ->
  (exists x, concat cs ++ x = concat (map message_bytes ms)) ->
  Forall (fun sp => uncut cs (fst sp) (snd sp)) (data_spans 0 ms) ->
  Forall (fun a => a <> ANone) (snd (conn_run [usb_device] n (mk_conn (Commands 0) cs))) ->
  exists ms1 ms2, ms = ms1 ++ ms2 /\ Forall2 acts ms1 (snd (conn_run [usb_device] n (mk_conn (Commands 0) cs))) /\
    concat cs = concat (map message_bytes ms1) ++ concat (cn_stream (fst (conn_run [usb_device] n (mk_conn (Commands 0) cs)))).
Proof.
  induction n as [|n IH]; intros ms cs W K (x & E) U F; [exists [], ms; repeat split; constructor|].
  destruct ms as [|m ms].
  { exfalso. cbn [map concat] in E. apply app_eq_nil in E. destruct E as [E _].
    pose proof (run_nothing (S n) 0 cs E) as Z. cbn [conn_run] in F, Z.
    destruct (conn_step _ _) as [c1 a]. destruct (conn_run _ n c1) as [c2 l]. cbn [snd] in *.
    exact (Forall_inv F (Forall_inv Z)). }
  cbn [map concat] in E. pose proof (Forall_inv W) as Wm. pose proof (Forall_inv K) as Km.
  assert (uncut cs (len (head m)) (len (data m))) as Um.
  { cbn [data_spans] in U. rewrite N.add_0_l in U. exact (Forall_inv U). }
  assert (forall l, concat cs = message_bytes m ++ l -> (exists x, l ++ x = concat (map message_bytes ms)) ->
    exists ms1 ms2, m :: ms = ms1 ++ ms2 /\ Forall2 acts ms1 (snd (conn_run [usb_device] (S n) (mk_conn (Commands 0) cs))) /\
      concat cs = concat (map message_bytes ms1) ++ concat (cn_stream (fst (conn_run [usb_device] (S n) (mk_conn (Commands 0) cs))))) as Whole.
  { intros l A B. destruct (command_spec 0 m Km) as (a & Sa).
    destruct (conn_step_message [usb_device] (Commands 0) m cs l (Commands 0) a Sa ltac:(discriminate) Wm A Um) as (cs' & R & S & C').
    cbn [conn_run] in F |- *. rewrite R in F |- *.
    destruct (IH ms cs' (Forall_inv_tail W) (Forall_inv_tail K)) as (ms1 & ms2 & E1 & E2 & E3).
    - now rewrite C'.
    - eapply spans_next; eauto.
    - destruct (conn_run _ n _) as [c2 l2]. cbn [snd] in *. exact (Forall_inv_tail F).
    - destruct (conn_run _ n _) as [c2 l2]. cbn [snd fst] in *. exists (m :: ms1), ms2. split; [now rewrite E1|].
      split; [constructor; [exact Sa|exact E2]|]. cbn [map concat]. rewrite <- app_assoc, <- E3, C'. exact A. }
  destruct (app_eq_app _ _ _ _ E) as (l & [[A B]|[A B]]); [apply (Whole l A); exists x; auto|].
  destruct l as [|b l]; [apply (Whole []); [now rewrite app_nil_r in *|eauto]|].
  exfalso. cbn [conn_run] in F. rewrite (step_part [usb_device] 0 m cs (b :: l) Km Wm (eq_sym A) ltac:(discriminate) Um) in F.
  destruct (conn_run _ n _) as [c2 l2]. cbn [snd] in F. exact (Forall_inv F eq_refl).
Qed.

Lemma import_exact n v st field ms cs : well_formed (MImport v st field) -> named field bus_id ->
  Forall well_formed ms -> Forall command ms ->
  (exists x, concat cs ++ x = message_bytes (MImport v st field) ++ concat (map message_bytes ms)) ->
  Forall (fun sp => uncut cs (fst sp) (snd sp)) (data_spans 0 (MImport v st field :: ms)) ->
  Forall (fun a => a <> ANone) (snd (conn_run [usb_device] n (mk_conn M_Usbip.Control cs))) ->
  snd (conn_run [usb_device] n (mk_conn M_Usbip.Control cs)) = [] \/
  exists ms1 ms2 r, ms = ms1 ++ ms2 /\ snd (conn_run [usb_device] n (mk_conn M_Usbip.Control cs)) = AWrite (op_rep_import usb_device) :: r /\
    Forall2 acts ms1 r /\
    concat cs = message_bytes (MImport v st field) ++ concat (map message_bytes ms1) ++
      concat (cn_stream (fst (conn_run [usb_device] n (mk_conn M_Usbip.Control cs)))).
Proof.
  intros Wi Nm W K (x & E) U F. set (m := MImport v st field) in *.
  destruct n as [|n]; [now left|]. right.
  assert (spec_phase_action [usb_device] M_Usbip.Control m = Some (Commands 0, AWrite (op_rep_import usb_device))) as Sa.
  { cbn [spec_phase_action m]. rewrite (cstring_named _ _ Nm). reflexivity. }
  assert (uncut cs (len (head m)) (len (data m))) as Um.
  { cbn [data_spans] in U. rewrite N.add_0_l in U. exact (Forall_inv U). }
  assert (exists l, concat cs = message_bytes m ++ l /\ exists x, l ++ x = concat (map message_bytes ms)) as (l & A & B).
  { destruct (app_eq_app _ _ _ _ E) as (l & [[A B]|[A B]]); [exists l; split; [exact A|exists x; auto]|].
    destruct l as [|b l]; [exists []; split; [now rewrite app_nil_r in *|eauto]|]. exfalso.
    cbn [conn_run] in F. rewrite (import_part [usb_device] v st field cs (b :: l) Wi (eq_sym A) ltac:(discriminate)) in F.
    - destruct (conn_run _ n _) as [c l']. cbn [snd] in F. exact (Forall_inv F eq_refl).
    - destruct Wi as (_ & _ & W3). unfold m in Um. cbn [head data] in Um. rewrite W3 in Um. exact Um. }
  destruct (conn_step_message [usb_device] M_Usbip.Control m cs l _ _ Sa ltac:(discriminate) Wi A Um) as (cs' & R & S & C').
  cbn [conn_run] in F |- *. rewrite R in F |- *.
  destruct (run_exact n ms cs' W K) as (ms1 & ms2 & E1 & E2 & E3).
  - now rewrite C'.
  - eapply spans_next; [exact U|exact S].
  - destruct (conn_run _ n _) as [c2 l2]. cbn [snd] in *. exact (Forall_inv_tail F).
  - destruct (conn_run _ n _) as [c2 l2]. cbn [snd fst] in *. exists ms1, ms2, l2. split; [exact E1|]. split; [reflexivity|].
    split; [exact E2|]. rewrite <- E3, C'. exact A.
Qed.

Lemma acts_read ms1 r : Forall2 acts ms1 r -> Forall (read_of ms1) r.
Proof.
  intro F. induction F as [|m a ms1 r Am F IH]; [constructor|]. constructor.
  - right. exists m, 0%nat. split; [now left|exact Am].
  - eapply Forall_impl; [|exact IH]. intros b [->|(m' & d & I & S)]; [now left|]. right. exists m', d. split; [now right|exact S].
Qed.

(* ------------------------------------------------- the start of a run *)
Definition proper (devid mx bl : N) (ls : list win_label) (w : win) : Prop :=
  Forall (fun x => known (snd x)) (submitted ls) /\ Forall (fun x => brings_none (snd x)) (submitted ls) /\
  Forall (fun x => len (buffer (snd x)) + 48 <= mx) (submitted ls) /\
  NoDup (map fst (submitted ls)) /\ orderly devid ls /\ N.of_nat (length ls) < 4294967296 /\
  win_run (win0 devid) ls = Some (Ok w) /\ forall side, calm bl side (wi_steps w).

Lemma proper_snoc devid mx bl ls l v : proper devid mx bl (ls ++ [l]) v -> exists w, proper devid mx bl ls w /\ win_step w l = Some (Ok v).
Proof.
  intros (P1 & P2 & P3 & P4 & P5 & P6 & P7 & P8). destruct (win_run_snoc _ _ _ _ P7) as (w & Rw & E). exists w.
  rewrite submitted_app in P1, P2, P3, P4. apply Forall_app in P1, P2, P3. rewrite map_app in P4. apply NoDup_left in P4.
  split; [|exact E]. split; [apply P1|]. split; [apply P2|]. split; [apply P3|]. split; [exact P4|].
  split; [eapply orderly_prefix; eauto|]. split; [rewrite app_length in P6; cbn [length] in P6; lia|]. split; [exact Rw|].
  intro side. eapply part_calm; [eapply win_step_fwd; exact E|apply P8].
Qed.

Lemma proper_prefix devid mx bl b : forall a v w, proper devid mx bl (a ++ b) v -> win_run (win0 devid) a = Some (Ok w) ->
  proper devid mx bl a w /\ exists x, dr_taken (wi_drv v) = dr_taken (wi_drv w) ++ x.
Proof.
  induction b as [|l b IH] using rev_ind; intros a v w P R.
  - rewrite app_nil_r in P. assert (v = w) as -> by (destruct P as (_ & _ & _ & _ & _ & _ & P & _); congruence).
    split; [exact P|exists []; now rewrite app_nil_r].
  - rewrite app_assoc in P. destruct (proper_snoc _ _ _ _ _ _ P) as (u & Pu & E). destruct (IH a u w Pu R) as (Pw & x & X).
    split; [exact Pw|]. destruct (step_taken _ _ _ E) as (y & Y). exists (x ++ y). now rewrite Y, X, app_assoc.
Qed.

Lemma wins_split ls : forall before after, wins ls = before ++ after -> exists l1 l2, ls = l1 ++ l2 /\ wins l1 = before /\ wins l2 = after.
Proof.
  induction ls as [|l ls IH]; intros before after E.
  - cbn in E. symmetry in E. apply app_eq_nil in E. destruct E as (-> & ->). exists [], []. auto.
  - destruct before as [|b before]; [exists [], (l :: ls); auto|]. unfold wins in E. cbn [flat_map] in E. fold (wins ls) in E.
    destruct l as [l|l|n]; cbn [app] in E.
    + injection E as -> E. destruct (IH _ _ E) as (l1 & l2 & -> & H1 & H2). exists (PWin b :: l1), l2.
      split; [reflexivity|]. split; [|exact H2]. unfold wins in *. cbn [flat_map app]. now rewrite H1.
    + destruct (IH (b :: before) after E) as (l1 & l2 & -> & H1 & H2). exists (PSys l :: l1), l2. auto.
    + destruct (IH (b :: before) after E) as (l1 & l2 & -> & H1 & H2). exists (PCarry n :: l1), l2. auto.
Qed.

Lemma pair_grows ls : forall p q, pair_run p ls = Some (Ok q) ->
  (exists x, sy_out (pr_sys q) = sy_out (pr_sys p) ++ x) /\ exists y, pr_carried q = pr_carried p ++ y.
Proof.
  induction ls as [|l ls IH]; intros p q R; cbn [pair_run] in R.
  - injection R as <-. split; exists []; now rewrite app_nil_r.
  - destruct (pair_step p l) as [[p1|]|] eqn:E; try discriminate. destruct (IH _ _ R) as ((x & X) & y & Y).
    assert ((exists z, sy_out (pr_sys p1) = sy_out (pr_sys p) ++ z) /\ exists z, pr_carried p1 = pr_carried p ++ z) as ((z & Z) & z' & Z').
    { destruct l as [l|l|n]; cbn [pair_step] in E.
      - destruct (match l with WGot b => _ | _ => _ end); [|discriminate]. destruct (win_step _ _) as [[w|]|]; try discriminate.
        cbn [obind rbind] in E. injection E as <-. split; exists []; now rewrite app_nil_r.
      - destruct (match l with SRead => _ | _ => _ end); [|discriminate]. destruct (sys_step _ _) as [s|] eqn:S; [|discriminate].
        cbn [obind] in E. injection E as <-. cbn [pr_sys pr_carried]. split; [now apply sys_out_grows in S|exists []; now rewrite app_nil_r].
      - destruct (_ && _); [|discriminate]. injection E as <-. cbn [pr_sys pr_carried]. split; [exists []; now rewrite app_nil_r|eauto]. }
    split; [exists (z ++ x); now rewrite X, Z, app_assoc|exists (z' ++ y); now rewrite Y, Z', app_assoc].
Qed.

Lemma spans_app a : forall off b, data_spans off (a ++ b) = data_spans off a ++ data_spans (off + len (concat (map message_bytes a))) b.
Proof.
  induction a as [|m a IH]; intros off b; cbn [app data_spans map concat]; [f_equal; unfold len; cbn [length]; lia|].
  rewrite IH, len_app. do 3 f_equal. lia.
Qed.

Lemma bounds_app a : forall off b, boundaries off (a ++ b) = boundaries off a ++ boundaries (off + len (concat a)) b.
Proof.
  induction a as [|c a IH]; intros off b; cbn [app boundaries concat]; [f_equal; unfold len; cbn [length]; lia|].
  rewrite IH, len_app. do 3 f_equal. lia.
Qed.

Lemma arrives_prefix attach ms ms' cs cs' : arrives attach (ms ++ ms') (cs ++ cs') -> arrives attach ms cs.
Proof.
  intros (W & U). split; [now apply Forall_app in W|]. change (attach :: ms ++ ms') with ((attach :: ms) ++ ms') in U.
  rewrite spans_app in U. apply Forall_app in U. destruct U as (U & _). eapply Forall_impl; [|exact U].
  intros [i k]. cbn [fst snd]. unfold uncut. rewrite bounds_app. intro B. now apply Forall_app in B.
Qed.

(* ------------------------------------------------- the pair at some point *)
Section Point.
  Variables (devid mx bl : N) (start : list bytes) (ls : list pair_label) (p : pair) (attach : message).
  Hypothesis d32 : devid < 4294967296.
  Hypothesis mx48 : 48 <= mx.
  Hypothesis room : mx + bl < 4294967296.
  Hypothesis half : mx <= 2147483648.
  Hypothesis pr : proper devid mx bl (wins ls) (pr_win p).
  Hypothesis at1 : attaches attach.
  Hypothesis at2 : concat start = message_bytes attach.
  Hypothesis run : pair_run (pair0 devid start) ls = Some (Ok p).
  Let d := wi_drv (pr_win p).
  Let ms := messages d.
  Hypothesis arr : arrives attach ms (start ++ pr_carried p).

  Lemma point_inv : win_inv devid (pr_win p) (submitted (wins ls)) (cancelled (wins ls)) (length (wins ls)).
  Proof. destruct pr as (P1 & P2 & P3 & P4 & P5 & P6 & P7 & P8). exact (run_inv devid mx bl _ _ d32 mx48 room P1 P3 P4 P5 P6 P7 (P8 true)). Qed.

  Lemma point_good : Forall driver_request ms.
  Proof.
    destruct pr as (P1 & P2 & P3 & P4 & P5 & P6 & P7 & P8). destruct point_inv as (_ & _ & I3 & I4 & I5 & I6 & _).
    apply messages_good; [exact I3|]. change (wi_drv (pr_win p)) with d in I6. lia.
  Qed.

  Lemma point_reaches : reaches attach (concat (pi_out (fw_req (wi_fwd (pr_win p))))) ms (start ++ pr_carried p).
  Proof.
    destruct arr as (W & U). split; [exact W|]. split; [|exact U].
    destruct (pair_parts devid start ls p run) as (_ & _ & (t & T) & _). unfold sent in T. exists t.
    rewrite concat_app, at2, T, <- app_assoc. reflexivity.
  Qed.

  Lemma point_sent : prefix (sent (pr_win p)) (concat (map message_bytes ms)).
  Proof.
    destruct pr as (P1 & P2 & P3 & P4 & P5 & P6 & P7 & P8).
    destruct (session_messages devid mx bl _ _ d32 mx48 room P1 P3 P4 P5 P6 P7 P8) as (es & _ & _ & H). exact H.
  Qed.

  Lemma point_log : sy_log (pr_sys p) = [] \/
    exists ms1 ms2 r, ms = ms1 ++ ms2 /\ sy_log (pr_sys p) = AWrite (op_rep_import usb_device) :: r /\ Forall2 acts ms1 r /\
      concat (pr_carried p) = concat (map message_bytes ms1) ++ concat (cn_stream (sy_conn (pr_sys p))).
  Proof.
    destruct at1 as (v & st & field & Ea & Wi & Nm). destruct (pair_parts devid start ls p run) as (_ & I2 & (t & T) & _).
    destruct (waited_log _ _ _ I2) as (n & N1 & N2 & N3). cbn [sys_init sy_log sy_conn app] in *.
    destruct point_sent as (y & Y). destruct arr as (Wb & U). rewrite Ea in *.
    destruct (import_exact n v st field ms (start ++ pr_carried p)) as [H|(ms1 & ms2 & r & H1 & H2 & H3 & H4)]; auto.
    - eapply Forall_impl; [|exact point_good]. intros m H. exact (proj1 H).
    - apply Forall_forall. intros m. apply message_command.
    - exists (t ++ y). rewrite concat_app, at2, <- app_assoc. f_equal. rewrite app_assoc, <- T. exact (eq_sym Y).
    - left. congruence.
    - right. exists ms1, ms2, r. split; [exact H1|]. split; [congruence|]. split; [exact H3|].
      rewrite <- N1 in H4. cbn [fst] in H4. rewrite concat_app, at2 in H4. now apply app_inv_head in H4.
  Qed.

  Lemma point_frames : exists ctrl frames, sy_out (pr_sys p) = ctrl ++ frames /\ Forall (frame_from (pr_sys p)) frames /\
    (ctrl = [] /\ frames = [] \/ ctrl = [op_rep_import usb_device]).
  Proof.
    destruct at1 as (v & st & field & Ea & Wi & Nm). destruct (pair_parts devid start ls p run) as (_ & I2 & (t & T) & _).
    pose proof arr as (Wb & U). destruct point_sent as (y & Y). rewrite Ea in *.
    destruct (attached_session v st field ms (start ++ pr_carried p) (serves ls) (pr_sys p)) as (Wv & A & F); auto.
    - eapply Forall_impl; [|exact point_good]. intros m H. exact (proj1 H).
    - apply Forall_forall. intros m. apply message_command.
    - exists (t ++ y). rewrite concat_app, at2, <- app_assoc. f_equal. rewrite app_assoc, <- T. exact (eq_sym Y).
    - now apply waited_run.
  Qed.

  (* the bytes that have gone are fewer than those that the driver has given out *)
  Lemma point_less r : dr_partial d = Holds r -> len (sent (pr_win p)) < len (concat (map message_bytes ms)).
  Proof.
    intro H. destruct pr as (P1 & P2 & P3 & P4 & P5 & P6 & P7 & P8).
    destruct (inv_pipe devid mx bl mx48 room _ _ _ _ point_inv (P8 true) P6 P3) as (G & Sm & Eh & (dn & rest & raw & (E1 & E2 & _) & (_ & _ & _ & D & _))).
    fold d ms in G, Sm, Eh, E1. fold d in Eh. rewrite H in Eh. destruct point_inv as (_ & _ & I3 & _).
    destruct I3 as (_ & _ & _ & _ & _ & _ & S & _). fold d in S. unfold slot_ok in S. rewrite H in S.
    destruct S as (before & junk & u & _ & U & _ & B). cbn [tail] in Eh. rewrite U in Eh.
    assert (forall l, Forall (fun i => len (it_in i) = len (it_out i)) l -> len (concat (map it_in l)) = len (concat (map it_out l))) as Sum.
    { induction l as [|i l IH]; intro F; [reflexivity|]. cbn [map concat]. rewrite !len_app, (Forall_inv F), IH by exact (Forall_inv_tail F). reflexivity. }
    assert (Forall (fun i => len (it_in i) = len (it_out i)) (map req_item ms)) as L.
    { pose proof (its_ok ms G) as Io. eapply Forall_impl; [|exact Io]. intros i (A1 & A2 & A3 & _). unfold it_in, it_out. rewrite !len_app. lia. }
    pose proof (Sum _ L) as La. rewrite it_in_map, it_out_map in La by exact G. rewrite <- La, Eh.
    rewrite E1 in L. apply Forall_app in L. pose proof (Sum _ (proj1 L)) as Ld. rewrite E2 in *. rewrite !len_app, Ld, <- D, len_app.
    unfold sent. assert (0 < len (buffer u)) by (destruct (buffer u); [congruence|unfold len; cbn [length]; lia]). lia.
  Qed.

  (* a reply that the server has written is for a message that it has read, and so for one
     that the driver has given out *)
  Lemma point_reply frames f q dir n payload : sy_out (pr_sys p) = op_rep_import usb_device :: frames -> In f frames ->
    f = reply_wire (RSubmit q dir n payload) -> q < 4294967296 ->
    (exists id u, numbered_block d q id u) /\ forall r, dr_partial d = Holds r -> ur_seq r <> q.
  Proof.
    intros O If Ef Q. destruct point_frames as (ctrl & frames' & O' & F & C).
    assert (frames' = frames) as ->.
    { destruct C as [(-> & ->)| ->]; rewrite O in O'; [discriminate|]. now injection O'. }
    rewrite Forall_forall in F. pose proof (F _ If) as Ff.
    destruct point_log as [L|(ms1 & ms2 & rr & H1 & H2 & H3 & H4)].
    { exfalso. unfold frame_from in Ff. rewrite L in Ff. destruct Ff as [(? & ? & ? & ? & [] & _)|(? & ? & [] & _)]. }
    assert (attached_log ms1 (sy_log (pr_sys p))) as A.
    { right. eexists _, rr. split; [exact H2|]. split; [now right|]. now apply acts_read. }
    assert (takeN 8 f = be 4 3 ++ be 4 q) as T8 by (rewrite Ef; reflexivity).
    destruct Ff as [(h & st & b & r & Hi & Er & Aw)|(h & rm & Hi & Er)].
    - destruct (log_submit _ _ _ _ _ A Hi) as (m & Im & q' & devid' & dir' & ep & fl & sta & pk & iv & n' & dt & -> & -> & B).
      assert (In (MSubmit q' devid' dir' ep fl sta pk iv n' st dt) ms) as Im' by (rewrite H1; apply in_or_app; now left).
      destruct (message_submit d _ _ _ _ _ _ _ _ _ _ _ Im') as (x & j & u & It & Qx & U & _).
      assert (q' < 4294967296) as Q'.
      { pose proof point_good as G. rewrite Forall_forall in G. destruct (G _ Im') as (Wf & _). exact (proj1 Wf). }
      assert (q' = q) as ->.
      { rewrite Er in T8. change (takeN 8 (return_submit (mk_header 1 q' devid' dir' ep) b r)) with (be 4 3 ++ be 4 q') in T8.
        apply app_inv_head in T8. apply (f_equal be_dec) in T8. rewrite !be_dec_be_small in T8 by assumption. exact T8. }
      split; [exists (ur_id x), u, x, j; auto|].
      intros r0 Hr Qr. pose proof point_inv as (_ & _ & I3 & _). fold d in I3.
      pose proof I3 as (_ & _ & _ & _ & _ & _ & S & _). unfold slot_ok in S. rewrite Hr in S.
      destruct S as (before & junk & u0 & Tk & _).
      assert (ms2 = []) as ->.
      { destruct ms2 as [|ml m2 _] using rev_ind; [reflexivity|]. exfalso.
        assert (map (msg_of (dr_devid d)) before = ms1 ++ m2) as Eb.
        { unfold ms, messages in H1. rewrite Tk, map_app in H1. cbn [map] in H1. rewrite app_assoc in H1. now apply app_inj_tail in H1. }
        assert (In (MSubmit q devid' dir' ep fl sta pk iv n' st dt) (map (msg_of (dr_devid d)) before)) as Ib by (rewrite Eb; apply in_or_app; now left).
        apply in_map_iff in Ib. destruct Ib as ((y & jy) & Ey & Iy). unfold msg_of in Ey. cbn [fst snd] in Ey.
        destruct (ur_what y) as [uy|]; [|discriminate]. destruct (junk_parts (dr_devid d) (ur_seq y) jy uy) as (e1 & e2 & e3 & e4 & E' & _).
        rewrite E' in Ey. injection Ey as Eq _ _ _ _ _ _ _ _.
        destruct (in_split _ _ Iy) as (t1 & t2 & Sp).
        assert (taken d = map fst t1 ++ y :: (map fst t2 ++ [r0])) as T1.
        { unfold taken. rewrite Tk, Sp, !map_app. cbn [map fst]. now rewrite <- app_assoc. }
        assert (taken d = (map fst before) ++ r0 :: []) as T2 by (unfold taken; rewrite Tk, map_app; reflexivity).
        pose proof (taken_number d _ _ _ I3 T1) as N1. pose proof (taken_number d _ _ _ I3 T2) as N2.
        rewrite !map_length in *. rewrite Sp, app_length in N2. cbn [length] in N2. lia. }
      rewrite app_nil_r in H1. pose proof (point_less _ Hr) as Lt. rewrite H1 in Lt.
      destruct (pair_parts devid start ls p run) as (_ & _ & (t & T) & _). rewrite T, H4, !len_app in Lt. lia.
    - exfalso. rewrite Er in T8. assert (hd_command h = 2) as Hc.
      { destruct (log_unlink _ _ _ A Hi) as (? & ? & ? & ? & ? & ? & _ & ->). reflexivity. }
      rewrite (return_unlink_spec h rm Hc) in T8.
      change (takeN 8 (spec_ret_unlink (hd_seq h) rm)) with (be 4 4 ++ be 4 (hd_seq h)) in T8. discriminate.
  Qed.
End Point.
