(* The Windows client attached to the Go server: the server's replies are fair. *)
From Verif Require Import P_WinMem Base M_Util M_Usb M_ReqBuf M_Usbip S_Usb S_Usbip S_UsbipSys P_Usb P_Usbip1 P_Usbip2 S_Device P_Device2 P_WinGo1
  M_WinFwd M_WinDrv S_WinFwd S_WinDrv P_WinFwd P_WinRun P_WinRep P_WinDrv P_WinDrv2 P_WinOnce P_WinAns P_WinAns2 P_WinAns3 S_WinGo.
From Coq Require Import Lia.
Open Scope N_scope.

Definition dir_of (u : urb) : N := if moves_in u then 1 else 0.
Definition sends (u : urb) : bytes := if moves_in u then [] else buffer u.

(* endpoint and setup packet *)
Definition asks (u : urb) (ep : N) (setup : bytes) : Prop :=
  match u with
  | Bulk h _ _ => ep = handle_ep h
  | GetDescriptor false typ index lang buf =>
    ep = 0 /\ exists w, setup = request8 128 6 index typ w (len buf)
  | _ => True
  end.

Lemma junk_parts devid q j u : exists ep flags interval setup,
  junk_message devid q j u = MSubmit q devid (dir_of u) ep flags 0 0 interval (len (buffer u)) setup (sends u) /\ asks u ep setup.
Proof.
  destruct u as [h fl buf|[] typ index lang buf|recip index buf|vendor recip fl rq value index buf
    |value|number alt|h fl setup buf|h fl setup buf|]; unfold junk_message, spec_message; cbn [buffer];
  (eexists _, _, _, _; split; [reflexivity|]); cbn [asks]; auto.
  split; [reflexivity|]. eexists. reflexivity.
Qed.

Lemma message_command d m : In m (messages d) -> command m.
Proof.
  unfold messages. intro I. apply in_map_iff in I. destruct I as ((r & j) & <- & _). unfold msg_of. cbn [fst snd].
  destruct (ur_what r) as [u|]; [|exact Logic.I]. destruct (junk_parts (dr_devid d) (ur_seq r) j u) as (ep & fl & iv & st & -> & _). exact Logic.I.
Qed.

Lemma message_submit d q devid dir ep fl st pk iv n setup dt :
  In (MSubmit q devid dir ep fl st pk iv n setup dt) (messages d) ->
  exists r j u, In (r, j) (dr_taken d) /\ ur_seq r = q /\ ur_what r = Some u /\ dir = dir_of u /\ n = len (buffer u) /\ dt = sends u /\ asks u ep setup.
Proof.
  unfold messages. intro I. apply in_map_iff in I. destruct I as ((r & j) & E & I). unfold msg_of in E. cbn [fst snd] in E.
  destruct (ur_what r) as [u|] eqn:U; [|discriminate].
  destruct (junk_parts (dr_devid d) (ur_seq r) j u) as (ep' & fl' & iv' & st' & E' & A). rewrite E' in E. injection E as <- _ <- <- _ _ _ _ <- <- <-.
  exists r, j, u. auto 10.
Qed.

Lemma message_unlink d q devid dir ep t p : In (MUnlink q devid dir ep t p) (messages d) -> numbered_unlink d q.
Proof.
  unfold messages. intro I. apply in_map_iff in I. destruct I as ((r & j) & E & I). unfold msg_of in E. cbn [fst snd] in E.
  destruct (ur_what r) as [u|] eqn:U.
  - destruct (junk_parts (dr_devid d) (ur_seq r) j u) as (ep' & fl' & iv' & st' & E' & A). rewrite E' in E. discriminate.
  - injection E as <- _ _ _ _. exists r, j. auto.
Qed.

Lemma fair_here u : brings_none u -> len (buffer u) < 2147483648 -> fair_reply u (len (buffer u)).
Proof.
  intros B L. unfold fair_reply. split; [exact L|]. split; [exact L|].
  destruct u; cbn [brings_none] in B; cbn [buffer moves_in] in *; intros; try reflexivity; try discriminate; try lia.
  - destruct H as [H|H]; [rewrite (B H)|rewrite H]; reflexivity.
  - now rewrite (B H).
Qed.

(* what is known of a reply: the block, and where the payload comes from *)
Definition reply_from (d : drv) (s : sys) (r : reply) : Prop :=
  match r with
  | RSubmit q dir n payload => exists x j u, In (x, j) (dr_taken d) /\ ur_seq x = q /\ ur_what x = Some u /\ dir = dir_of u /\
      n = len (buffer u) /\ (if moves_in u then len payload = n else payload = []) /\
      match u with
      | Bulk h _ buf =>
        (handle_in h = true -> handle_ep h = 1 -> exists d, payload = spec_transfer (len buf) d /\ (d = [] \/ made s d)) /\
        (handle_in h = false -> handle_ep h = 2 -> In buf (sy_delegate s))
      | GetDescriptor false typ index _ buf => index < 256 -> exists d, described typ d /\ payload = spec_transfer (len buf) d
      | _ => True
      end
  | RUnlink q _ => numbered_unlink d q
  end.

Lemma zeros_len n : len (zeros (N.to_nat n)) = n.
Proof. unfold len, zeros. rewrite repeat_length. lia. Qed.

Lemma overlay_is n r : match r with Some r => takeN (len (zeros (N.to_nat n))) r ++ dropN (len r) (zeros (N.to_nat n)) | None => zeros (N.to_nat n) end =
  spec_transfer n (match r with Some r => r | None => [] end).
Proof.
  assert (len (zeros (N.to_nat n)) = n) as L by (unfold len, zeros; rewrite repeat_length; lia).
  destruct r as [r|]; [rewrite L; apply overlay_zeros|]. unfold spec_transfer, takeN. rewrite firstn_nil. cbn [app].
  f_equal. unfold len. cbn. lia.
Qed.

Lemma spec_transfer_len n r : len (spec_transfer n r) = n.
Proof.
  unfold spec_transfer. rewrite len_app. unfold takeN, len, zeros. rewrite firstn_length, repeat_length. lia.
Qed.

Lemma descriptor_setup typ index w n : index < 256 -> typ < 256 -> forall r,
  handle_control_message (read_setup (request8 128 6 index typ w n)) = Ok r -> exists d, r = Some d /\ described typ d.
Proof.
  intros Hi Ht r E. set (s := read_setup (request8 128 6 index typ w n)) in *.
  assert (recipient (su_type s) = 0) as R by reflexivity. assert (su_request s = 6) as Q by reflexivity.
  assert (su_value s = index + 256 * typ) as V.
  { change (le_dec [index; typ] = index + 256 * typ). cbn [le_dec]. lia. }
  destruct r as [d|].
  - exists d. split; [reflexivity|]. pose proof (control_descriptor s d R Q E) as D. rewrite V in D.
    replace ((index + 256 * typ) / 256) with typ in D; [exact D|].
    rewrite N.mul_comm, N.div_add by lia. rewrite N.div_small by lia. reflexivity.
  - exfalso. unfold handle_control_message, handle_device_request in E. rewrite R, Q in E. cbn [N.eqb Pos.eqb] in E.
    destruct (descriptor_type_and_index (su_value s)) as [t i]. destruct (get_descriptor t i); discriminate.
Qed.

Lemma frame_reply d s f : (forall x j u, In (x, j) (dr_taken d) -> ur_what x = Some u -> known u) ->
  wire_inv s -> attached_log (messages d) (sy_log s) -> frame_from s f -> exists r, reply_wire r = f /\ reply_from d s r.
Proof.
  intros Kn I A [(h & st & b & r & Hi & -> & Aw)|(h & rm & Hi & ->)].
  - pose proof (wi_submits s I) as Ok_. rewrite Forall_forall in Ok_. destruct (Ok_ _ Hi) as (C1 & C2 & C3 & C4).
    destruct (log_submit _ _ _ _ _ A Hi) as (m & Im & q & devid & dir & ep & fl & sta & pk & iv & n & dt & -> & -> & B).
    cbn [hd_dir hd_seq hd_command] in *. destruct (message_submit d _ _ _ _ _ _ _ _ _ _ _ Im) as (x & j & u & It & Q & U & Ed & En & Edt & As).
    assert (len b = len (buffer u)) as Lb.
    { rewrite B, Ed. unfold dir_of, sends in *. destruct (moves_in u).
      - change (1 =? 0) with false. cbv iota. rewrite zeros_len. exact En.
      - change (0 =? 0) with true. cbv iota. now rewrite Edt. }
    rewrite return_submit_spec by assumption. cbn [hd_dir hd_seq].
    eexists (RSubmit q dir (len b) _). split; [reflexivity|]. cbn [reply_from]. exists x, j, u.
    split; [exact It|]. split; [exact Q|]. split; [exact U|]. split; [exact Ed|]. split; [exact Lb|].
    assert (moves_in u = true -> b = zeros (N.to_nat (len (buffer u)))) as Bz.
    { intro M. rewrite B, Ed, En. unfold dir_of. rewrite M. reflexivity. }
    split.
    { rewrite Ed. unfold dir_of. destruct (moves_in u); cbn [N.eqb]; [|reflexivity]. change (1 =? 1) with true. cbv iota.
      destruct r; [apply overlay_len|reflexivity]. }
    destruct u as [hd fl' buf|[] typ index lang buf|recip index buf|vendor recip fl' rq value index buf
    |value|number alt|hd fl' setup buf|hd fl' setup buf|]; try exact Logic.I.
    + cbn [asks buffer] in *. unfold dir_of in Ed. cbn [moves_in] in *. split.
      * intros Hin E1. rewrite Hin in Ed. subst dir. change (1 =? 1) with true. cbv iota. rewrite (Bz Hin), overlay_is.
        exists (match r with Some r => r | None => [] end). split; [reflexivity|].
        destruct Aw as [[E0 _]|[[_ Aw]|[E2 ->]]]; [cbn [hd_ep] in E0; congruence| |now left].
        destruct r as [r|]; [right; now apply Aw|now left].
      * intros Hin E2. rewrite (wi_delegate s I). unfold written_of. apply in_flat_map. eexists. split; [exact Hi|]. cbn [hd_ep].
        replace (ep =? 2) with true by (symmetry; apply N.eqb_eq; congruence). left. rewrite B, Ed, Hin. cbn [N.eqb]. rewrite Edt. unfold sends. cbn [moves_in]. now rewrite Hin.
    + intros Hx. cbn [asks buffer moves_in] in *. destruct As as (-> & w & ->). unfold dir_of in Ed. cbn [moves_in] in Ed. subst dir.
      change (1 =? 1) with true. cbv iota. rewrite (Bz eq_refl), overlay_is.
      destruct Aw as [[_ Aw]|[[E1 _]|[E2 _]]]; [|discriminate|discriminate].
      destruct (Kn _ _ _ It U) as (_ & Kt & _).
      destruct (descriptor_setup typ index w (len buf) Hx Kt r Aw) as (dd & -> & D). exists dd. auto.
  - destruct (log_unlink _ _ _ A Hi) as (q & devid & dir & ep & t & p & Im & ->).
    exists (RUnlink q rm). split; [|cbn [reply_from]; eapply message_unlink; eauto].
    symmetry. apply (return_unlink_spec (mk_header 2 q devid dir ep)). reflexivity.
Qed.

Lemma frames_replies d s fs : (forall f, In f fs -> exists r, reply_wire r = f /\ reply_from d s r) ->
  exists rs, map reply_wire rs = fs /\ Forall (reply_from d s) rs.
Proof.
  induction fs as [|f fs IH]; intro H; [exists []; auto|].
  destruct (H f (or_introl eq_refl)) as (r & E & F). destruct IH as (rs & Es & Fs); [intros g I; apply H; now right|].
  exists (r :: rs). cbn [map]. rewrite E, Es. auto.
Qed.

Section Session.
  Variables (devid mx bl : N) (ls : list win_label) (w : win).
  Hypothesis d32 : devid < 4294967296.
  Hypothesis mx48 : 48 <= mx.
  Hypothesis room : mx + bl < 4294967296.
  Hypothesis half : mx <= 2147483648.
  Hypothesis all_known : Forall (fun x => known (snd x)) (submitted ls).
  Hypothesis none_brought : Forall (fun x => brings_none (snd x)) (submitted ls).
  Hypothesis small : Forall (fun x => len (buffer (snd x)) + 48 <= mx) (submitted ls).
  Hypothesis distinct : NoDup (map fst (submitted ls)).
  Hypothesis ord : orderly devid ls.
  Hypothesis short : N.of_nat (length ls) < 4294967296.
  Hypothesis run : win_run (win0 devid) ls = Some (Ok w).
  Hypothesis cm : forall side, calm bl side (wi_steps w).

  Let ms := messages (wi_drv w).
  Let sent := concat (pi_out (fw_req (wi_fwd w))).

  Lemma session_messages : exists es, subseq (blocks es) (submitted ls) /\ say_all devid 1 es ms /\ prefix sent (concat (map message_bytes ms)).
  Proof.
    pose proof (run_inv devid mx bl ls w d32 mx48 room all_known small distinct ord short run (cm true)) as I.
    destruct (inv_pipe devid mx bl mx48 room w _ _ _ I (cm true) short small) as (G & Sm & Eh & _).
    destruct I as (I1 & I2 & I3 & I4 & I5 & _). exists (map entry_of (taken (wi_drv w))). destruct I4 as (H1 & _). split; [|split].
    - unfold entries in H1. rewrite map_app, blocks_app in H1.
      eapply subseq_trans; [exact H1|]. rewrite <- (app_nil_r (blocks (map entry_of (taken _)))) at 1.
      apply subseq_app; [apply subseq_refl|].
      generalize (blocks (map entry_of (dr_pending (wi_drv w)))). induction l; constructor; auto.
    - rewrite <- I5. now apply say_messages.
    - destruct (requests_written _ G mx bl Sm mx48 room _ _ (cm true) I1) as (t & Et); [eexists; exact Eh|]. exists t. exact Et.
  Qed.

  Lemma taken_submitted x j u : In (x, j) (dr_taken (wi_drv w)) -> ur_what x = Some u -> In (ur_id x, u) (submitted ls).
  Proof.
    intros It U. pose proof (run_inv devid mx bl ls w d32 mx48 room all_known small distinct ord short run (cm true)) as I.
    destruct I as (_ & _ & _ & I4 & _). eapply entry_known; eauto. apply in_or_app. left. eapply in_taken; eauto.
  Qed.

  Lemma taken_known x j u : In (x, j) (dr_taken (wi_drv w)) -> ur_what x = Some u -> known u.
  Proof. intros It U. pose proof (taken_submitted _ _ _ It U) as I. rewrite Forall_forall in all_known. exact (all_known _ I). Qed.

  Variables (attach : message) (stream : list bytes) (sl : list sys_label) (s : sys).
  Hypothesis at1 : attaches attach.
  Hypothesis at2 : reaches attach sent ms stream.
  Hypothesis srun : sys_run (sys_init stream) sl = Some s.

  Lemma session_replies : exists rs, Forall (reply_from (wi_drv w) s) rs /\ Forall (fair_one (wi_drv w)) rs /\
    Forall (fun r => len (reply_wire r) <= mx) rs /\
    (sy_out s = [] /\ rs = [] \/ sy_out s = op_rep_import usb_device :: map reply_wire rs).
  Proof.
    destruct at1 as (v & st & field & -> & Wi & Nm). destruct at2 as (Wb & (c & Ec) & U).
    destruct session_messages as (es & _ & _ & (t & Et)).
    pose proof (run_inv devid mx bl ls w d32 mx48 room all_known small distinct ord short run (cm true)) as I.
    destruct I as (_ & _ & I3 & I4 & I5 & I6 & _).
    pose proof (messages_good (wi_drv w) I3 ltac:(lia)) as G.
    destruct (attached_session v st field ms stream sl s Wi Nm) as (Wv & A & ctrl & frames & O & F & Ct).
    - eapply Forall_impl; [|exact G]. intros m H. exact (proj1 H).
    - apply Forall_forall. intros m. apply message_command.
    - exact Wb.
    - exists (c ++ t). rewrite app_assoc, <- Ec, <- app_assoc. f_equal. exact (eq_sym Et).
    - exact U.
    - exact srun.
    - destruct (frames_replies (wi_drv w) s frames) as (rs & Er & Fr).
      { intros f If. rewrite Forall_forall in F. apply frame_reply; auto. intros x j u. apply taken_known. }
      exists rs. split; [exact Fr|]. split; [|split].
      + eapply Forall_impl; [|exact Fr]. intros [q dir n payload|q rm]; cbn [reply_from fair_one]; [|auto].
        intros (x & j & u & It & Q & U' & Ed & En & Lp & _). exists (ur_id x), u. split; [exists x, j; auto|]. split; [exact Ed|].
        split; [|exact Lp]. rewrite En. pose proof (taken_submitted _ _ _ It U') as Is.
        rewrite Forall_forall in none_brought, small. pose proof (none_brought _ Is) as B. pose proof (small _ Is) as Sm. cbn [snd] in *.
        apply fair_here; [exact B|lia].
      + eapply Forall_impl; [|exact Fr]. intros [q dir n payload|q rm]; cbn [reply_from reply_wire].
        * intros (x & j & u & It & Q & U' & Ed & En & Lp & _). pose proof (taken_submitted _ _ _ It U') as Is.
          rewrite Forall_forall in small. pose proof (small _ Is) as Sm. cbn [snd] in Sm.
          assert (len (spec_ret_submit q n payload) = 48 + len payload) as -> by (unfold spec_ret_submit; rewrite !len_app, !len_be; reflexivity || (change (len (zeros 12)) with 12; change (len (zeros 20)) with 20; lia)).
          destruct (moves_in u); [lia|rewrite Lp; unfold len in *; cbn [length]; lia].
        * intros _. assert (len (spec_ret_unlink q rm) = 48) as -> by (destruct rm; reflexivity). exact mx48.
      + destruct Ct as [[-> ->]| ->]; [left|right].
        * split; [exact O|]. now destruct rs.
        * rewrite O, Er. reflexivity.
  Qed.

  Hypothesis rem : remembered (wi_drv w) (fw_log (wi_fwd w)).
  Hypothesis back : pi_in (fw_rep (wi_fwd w)) = [] \/ comes_back (sy_out s) (pi_in (fw_rep (wi_fwd w))).

  Lemma session_back rs : sy_out s = [] /\ rs = [] \/ sy_out s = op_rep_import usb_device :: map reply_wire rs ->
    prefix (pi_in (fw_rep (wi_fwd w))) (concat (map reply_wire rs)).
  Proof.
    destruct back as [->|(t & Et)]; [intros _; eexists; reflexivity|]. intros [[O ->]|O]; rewrite O in Et.
    - exfalso. apply (f_equal len) in Et. rewrite !len_app in Et. vm_compute (len (op_rep_import usb_device)) in Et.
      cbn [concat] in Et. unfold len in Et. cbn [length] in Et. lia.
    - cbn [concat] in Et. rewrite <- app_assoc in Et. apply app_inv_head in Et. exists t. exact Et.
  Qed.

  Lemma session_outcomes : forall id o, In (id, o) (dr_done (wi_drv w)) -> exists u, In (id, u) (submitted ls) /\
    (In id (cancelled ls) /\ o = mk_outcome Cancelled (len (buffer u)) (buffer u) \/ from_device s u o).
  Proof.
    intros id o Io. destruct session_replies as (rs & Fr & Ff & Fl & O).
    destruct (outcomes_right devid mx bl ls w rs d32 mx48 room all_known small distinct ord short run cm Ff Fl rem (session_back rs O) id o Io)
      as (u & Iu & [Hc|(q & dir & n & payload & Ir & (r & j & It & Q & Id & U) & Eo)]); exists u; (split; [exact Iu|]); [left; exact Hc|right].
    rewrite Forall_forall in Fr. destruct (Fr _ Ir) as (x & j' & u' & It' & Q' & U' & Ed & En & Lp & Src).
    pose proof (run_inv devid mx bl ls w d32 mx48 room all_known small distinct ord short run (cm true)) as I.
    destruct I as (_ & _ & I3 & _).
    assert (x = r) as -> by (eapply taken_unique; [exact I3|eapply in_taken; eauto|eapply in_taken; eauto|congruence]).
    assert (u' = u) as -> by congruence.
    assert (o = mk_outcome Success (len (buffer u)) (if moves_in u then payload else buffer u)) as ->.
    { rewrite Eo, En. unfold spec_outcome. destruct (moves_in u); [|reflexivity].
      rewrite N.leb_refl. f_equal. unfold dropN, len. rewrite Nat2N.id, skipn_all. apply app_nil_r. }
    unfold from_device. cbn [oc_status oc_length oc_buffer]. split; [reflexivity|]. split; [reflexivity|].
    split; [destruct (moves_in u); [lia|reflexivity]|]. split; [intros ->; reflexivity|].
    pose proof (taken_known _ _ _ It U) as K.
    destruct u as [hd fl' buf|[] typ index lang buf|recip index buf|vendor recip fl' rq value index buf
    |value|number alt|hd fl' setup buf|hd fl' setup buf|]; try exact Logic.I; cbn [moves_in] in *.
    - destruct Src as (S1 & S2). split; [|exact S2]. intros Hin E1. rewrite Hin. exact (S1 Hin E1).
    - destruct K as (_ & _ & Hx & _). exact (Src Hx).
  Qed.

  Lemma session_safe l : N.of_nat (length ls) + 1 < 4294967296 -> fwd_step (wi_fwd w) Iterate <> Some Panic ->
    (forall g, fwd_step (wi_fwd w) Iterate = Some (Ok g) -> remembered (wi_drv w) (fw_log g)) -> win_step w l <> Some Panic.
  Proof.
    intros S1 S2 S3. destruct session_replies as (rs & Fr & Ff & Fl & O).
    exact (driver_fine devid mx bl ls w rs d32 mx48 room all_known small distinct ord short run cm Ff Fl rem l (session_back rs O) S1 S2 S3).
  Qed.
End Session.
