(* The Windows client and the Go server together: at rest every block that the device
   answers has ended. *)
From Verif Require Import P_WinMem Base M_Util M_Usb M_ReqBuf M_Usbip S_ReqBuf S_Usb S_Usbip S_UsbipSys P_ReqBuf P_Usb P_Usbip1 P_Usbip2 P_Usbip3 S_Device P_Device2 P_WinGo1
  M_WinFwd M_WinDrv S_WinFwd S_WinDrv P_WinFwd P_WinRun P_WinRep P_WinDrv P_WinDrv2 P_WinOnce P_WinAns P_WinAns2 P_WinAns3 S_WinGo P_WinGo2 M_WinPair S_WinPair P_WinPair P_WinPair2.
From Coq Require Import Lia.
Open Scope N_scope.

(* ------------------------------------------------- unlinks *)
Definition unlinked (s : sys) : Prop :=
  forall t r, In (EvUnlink t r) (in_trace (sy_in s)) -> exists dd h, In (AUnlink dd h t) (sy_log s).

Lemma in_step_unlink s l i t r : in_step s l = Some i -> In (EvUnlink t r) (in_trace i) ->
  In (EvUnlink t r) (in_trace s) \/ l = IUnlink t.
Proof.
  intros E I. destruct l as [id|k dt|k|k|id]; cbn [in_step] in E.
  - destruct (rb_request _ _ _) as [b' o]. injection E as <-. cbn [in_trace] in I. apply in_app_or in I. destruct I as [I|I]; [now left|].
    exfalso. cbn [In] in I. destruct o; cbn [In app] in I; intuition discriminate.
  - destruct (rb_respond _ _ _) as [[b' o]|]; [|discriminate]. injection E as <-. cbn [in_trace] in I. apply in_app_or in I. destruct I as [I|I]; [now left|].
    exfalso. cbn [In] in I. intuition discriminate.
  - destruct (nth_error _ _); [|discriminate]. injection E as <-. cbn [in_trace] in I. apply in_app_or in I. destruct I as [I|I]; [now left|].
    exfalso. cbn [In] in I. intuition discriminate.
  - destruct (nth_error _ _) as [[id k']|]; [|discriminate]. destruct (rb_cancel _ _) as [b' o]. injection E as <-. cbn [in_trace] in I.
    apply in_app_or in I. destruct I as [I|I]; [now left|]. exfalso. cbn [In] in I. intuition discriminate.
  - destruct (rb_cancel _ _) as [b' o]. injection E as <-. cbn [in_trace] in I. apply in_app_or in I. destruct I as [I|[I|[]]]; [now left|].
    injection I as -> _. now right.
Qed.

Lemma unlinked_step s l s' : unlinked s -> sys_step s l = Some s' -> unlinked s'.
Proof.
  intros U E.
  assert (forall log' x, sy_log s' = log' -> (exists y, log' = sy_log s ++ y) -> sy_in s' = x ->
    (forall t r, In (EvUnlink t r) (in_trace x) -> In (EvUnlink t r) (in_trace (sy_in s)) \/ exists dd h, In (AUnlink dd h t) log') -> unlinked s') as G.
  { intros log' x E1 (y & Y) E2 H t r I. rewrite E2 in I. rewrite E1. destruct (H t r I) as [I'|I']; [|exact I']. destruct (U t r I') as (dd & h & J).
    exists dd, h. rewrite Y. apply in_or_app. now left. }
  destruct l as [| |choice data|j|j]; cbn [sys_step] in E.
  - destruct (sy_pending s); [discriminate|]. destruct (conn_step [usb_device] (sy_conn s)) as [c a].
    destruct a as [|r|d h st b|d h t].
    + injection E as <-. eapply G; [reflexivity|eexists; reflexivity|reflexivity|auto].
    + injection E as <-. eapply G; [reflexivity|eexists; reflexivity|reflexivity|auto].
    + destruct (hd_ep h =? 0); [destruct (handle_control_message _); injection E as <-; (eapply G; [reflexivity|eexists; reflexivity|reflexivity|auto])|].
      destruct (hd_ep h =? 1).
      * destruct (in_step (sy_in s) _) eqn:Q; [|discriminate]. cbn [obind] in E. injection E as <-.
        eapply G; [reflexivity|eexists; reflexivity|reflexivity|]. intros t r I. destruct (in_step_unlink _ _ _ _ _ Q I) as [H|H]; [now left|discriminate].
      * destruct (hd_ep h =? 2); injection E as <-; (eapply G; [reflexivity|eexists; reflexivity|reflexivity|auto]).
    + destruct (in_step (sy_in s) _) eqn:Q; [|discriminate]. cbn [obind] in E. injection E as <-.
      eapply G; [reflexivity|eexists; reflexivity|reflexivity|]. intros t' r I. destruct (in_step_unlink _ _ _ _ _ Q I) as [H|H]; [now left|right].
      injection H as ->. exists d, h. apply in_or_app. right. now left.
  - destruct (sy_pending s); [|discriminate]. injection E as <-. exact U.
  - destruct (in_step (sy_in s) _) eqn:Q; [|discriminate]. cbn [obind] in E. injection E as <-.
    intros t r I. destruct (in_step_unlink _ _ _ _ _ Q I) as [H|H]; [now apply U in H|discriminate].
  - destruct (nth_error (in_flight (sy_in s)) j) as [f|]; [|discriminate]. cbn [obind] in E.
    destruct (nth_error (sy_subs s) (fl_key f)) as [[h b]|]; [|discriminate]. cbn [obind] in E.
    destruct (in_step (sy_in s) _) eqn:Q; [|discriminate]. cbn [obind] in E. injection E as <-.
    intros t r I. destruct (in_step_unlink _ _ _ _ _ Q I) as [H|H]; [now apply U in H|discriminate].
  - destruct (in_step (sy_in s) _) eqn:Q; [|discriminate]. cbn [obind] in E. injection E as <-.
    intros t r I. destruct (in_step_unlink _ _ _ _ _ Q I) as [H|H]; [now apply U in H|discriminate].
Qed.

Lemma unlinked_run ls : forall s s', unlinked s -> sys_run s ls = Some s' -> unlinked s'.
Proof.
  induction ls as [|l ls IH]; intros s s' U R; cbn [sys_run] in R; [now injection R as <-|].
  destruct (sys_step s l) as [s1|] eqn:E; [|discriminate]. cbn [obind] in R. eapply IH; [eapply unlinked_step; eauto|exact R].
Qed.

Lemma number_of_at id es : forall q n, number_of q id es = n -> 0 < q -> n <> 0 ->
  exists a u b, es = a ++ Block id u :: b /\ n = q + N.of_nat (length a).
Proof.
  induction es as [|e es IH]; intros q n E Q Z; cbn [number_of] in E; [congruence|].
  assert (forall k, number_of (q + 1) id es = k -> k <> 0 -> exists a u b, e :: es = a ++ Block id u :: b /\ k = q + N.of_nat (length a)) as N1.
  { intros k K Kz. destruct (IH (q + 1) k K ltac:(lia) Kz) as (a & u & b & -> & ->). exists (e :: a), u, b. split; [reflexivity|]. cbn [length]. lia. }
  destruct e as [i u|i t]; [|now apply N1].
  destruct (Nat.eqb_spec i id) as [->|]; [|now apply N1]. exists [], u, es. split; [reflexivity|]. cbn. lia.
Qed.

(* ------------------------------------------------- the numbers in the log *)
Definition submit_seq (m : message) : list N := match m with MSubmit q _ _ _ _ _ _ _ _ _ _ => [q] | _ => [] end.

Lemma acts_seqs ms1 r : Forall2 acts ms1 r -> submit_seqs r = flat_map submit_seq ms1.
Proof.
  intro F. induction F as [|m a ms1 r Am F IH]; [reflexivity|]. unfold submit_seqs, submits_of in *. cbn [flat_map].
  rewrite map_app, IH. f_equal. unfold acts in Am. destruct m; cbn [spec_phase_action] in Am; try discriminate; injection Am as <-; reflexivity.
Qed.

Lemma acts_in ms1 r m : Forall2 acts ms1 r -> In m ms1 -> exists a, acts m a /\ In a r.
Proof.
  intro F. induction F as [|m' a ms1 r Am F IH]; [intros []|]. intros [->|I]; [exists a; split; [exact Am|now left]|].
  destruct (IH I) as (b & B1 & B2). exists b. split; [exact B1|now right].
Qed.

Lemma acts_from ms1 r a : Forall2 acts ms1 r -> In a r -> exists m, acts m a /\ In m ms1.
Proof.
  intro F. induction F as [|m' a' ms1 r Am F IH]; [intros []|]. intros [->|I]; [exists m'; split; [exact Am|now left]|].
  destruct (IH I) as (b & B1 & B2). exists b. split; [exact B1|now right].
Qed.

Lemma answers_wire q r : q < 4294967296 -> (forall q' d n x, r = RSubmit q' d n x -> q' < 4294967296) ->
  answers q (reply_wire r) = true -> exists d n x, r = RSubmit q d n x.
Proof.
  intros Q Q' A. unfold answers in A. apply bytes_eqb_eq in A. destruct r as [q' d n x|q' rm]; cbn [reply_wire] in A.
  - change (takeN 8 (spec_ret_submit q' n x)) with (be 4 3 ++ be 4 q') in A. apply app_inv_head in A.
    apply (f_equal be_dec) in A. rewrite !be_dec_be_small in A by (assumption || exact (Q' _ _ _ _ eq_refl)). subst q'. eauto.
  - change (takeN 8 (spec_ret_unlink q' rm)) with (be 4 4 ++ be 4 q') in A. discriminate.
Qed.

Lemma supported_junk devid q j u ep fl sta pk iv n setup dt dir b :
  junk_message devid q j u = MSubmit q devid dir ep fl sta pk iv n setup dt ->
  supported (mk_header 1 q devid dir ep, setup, b) = device_answers u.
Proof.
  intro E. unfold supported, device_answers. cbn [hd_ep].
  destruct u as [h flg buf|[] typ index lang buf|recip index buf|vendor recip flg rq value index buf
    |value|number alt|h flg st buf|h flg st buf|]; cbn [junk_message] in E; unfold spec_message in *;
  injection E as <- <- <- <- <- <- <- <- <-; try reflexivity.
Qed.

Lemma ret_long q n x : 48 <= len (spec_ret_submit q n x).
Proof. unfold spec_ret_submit. rewrite !len_app, !len_be. change (len (zeros 12)) with 12. change (len (zeros 20)) with 20. lia. Qed.

Lemma nodup_fst {B} (l : list (nat * B)) i x y : NoDup (map fst l) -> In (i, x) l -> In (i, y) l -> x = y.
Proof.
  induction l as [|[j z] l IH]; [intros _ []|]. intros N. cbn [map fst] in N. apply NoDup_cons_iff in N. destruct N as (N1 & N2).
  assert (forall v, In (i, v) l -> j <> i) as D by (intros v I ->; apply N1; apply in_map_iff; exists (i, v); auto).
  intros [[= -> ->]|I] [[= E1]|J]; auto.
  - exfalso. now apply (D y J).
  - exfalso. now apply (D x I).
Qed.

Section Whole.
  Variables (devid mx bl : N) (start : list bytes) (ls : list pair_label) (p : pair) (attach : message).
  Hypothesis d32 : devid < 4294967296.
  Hypothesis mx48 : 48 <= mx.
  Hypothesis room : mx + bl < 4294967296.
  Hypothesis half : mx <= 2147483648.
  Hypothesis pr : proper devid mx bl (wins ls) (pr_win p).
  Hypothesis at1 : attaches attach.
  Hypothesis at2 : concat start = message_bytes attach.
  Hypothesis run : pair_run (pair0 devid start) ls = Some (Ok p).
  Let d := wi_drv (pr_win p).
  Let ms := messages d.
  Hypothesis arr : arrives attach ms (start ++ pr_carried p).
  Hypothesis rem : remembered d (fw_log (wi_fwd (pr_win p))).

  Lemma whole_replies : exists rs, Forall (reply_from d (pr_sys p)) rs /\ Forall (fair_one d) rs /\
    Forall (fun r => len (reply_wire r) <= mx) rs /\
    (sy_out (pr_sys p) = [] /\ rs = [] \/ sy_out (pr_sys p) = op_rep_import usb_device :: map reply_wire rs).
  Proof.
    destruct pr as (P1 & P2 & P3 & P4 & P5 & P6 & P7 & P8). destruct (pair_parts devid start ls p run) as (_ & I2 & _ & _).
    exact (session_replies devid mx bl _ _ d32 mx48 room half P1 P2 P3 P4 P5 P6 P7 P8 attach (start ++ pr_carried p) (serves ls) (pr_sys p) at1
      (point_reaches devid start ls p attach at2 run arr) (waited_run _ _ _ I2)).
  Qed.

  Theorem whole_outcomes : forall id o, In (id, o) (dr_done d) -> exists u, In (id, u) (submitted (wins ls)) /\
    (In id (cancelled (wins ls)) /\ o = mk_outcome Cancelled (len (buffer u)) (buffer u) \/ from_device (pr_sys p) u o).
  Proof.
    destruct pr as (P1 & P2 & P3 & P4 & P5 & P6 & P7 & P8). destruct (pair_parts devid start ls p run) as (_ & I2 & _ & I4).
    exact (session_outcomes devid mx bl _ _ d32 mx48 room half P1 P2 P3 P4 P5 P6 P7 P8 attach (start ++ pr_carried p) (serves ls) (pr_sys p) at1
      (point_reaches devid start ls p attach at2 run arr) (waited_run _ _ _ I2) rem I4).
  Qed.

  Theorem whole_safe : N.of_nat (length (wins ls)) + 1 < 4294967296 -> fwd_step (wi_fwd (pr_win p)) Iterate <> Some Panic ->
    (forall g, fwd_step (wi_fwd (pr_win p)) Iterate = Some (Ok g) -> remembered d (fw_log g)) -> forall l, pair_step p l <> Some Panic.
  Proof.
    intros S1 S2 S3. destruct pr as (P1 & P2 & P3 & P4 & P5 & P6 & P7 & P8). destruct (pair_parts devid start ls p run) as (_ & I2 & _ & I4).
    pose proof (fun l => session_safe devid mx bl _ _ d32 mx48 room half P1 P2 P3 P4 P5 P6 P7 P8 attach (start ++ pr_carried p) (serves ls) (pr_sys p) at1
      (point_reaches devid start ls p attach at2 run arr) (waited_run _ _ _ I2) rem I4 l S1 S2 S3) as H.
    intros [l|l|n]; cbn [pair_step].
    - destruct (match l with WGot b => _ | _ => _ end); [|discriminate]. specialize (H l).
      destruct (win_step (pr_win p) l) as [[w|]|]; cbn [obind rbind]; try discriminate. congruence.
    - destruct (match l with SRead => _ | _ => _ end); [|discriminate]. destruct (sys_step _ _); discriminate.
    - destruct (_ && _); discriminate.
  Qed.

  (* the replies come in time *)
  Lemma whole_in_time rs : sy_out (pr_sys p) = op_rep_import usb_device :: map reply_wire rs -> Forall (fair_one d) rs ->
    in_time devid (wins ls) rs.
  Proof.
    intros O Fr before after w a q dir n payload b Els Rw Er Len.
    destruct (wins_split _ _ _ Els) as (l1 & l2 & El & W1 & W2). pose proof run as R. rewrite El in R.
    destruct (pair_run_app _ _ _ _ R) as (p1 & R1 & R2).
    pose proof (pair_parts devid start l1 p1 R1) as (V1 & _ & _ & V4).
    assert (pr_win p1 = w) as <- by (rewrite W1 in V1; congruence).
    pose proof pr as Pr. rewrite Els, <- W1 in Pr. rewrite <- W1 in Rw.
    destruct (proper_prefix _ _ _ _ _ _ _ Pr Rw) as (Pr1 & x & X).
    destruct (pair_grows _ _ _ R2) as ((y & Y) & z & Z).
    assert (dr_devid (wi_drv (pr_win p1)) = dr_devid d) as Dv.
    { pose proof (point_inv devid mx bl l1 p1 d32 mx48 room Pr1) as (_ & _ & _ & _ & A & _).
      pose proof (point_inv devid mx bl ls p d32 mx48 room pr) as (_ & _ & _ & _ & B & _). fold d in B. congruence. }
    assert (ms = messages (wi_drv (pr_win p1)) ++ map (msg_of (dr_devid d)) x) as Em.
    { unfold ms, messages, d. rewrite X, map_app. fold d. now rewrite Dv. }
    assert (arrives attach (messages (wi_drv (pr_win p1))) (start ++ pr_carried p1)) as Arr1.
    { eapply arrives_prefix. rewrite <- app_assoc, <- Z, <- Em. exact arr. }
    assert (0 < len (pi_in (fw_rep (wi_fwd (pr_win p1))))) as Pos.
    { rewrite map_app, concat_app, len_app in Len. cbn [map concat reply_wire] in Len. rewrite app_nil_r in Len.
      assert (48 <= len (spec_ret_submit q n payload)); [|lia]. apply ret_long. }
    destruct V4 as [V4|(t & V4)]; [unfold got in V4; rewrite V4 in Pos; unfold len in Pos; cbn [length] in Pos; lia|].
    unfold got in V4. rewrite O in Y.
    destruct (sy_out (pr_sys p1)) as [|f frames] eqn:O1.
    { exfalso. apply (f_equal len) in V4. rewrite !len_app in V4. cbn [concat] in V4. unfold len in *. cbn [length] in V4. lia. }
    injection Y as <- Y. cbn [concat] in V4. rewrite <- app_assoc in V4. apply app_inv_head in V4.
    assert (In (reply_wire (RSubmit q dir n payload)) frames) as If.
    { rewrite Er, map_app in Y. cbn [map] in Y. symmetry in Y. destruct (app_eq_app _ _ _ _ Y) as (k & [[A B]|[A B]]).
      - destruct k as [|f k]; [|rewrite A; injection B as <- _; apply in_or_app; right; now left]. exfalso.
        rewrite app_nil_r in A. subst frames. apply (f_equal len) in V4. rewrite len_app in V4.
        rewrite map_app, concat_app, len_app in Len. cbn [map concat reply_wire] in Len. rewrite app_nil_r in Len.
        assert (48 <= len (spec_ret_submit q n payload)) by (apply ret_long). lia.
      - exfalso. rewrite map_app, concat_app, len_app, A, concat_app, len_app in Len. cbn [map concat reply_wire] in Len. rewrite app_nil_r in Len.
        apply (f_equal len) in V4. rewrite len_app in V4.
        assert (48 <= len (spec_ret_submit q n payload)) by (apply ret_long). lia. }
    assert (q < 4294967296) as Q.
    { rewrite Forall_forall in Fr. assert (In (RSubmit q dir n payload) rs) as Ir by (rewrite Er; apply in_or_app; right; now left).
      destruct (Fr _ Ir) as (id & u & (r0 & j & It & <- & _) & _). pose proof (point_inv devid mx bl ls p d32 mx48 room pr) as (_ & _ & I3 & _ & _ & I6 & _).
      apply (taken_small d); [exact I3| |eapply in_taken; exact It]. destruct pr as (_ & _ & _ & _ & _ & P6 & _). unfold d. lia. }
    exact (point_reply devid mx bl start l1 p1 attach d32 mx48 room half Pr1 at1 at2 R1 Arr1 frames _ q dir n payload O1 If eq_refl Q).
  Qed.

  Theorem whole_ends ls' junk : wins ls = ls' ++ [WLoop junk] -> at_rest p ->
    forall id u, In (id, u) (submitted (wins ls)) -> ~ In id (cancelled (wins ls)) -> device_answers u = true ->
    exists o, In (id, o) (dr_done d) /\ from_device (pr_sys p) u o.
  Proof.
    intros El (T1 & T2 & T3 & T4 & T5 & T6 & T7 & T8) id u Iu Nc Da.
    destruct pr as (P1 & P2 & P3 & P4 & P5 & P6 & P7 & P8). destruct (pair_parts devid start ls p run) as (_ & I2 & _ & _).
    destruct (all_given devid mx bl _ _ d32 mx48 room P1 P3 P4 P5 P6 P7 (P8 true) ls' junk El T1 T2 T3) as (Pe & Es). fold d in Pe, Es.
    pose proof (point_inv devid mx bl ls p d32 mx48 room pr) as (_ & _ & I3 & I4 & I5 & I6 & _). fold d in I3, I4, I5, I6.
    destruct I4 as (H1 & H2 & H3 & _). apply uok_unlinks in H3.
    assert (entries d = map entry_of (taken d)) as Et by (unfold entries; now rewrite Pe, app_nil_r).
    (* the block was given out *)
    assert (exists r j, In (r, j) (dr_taken d) /\ ur_what r = Some u /\ ur_id r = id) as (r & j & It & U & Id).
    { destruct (H2 _ Iu) as [B|B]; [|contradiction]. rewrite Et in B. unfold blocks in B. apply in_flat_map in B. destruct B as (e & E1 & E2).
      apply in_map_iff in E1. destruct E1 as (r & <- & E1). unfold taken in E1. apply in_map_iff in E1. destruct E1 as ((r' & j) & E & I).
      cbn [fst] in E. subst r'. unfold entry_of in E2. destruct (ur_what r) as [u'|] eqn:U; [|contradiction]. destruct E2 as [[= <- <-]|[]]. eauto. }
    set (q := ur_seq r). assert (q < 4294967296) as Q by (apply (taken_small d); [exact I3|lia|eapply in_taken; exact It]).
    assert (1 <= q) as Q1.
    { pose proof (in_taken _ _ _ It) as It'. destruct (in_split _ _ It') as (a & b & Sp). unfold q. rewrite (taken_number d _ _ _ I3 Sp). lia. }
    (* and read by the server *)
    assert (exists rr, sy_log (pr_sys p) = AWrite (op_rep_import usb_device) :: rr /\ Forall2 acts ms rr) as (rr & L & F2).
    { destruct (point_log devid mx bl start ls p attach d32 mx48 room half pr at1 at2 run arr) as [L|(ms1 & ms2 & rr & E1 & E2 & E3 & E4)].
      - exfalso. destruct whole_replies as (rs & Fr & _ & _ & [[O ->]|O]).
        + rewrite O in T8. apply (f_equal len) in T8. rewrite len_app in T8. vm_compute (len (op_rep_import usb_device)) in T8.
          cbn [concat] in T8. unfold len in T8. cbn [length] in T8. lia.
        + destruct (pair_parts devid start ls p run) as (_ & J2 & _ & _).
          assert (wire_inv (pr_sys p)) as Wv by (eapply wire_run; [apply wire_init; exact (proj1 arr)|exact (waited_run _ _ _ J2)]).
          assert (framed_inv (pr_sys p)) as J.
          { eapply (framed_run []); [apply wire_init; exact (proj1 arr)| |exact (waited_run _ _ _ J2)|left; exact L]. left. exists []. cbn. auto. }
          destruct J as [(frames & O' & F & _)|(r0 & O' & _)]; [|congruence]. rewrite L in O'. cbn [flat_map app] in O'.
          rewrite O in O'. subst frames. pose proof (Forall_inv F) as Ff. unfold frame_from in Ff. rewrite L in Ff.
          destruct Ff as [(? & ? & ? & ? & [] & _)|(? & ? & [] & _)].
      - exists rr. split; [exact E2|]. rewrite T6, app_nil_r in E4. rewrite E4 in T5. rewrite Es in T5. fold ms in T5.
        assert (ms2 = []) as ->; [|rewrite app_nil_r in E1; unfold ms, d; rewrite E1; exact E3].
        fold d ms in E1. rewrite E1, map_app, concat_app in T5. rewrite <- (app_nil_r (concat (map message_bytes ms1))) in T5 at 1. apply app_inv_head in T5.
        destruct ms2 as [|m ms2]; [reflexivity|]. exfalso. cbn [map concat] in T5. symmetry in T5. apply app_eq_nil in T5. destruct T5 as (T5 & _).
        assert (command m) as Km by (apply (message_command d); change (In m ms); rewrite E1; apply in_or_app; right; now left).
        destruct m; try contradiction; discriminate. }
    set (m := msg_of (dr_devid d) (r, j)).
    assert (In m ms) as Im by (unfold ms, messages; apply in_map_iff; exists (r, j); auto).
    destruct (junk_parts (dr_devid d) q j u) as (ep & fl & iv & st & Ej & _).
    assert (m = MSubmit q (dr_devid d) (dir_of u) ep fl 0 0 iv (len (buffer u)) st (sends u)) as Emm.
    { unfold m, msg_of. cbn [fst snd]. rewrite U. exact Ej. }
    destruct (acts_in _ _ _ F2 Im) as (a & Aa & Ia). unfold acts in Aa. rewrite Emm in Aa. cbn [spec_phase_action msg_header] in Aa. injection Aa as <-.
    set (sb := if dir_of u =? 0 then sends u else zeros (N.to_nat (len (buffer u)))) in *.
    assert (In (mk_header 1 q (dr_devid d) (dir_of u) ep, st, sb) (submits_of (sy_log (pr_sys p)))) as Is.
    { rewrite L. unfold submits_of. cbn [flat_map app]. apply in_flat_map. eexists. split; [exact Ia|now left]. }
    assert (NoDup (submit_seqs (sy_log (pr_sys p)))) as Nd.
    { rewrite L. change (NoDup (submit_seqs rr)). rewrite (acts_seqs _ _ F2).
      assert (flat_map submit_seq ms = flat_map seq_of ms) as -> by reflexivity. apply (uniqueF devid mx bl d d32 mx48 room I3 I5). lia. }
    pose proof (quiet_answered _ _ _ (proj1 arr) (waited_run _ _ _ I2) Nd T7 _ Is) as An. cbn [fst hd_seq] in An.
    rewrite (supported_junk _ _ _ _ _ _ _ _ _ _ _ _ _ sb Ej), Da in An.
    (* no unlink took it *)
    assert (unlinks q (in_trace (sy_in (pr_sys p))) = 0%nat) as Un.
    { unfold unlinks. destruct (filter _ _) as [|e es] eqn:Fi; [reflexivity|]. exfalso.
      assert (In e (e :: es)) as Ie by now left. rewrite <- Fi in Ie. apply filter_In in Ie. destruct Ie as (Ie & Te).
      destruct e as [| | |id0 removed|]; try discriminate. destruct removed; [|discriminate]. apply N.eqb_eq in Te. subst id0.
      assert (unlinked (pr_sys p)) as Ul by (eapply unlinked_run; [|exact (waited_run _ _ _ I2)]; intros ? ? []).
      destruct (Ul _ _ Ie) as (dd & h & Il). rewrite L in Il. destruct Il as [Il|Il]; [discriminate|].
      destruct (acts_from _ _ _ F2 Il) as (mu & Am & Imu). unfold acts in Am.
      destruct mu as [| | |sq dv di e t pad]; cbn [spec_phase_action] in Am; try discriminate. injection Am as _ _ ->.
      unfold ms, messages in Imu. apply in_map_iff in Imu. destruct Imu as ((ru & ju) & Eu & Iru). unfold msg_of in Eu. cbn [fst snd] in Eu.
      destruct (ur_what ru) as [uu|] eqn:Uu.
      { destruct (junk_parts (dr_devid d) (ur_seq ru) ju uu) as (e1 & e2 & e3 & e4 & E' & _). rewrite E' in Eu. discriminate. }
      injection Eu as _ _ _ _ Tg _. pose proof (in_taken _ _ _ Iru) as Iru'. destruct (in_split _ _ Iru') as (ta & tb & Sp).
      destruct (H3 (map entry_of ta) (ur_id ru) (ur_target ru) (map entry_of tb)) as (Ca & Nu).
      { rewrite Et, Sp, map_app. cbn [map]. unfold entry_of at 2. now rewrite Uu. }
      rewrite Tg in Nu. symmetry in Nu. destruct (number_of_at _ _ 1 _ Nu ltac:(lia) ltac:(lia)) as (ea & u2 & eb & Ea & Nq).
      pose proof (in_taken _ _ _ It) as It'. destruct (in_split _ _ It') as (ra & rb & Sr). pose proof (taken_number d _ _ _ I3 Sr) as Nr. fold q in Nr.
      assert (length ra = length ea) as Le by lia.
      assert (nth_error (entries d) (length ra) = Some (Block id u)) as X1.
      { rewrite Et, Sr, map_app. cbn [map]. rewrite nth_error_app2; rewrite map_length; [|lia]. rewrite Nat.sub_diag. cbn [nth_error].
        unfold entry_of. now rewrite U, Id. }
      assert (nth_error (entries d) (length ra) = Some (Block (ur_id ru) u2)) as X2.
      { rewrite Et, Sp, map_app, Ea, <- app_assoc. rewrite nth_error_app2; [|lia]. rewrite Le, Nat.sub_diag. reflexivity. }
      rewrite X1 in X2. injection X2 as X2 _. apply Nc. now rewrite X2. }
    rewrite Un in An. unfold S_Usbip.answered in An.
    destruct (filter _ _) as [|f fs] eqn:Fi; [discriminate|]. clear An.
    assert (In f (f :: fs)) as If by now left. rewrite <- Fi in If. apply filter_In in If. destruct If as (If & Af).
    destruct whole_replies as (rs & Fr & Ff & Fl & O). destruct O as [[O _]|O]; [rewrite O in If; destruct If|].
    pose proof (whole_in_time rs O Ff) as Ti. rewrite O in If. destruct If as [<-|If].
    { exfalso. unfold answers in Af. apply bytes_eqb_eq in Af. apply (f_equal (fun l => nth 0 l 9)) in Af. vm_compute in Af. discriminate. }
    apply in_map_iff in If. destruct If as (rp & <- & Ir).
    destruct (answers_wire q rp Q) as (di & n & x & ->); [|exact Af|].
    { intros q' d' n x ->. rewrite Forall_forall in Ff. destruct (Ff _ Ir) as (? & ? & (r0 & j0 & It0 & <- & _) & _).
      apply (taken_small d); [exact I3|lia|eapply in_taken; exact It0]. }
    assert (got (pr_win p) = concat (map reply_wire rs)) as Gt.
    { rewrite O in T8. cbn [concat] in T8. apply app_inv_head in T8. now symmetry. }
    destruct (outcomes_all devid mx bl _ _ rs d32 mx48 room P1 P3 P4 P5 P6 P7 P8 Ff Fl rem ls' junk El T1 Gt T4 Ti _ _ _ _ Ir)
      as (id' & u' & o & (r' & j' & It' & Q' & Id' & U') & Io). fold d in It', Io.
    assert (r' = r) as -> by (eapply taken_unique; [exact I3|eapply in_taken; eauto|eapply in_taken; eauto|exact Q']).
    assert (id' = id) as -> by congruence. exists o. split; [exact Io|].
    destruct (whole_outcomes _ _ Io) as (u0 & Iu0 & [(Hc & _)|Hf]); [contradiction|].
    assert (u0 = u) as ->; [|exact Hf].
    eapply nodup_fst; eauto.
  Qed.
End Whole.

(* arrives, decided *)
Definition arrives_b (attach : message) (ms : list message) (pieces : list bytes) : bool :=
  forallb wfbb pieces &&
  forallb (fun sp => forallb (fun b => (b <=? fst sp) || (fst sp + snd sp <=? b)) (boundaries 0 pieces)) (data_spans 0 (attach :: ms)).

Lemma arrives_b_ok attach ms pieces : arrives_b attach ms pieces = true -> arrives attach ms pieces.
Proof.
  unfold arrives_b. rewrite Bool.andb_true_iff. intros (A & B). rewrite forallb_forall in A, B.
  split; apply Forall_forall; intros x I; [apply wfbb_iff; auto|]. specialize (B _ I). rewrite forallb_forall in B.
  apply Forall_forall. intros b Ib. specialize (B _ Ib). apply Bool.orb_true_iff in B. rewrite !N.leb_le in B. exact B.
Qed.
