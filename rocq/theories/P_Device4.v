(* Messages handled in order: what the host reads is what the CTAPHID server answers. *)
From Verif Require Import Base M_Util M_Usb M_ReqBuf M_Usbip M_Hid M_Crypto M_Cose M_State M_Client M_Ctap M_U2f M_History
  M_Device S_ReqBuf S_Usbip S_UsbipSys S_Hid S_Device P_ReqBuf P_Usb P_Usbip2 P_Usbip3 P_Hid1 P_Hid2 P_Hid4
  P_Device1 P_Device2 P_Device3.
From Coq Require Import Lia.

(* ---------------------------------------------------- the answers to IN transfers *)
Definition in_frames (subs : list (header * bytes)) (t : list in_event) : list bytes :=
  flat_map (fun e => match e with
    | EvCallback k v => match nth_error subs k with Some (h, b) => [return_submit h b v] | None => [] end
    | _ => [] end) t.

Lemma in_frames_app subs a b : in_frames subs (a ++ b) = in_frames subs a ++ in_frames subs b.
Proof. apply flat_map_app. Qed.

Lemma in_frames_ext subs x t : (forall k v, In (EvCallback k v) t -> (k < length subs)%nat) ->
  in_frames (subs ++ x) t = in_frames subs t.
Proof.
  induction t as [|e t IH]; intro H; [reflexivity|]. unfold in_frames in *. cbn [flat_map].
  rewrite IH by (intros k v Hk; apply (H k v); now right). f_equal.
  destruct e; auto. rewrite nth_error_app1 by (apply (H k v); now left). reflexivity.
Qed.

Lemma control_reply_no log f : control_reply f -> Forall submit_ok (submits_of log) -> answers_in log f = false.
Proof.
  intros C F. unfold answers_in. induction F as [|[[h st] b] l (_ & _ & _ & K) F IH]; [reflexivity|]. cbn [existsb].
  rewrite IH, (control_reply_answers _ _ C K), andb_false_r. reflexivity.
Qed.

Lemma answers_in_app a b f : answers_in (a ++ b) f = answers_in a f || answers_in b f.
Proof. unfold answers_in. now rewrite submits_app, existsb_app. Qed.

Lemma answers_in_new log a P f : on_wire log P f -> Forall submit_ok (submits_of (log ++ [a])) ->
  NoDup (submit_seqs (log ++ [a])) -> answers_in (log ++ [a]) f = answers_in log f.
Proof.
  intros W F ND. rewrite answers_in_app.
  assert (answers_in [a] f = false) as ->; [|apply orb_false_r].
  destruct a as [|r|d h st b|d h t]; try reflexivity.
  unfold answers_in. cbn [submits_of flat_map app existsb]. rewrite orb_false_r.
  rewrite submits_app in F. apply Forall_app in F as [F1 F2]. cbn in F2. apply Forall_inv in F2.
  destruct F2 as (_ & _ & _ & Hq).
  assert (FR : forall h' st' b', In (h', st', b') (submits_of log) -> hd_seq h' <> hd_seq h).
  { intros h' st' b' Hi He. unfold submit_seqs in ND. rewrite submits_app, map_app in ND. cbn in ND.
    apply NoDup_remove_2 in ND. rewrite app_nil_r in ND. apply ND. rewrite <- He.
    apply in_map_iff. exists (h', st', b'). auto. }
  rewrite Forall_forall in F1.
  destruct W as [C|h' rm Hi ->|h' st' b' pl Hi _ ->|h' st' b' p Hi _ _ _ ->|h' st' b' Hi _ _ ->].
  - rewrite (control_reply_answers _ _ C Hq). apply andb_false_r.
  - rewrite answers_unlink. apply andb_false_r.
  - destruct (F1 _ Hi) as (_ & _ & _ & Hs). rewrite answers_submit by assumption.
    apply FR in Hi. apply N.eqb_neq in Hi. rewrite Hi. apply andb_false_r.
  - destruct (F1 _ Hi) as (_ & _ & _ & Hs). rewrite answers_submit by assumption.
    apply FR in Hi. apply N.eqb_neq in Hi. rewrite Hi. apply andb_false_r.
  - destruct (F1 _ Hi) as (_ & _ & _ & Hs). rewrite answers_submit by assumption.
    apply FR in Hi. apply N.eqb_neq in Hi. rewrite Hi. apply andb_false_r.
Qed.

Lemma filter_same log a P fs : Forall (on_wire log P) fs -> Forall submit_ok (submits_of (log ++ [a])) ->
  NoDup (submit_seqs (log ++ [a])) -> filter (answers_in (log ++ [a])) fs = filter (answers_in log) fs.
Proof.
  intros W F ND. induction W as [|f fs Hf W IH]; [reflexivity|]. cbn [filter].
  rewrite (answers_in_new _ _ _ _ Hf F ND), IH. reflexivity.
Qed.

Lemma own_answer log h st b v : In (h, st, b) (submits_of log) -> submit_ok (h, st, b) -> hd_ep h = 1 ->
  answers_in log (return_submit h b v) = true.
Proof.
  intros Hi (H1 & H2 & _ & H4) He. unfold answers_in. apply existsb_exists. exists (h, st, b). split; [exact Hi|].
  rewrite He, return_submit_spec, answers_submit, N.eqb_refl by assumption. rewrite N.eqb_refl. reflexivity.
Qed.

Lemma foreign_answer log h st b v : NoDup (submit_seqs log) -> Forall submit_ok (submits_of log) ->
  In (h, st, b) (submits_of log) -> hd_ep h <> 1 -> answers_in log (return_submit h b v) = false.
Proof.
  intros ND F Hi He. rewrite Forall_forall in F. destruct (F _ Hi) as (H1 & H2 & _ & H4).
  unfold answers_in. destruct (existsb _ _) eqn:X; [|reflexivity]. exfalso.
  apply existsb_exists in X as ([[h' st'] b'] & Hi' & X). apply andb_prop in X as [X1 X2].
  destruct (F _ Hi') as (_ & _ & _ & H4'). apply N.eqb_eq in X1.
  rewrite return_submit_spec, answers_submit in X2 by assumption. apply N.eqb_eq in X2.
  assert ((h, st, b) = (h', st', b')) as Q.
  { apply (nodup_map_inj (fun x => hd_seq (fst (fst x))) (submits_of log)); auto. }
  injection Q as <- <- <-. contradiction.
Qed.

Lemma unlink_no log h rm : hd_command h = 2 -> answers_in log (return_unlink h rm) = false.
Proof.
  intro C. rewrite return_unlink_spec by exact C. unfold answers_in. destruct (existsb _ _) eqn:X; [|reflexivity].
  apply existsb_exists in X as ([[h' st'] b'] & _ & X). rewrite answers_unlink, andb_false_r in X. discriminate X.
Qed.

Definition read_inv (s : sys) : Prop :=
  filter (answers_in (sy_log s)) (sy_out s) = in_frames (sy_subs s) (in_trace (sy_in s)) /\
  filter (answers_in (sy_log s)) (opt_list (sy_pending s)) = [].

Lemma read_step s l s' : sys_inv s -> wire_inv s -> read_inv s -> sys_step s l = Some s' ->
  NoDup (submit_seqs (sy_log s')) -> read_inv s'.
Proof.
  intros SI I (R1 & R2) E ND. pose proof (wire_step _ _ _ I E) as I'.
  pose proof (wi_submits _ I') as F'. pose proof (wi_out _ I) as IO. pose proof (wi_pending _ I) as IP.
  pose proof (subs_len s SI) as SL.
  destruct l as [| |choice data|j|j]; cbn [sys_step] in E.
  - destruct (sy_pending s) eqn:P; [discriminate|].
    destruct (conn_step [usb_device] (sy_conn s)) as [c a] eqn:CS.
    pose proof (conn_step_facts _ _ _ _ (wi_wf s I) CS) as [Wc Ha].
    destruct a as [|r|d h st b|d h t].
    + injection E as <-. cbn [sy_log] in *. split; cbn [sy_out sy_subs sy_in sy_log sy_pending opt_list filter];
        [|reflexivity]. rewrite (filter_same _ _ _ _ IO F' ND). exact R1.
    + injection E as <-. cbn [sy_log] in *. split; cbn [sy_out sy_subs sy_in sy_log sy_pending opt_list filter].
      * rewrite (filter_same _ _ _ _ IO F' ND). exact R1.
      * rewrite control_reply_no; [reflexivity| |exact F']. eapply conn_step_control_reply; eassumption.
    + assert (Hi : In (h, st, b) (submits_of (sy_log s ++ [ASubmit d h st b]))).
      { rewrite submits_app. apply in_or_app. right. now left. }
      assert (G : forall x del, NoDup (submit_seqs (sy_log s ++ [ASubmit d h st b])) ->
                Forall submit_ok (submits_of (sy_log s ++ [ASubmit d h st b])) ->
                (forall f, x = Some f -> hd_ep h <> 1 /\ exists v, f = return_submit h b v) ->
                read_inv (mk_sys c (sy_in s) (sy_subs s) x del (sy_out s) (sy_log s ++ [ASubmit d h st b]))).
      { intros x del ND' F'' Hx. split; cbn [sy_out sy_subs sy_in sy_log sy_pending].
        - rewrite (filter_same _ _ _ _ IO F'' ND'). exact R1.
        - destruct x as [f|]; [|reflexivity]. destruct (Hx f eq_refl) as (He & v & ->).
          cbn [opt_list filter]. rewrite (foreign_answer _ _ st _ _ ND' F'' Hi He). reflexivity. }
      destruct (N.eqb_spec (hd_ep h) 0) as [E0|E0].
      * destruct (handle_control_message (read_setup st)) as [r|]; injection E as <-; apply G; auto; [|discriminate].
        intros f [= <-]. split; [lia|eauto].
      * destruct (N.eqb_spec (hd_ep h) 1) as [E1|E1].
        -- destruct (in_step (sy_in s) (ISubmit (hd_seq h))) as [i|] eqn:IS; [|discriminate].
           cbn [obind] in E. injection E as <-. cbn [sy_log] in *.
           assert (Hok : submit_ok (h, st, b)) by (rewrite Forall_forall in F'; auto).
           assert (CB : forall k v, In (EvCallback k v) (in_trace (sy_in s)) -> (k < length (sy_subs s))%nat).
           { intros k v H. rewrite SL. eapply callback_bound; [apply SI|exact H]. }
           cbn [in_step] in IS. destruct (rb_request _ _ _) as [bf now]. injection IS as <-.
           split; cbn [sy_out sy_subs sy_in sy_log sy_pending opt_list filter in_trace snd]; [|reflexivity].
           rewrite filter_app, in_frames_app, in_frames_ext by exact CB.
           rewrite (filter_same _ _ _ _ IO F' ND), R1. f_equal.
           destruct now as [dt|]; [|reflexivity]. cbn [filter in_frames flat_map app].
           rewrite nth_error_app2, SL, Nat.sub_diag by lia. cbn [nth_error app].
           rewrite (own_answer _ _ st) by assumption. reflexivity.
        -- destruct (N.eqb_spec (hd_ep h) 2) as [E2|E2]; injection E as <-; apply G; auto; [|discriminate].
           intros f [= <-]. split; [lia|eauto].
    + destruct Ha as (_ & _ & H1 & _).
      destruct (in_step (sy_in s) (IUnlink t)) as [i|] eqn:IS; [|discriminate].
      cbn [obind] in E. injection E as <-. cbn [sy_log in_step] in *. destruct (rb_cancel _ _) as [bf rm].
      injection IS as <-. split; cbn [sy_out sy_subs sy_in sy_log sy_pending opt_list filter in_trace snd].
      * rewrite (filter_same _ _ _ _ IO F' ND), in_frames_app. cbn. rewrite app_nil_r. exact R1.
      * rewrite unlink_no by exact H1. reflexivity.
  - destruct (sy_pending s) as [f|] eqn:P; [|discriminate]. injection E as <-.
    split; cbn [sy_out sy_subs sy_in sy_log sy_pending opt_list filter]; [|reflexivity].
    rewrite filter_app. cbn [opt_list] in R2. rewrite R2, app_nil_r. exact R1.
  - destruct (in_step (sy_in s) (IRespond choice data)) as [i|] eqn:IS; [|discriminate].
    cbn [obind] in E. injection E as <-. cbn [in_step] in IS.
    destruct (rb_respond _ _ _) as [[bf cb]|]; [|discriminate IS]. injection IS as <-.
    split; cbn [sy_out sy_subs sy_in sy_log sy_pending in_trace]; [|exact R2].
    rewrite in_frames_app. cbn. rewrite app_nil_r. exact R1.
  - destruct (nth_error (in_flight (sy_in s)) j) as [f|] eqn:F; [|discriminate]. cbn [obind] in E.
    destruct (nth_error (sy_subs s) (fl_key f)) as [[h b]|] eqn:S; [|discriminate]. cbn [obind] in E.
    cbn [in_step] in E. rewrite F in E. cbn [obind] in E. injection E as <-.
    split; cbn [sy_out sy_subs sy_in sy_log sy_pending in_trace]; [|exact R2].
    rewrite filter_app, in_frames_app, R1. f_equal. cbn [in_frames flat_map app filter]. rewrite S.
    apply nth_error_In in S. destruct (wi_subs s I _ _ S) as [S1 [st S2]].
    rewrite (own_answer _ _ st); [reflexivity|exact S2| |exact S1].
    pose proof (wi_submits _ I) as K. rewrite Forall_forall in K. auto.
  - destruct (in_step (sy_in s) (ITimeout j)) as [i|] eqn:IS; [|discriminate].
    cbn [obind] in E. injection E as <-. cbn [in_step] in IS.
    destruct (nth_error (in_timers (sy_in s)) j) as [[id k]|]; [|discriminate IS].
    destruct (rb_cancel _ _) as [bf rm]. injection IS as <-.
    split; cbn [sy_out sy_subs sy_in sy_log sy_pending in_trace]; [|exact R2].
    rewrite in_frames_app. cbn. rewrite app_nil_r. exact R1.
Qed.

Lemma read_run ls : forall s s', sys_inv s -> wire_inv s -> read_inv s -> sys_run s ls = Some s' ->
  NoDup (submit_seqs (sy_log s')) -> read_inv s'.
Proof.
  induction ls as [|l ls IH]; intros s s' SI I R E ND; cbn [sys_run] in E; [now injection E as <-|].
  destruct (sys_step s l) as [s1|] eqn:E1; [|discriminate]. cbn [obind] in E.
  assert (NoDup (submit_seqs (sy_log s1))) as ND1.
  { destruct (sys_run_log _ _ _ E) as [x X]. rewrite X in ND. unfold submit_seqs in *.
    rewrite submits_app, map_app in ND. now apply nodup_app_l in ND. }
  apply (IH s1); eauto using sys_step_inv, wire_step, read_step.
Qed.

Lemma read_init s : read_inv (sys_init s).
Proof. split; reflexivity. Qed.

(* ---------------------------------------------------- the run *)
Definition all64 (l : list bytes) : Prop := Forall (fun p => len p = 64) l.

Lemma explained_64 w h p : explained w h p -> len p = 64.
Proof.
  assert (K : forall ch cmd q, In p (spec_packets ch cmd q) -> len p = 64).
  { intros ch cmd q H. unfold spec_packets in H. apply in_map_iff in H as (i & <- & _). apply spec_packet_len. }
  intros []; eapply K; eassumption.
Qed.

Record ordered (E : Env) (w : world) (ls : list dev_label) (d : dev) : Prop := mk_ordered {
  or_ok : exists h, dev_ok h d;
  or_sys : exists s sl, Forall wfb s /\ sys_run (sys_init s) sl = Some (de_sys d);
  or_fifo : fifo_inv (sy_in (de_sys d));
  or_taken : de_taken d = rev (handled_of ls);
  or_run : let o := hid_run (device_apps E) new_server w
                      (combine (keepalives_of ls) (firstn (length (handled_of ls)) (sy_delegate (de_sys d)))) in
    o_res o = Ok tt /\ o_srv o = de_srv d /\ o_app o = de_world d /\
    o_packets o = produced (in_trace (sy_in (de_sys d))) ++ de_queue d }.

Lemma dev_run_app E ls1 : forall d ls2, dev_run E d (ls1 ++ ls2) =
  match dev_run E d ls1 with
  | Some (Running d') => dev_run E d' ls2
  | Some (Dead w) => match ls2 with [] => Some (Dead w) | _ => None end
  | None => None
  end.
Proof.
  induction ls1 as [|l ls1 IH]; intros d ls2; [reflexivity|]. cbn [app dev_run].
  destruct (dev_step E d l) as [[d'|w]|]; cbn [obind]; [apply IH| |reflexivity].
  destruct ls1; [|destruct ls2; reflexivity]. cbn. now destruct ls2.
Qed.

Lemma produced_same s l s' : not_respond l -> sys_step s l = Some s' ->
  produced (in_trace (sy_in s')) = produced (in_trace (sy_in s)).
Proof.
  assert (Pa : forall t t', produced (t ++ t') = produced t ++ produced t') by (intros; apply flat_map_app).
  intros NR E. destruct l as [| |choice data|j|j]; cbn [sys_step] in E.
  - destruct (sy_pending s); [discriminate|]. destruct (conn_step _ _) as [c a].
    destruct a as [|r|d h st b|d h t].
    + now injection E as <-.
    + now injection E as <-.
    + destruct (hd_ep h =? 0); [destruct (handle_control_message _); now injection E as <-|].
      destruct (hd_ep h =? 1).
      * cbn [in_step] in E. destruct (rb_request _ _ _) as [bf now]. cbn [obind] in E. injection E as <-.
        cbn [sy_in in_trace]. rewrite Pa. destruct now; cbn; apply app_nil_r.
      * destruct (hd_ep h =? 2); now injection E as <-.
    + cbn [in_step] in E. destruct (rb_cancel _ _) as [bf rm]. cbn [obind] in E. injection E as <-.
      cbn [sy_in in_trace]. rewrite Pa. cbn. apply app_nil_r.
  - destruct (sy_pending s); [|discriminate]. now injection E as <-.
  - destruct NR.
  - destruct (nth_error (in_flight (sy_in s)) j) as [f|] eqn:F; [|discriminate]. cbn [obind] in E.
    destruct (nth_error (sy_subs s) (fl_key f)) as [[h b]|]; [|discriminate]. cbn [obind] in E.
    cbn [in_step] in E. rewrite F in E. injection E as <-.
    cbn [sy_in in_trace]. rewrite Pa. cbn. apply app_nil_r.
  - cbn [in_step] in E. destruct (nth_error _ _) as [[id k]|]; [|discriminate].
    destruct (rb_cancel _ _) as [bf rm]. cbn [obind] in E. injection E as <-.
    cbn [sy_in in_trace]. rewrite Pa. cbn. apply app_nil_r.
Qed.

Lemma fifo_sys s l s' : fifo_inv (sy_in s) -> sys_step s l = Some s' ->
  match l with SRespond _ _ => respond_idle (sy_in s) | _ => true end = true -> fifo_inv (sy_in s').
Proof.
  intros FI E R. destruct l as [| |choice data|j|j]; cbn [sys_step] in E.
  - destruct (sy_pending s); [discriminate|]. destruct (conn_step _ _) as [c a].
    destruct a as [|r|d h st b|d h t].
    + now injection E as <-.
    + now injection E as <-.
    + destruct (hd_ep h =? 0); [destruct (handle_control_message _); now injection E as <-|].
      destruct (hd_ep h =? 1).
      * destruct (in_step (sy_in s) (ISubmit (hd_seq h))) as [i|] eqn:IS; [|discriminate].
        cbn [obind] in E. injection E as <-. eapply fifo_step; eauto.
      * destruct (hd_ep h =? 2); now injection E as <-.
    + destruct (in_step (sy_in s) (IUnlink t)) as [i|] eqn:IS; [|discriminate].
      cbn [obind] in E. injection E as <-. eapply fifo_step; eauto.
  - destruct (sy_pending s); [|discriminate]. now injection E as <-.
  - destruct (in_step (sy_in s) (IRespond choice data)) as [i|] eqn:IS; [|discriminate].
    cbn [obind] in E. injection E as <-. eapply fifo_step; eauto.
  - destruct (nth_error (in_flight (sy_in s)) j) as [f|] eqn:F; [|discriminate]. cbn [obind] in E.
    destruct (nth_error (sy_subs s) (fl_key f)) as [[h b]|]; [|discriminate]. cbn [obind] in E.
    destruct (in_step (sy_in s) (IRun j)) as [i|] eqn:IS; [|discriminate].
    cbn [obind] in E. injection E as <-. eapply fifo_step; eauto.
  - destruct (in_step (sy_in s) (ITimeout j)) as [i|] eqn:IS; [|discriminate].
    cbn [obind] in E. injection E as <-. eapply fifo_step; eauto.
Qed.

Lemma fifo_start : fifo_inv in_init.
Proof. unfold fifo_inv, flying_data. cbn. auto. Qed.

Lemma combine_snoc {A B} (a : list A) (b : list B) x y : length a = length b ->
  combine (a ++ [x]) (b ++ [y]) = combine a b ++ [(x, y)].
Proof.
  revert b. induction a as [|a0 a IH]; intros [|b0 b] H; try discriminate H; [reflexivity|].
  cbn. f_equal. apply IH. now injection H.
Qed.

Lemma firstn_snoc {A} (l : list A) n x : nth_error l n = Some x -> firstn (S n) l = firstn n l ++ [x].
Proof.
  revert l. induction n as [|n IH]; intros [|y l] H; try discriminate H; cbn in *.
  - now injection H as ->.
  - f_equal. now apply IH.
Qed.

Lemma handled_length ls : length (keepalives_of ls) = length (handled_of ls).
Proof.
  induction ls as [|l ls IH]; [reflexivity|]. unfold keepalives_of, handled_of in *. cbn [flat_map].
  rewrite !app_length, IH. f_equal. destruct l; reflexivity.
Qed.

Lemma ordered_step E w ls d l d' n : ordered E w ls d -> label_ok l -> no_local l ->
  handled_of (ls ++ [l]) = seq 0 n -> dev_step E d l = Some (Running d') -> ordered E w (ls ++ [l]) d'.
Proof.
  intros O Lo NL Hn S. destruct (or_ok _ _ _ _ O) as (h & K).
  pose proof (dk_wire _ _ K) as I.
  assert (OK' : exists h', dev_ok h' d').
  { destruct (step_did _ _ _ _ _ K Lo S) as [_ D|i [o|] _ _ D]; [eauto|eauto|destruct D]. }
  assert (H1 : forall b, handled_of (ls ++ [b]) = handled_of ls ++ handled_of [b]).
  { intro b. unfold handled_of. apply flat_map_app. }
  assert (H2 : forall b, keepalives_of (ls ++ [b]) = keepalives_of ls ++ keepalives_of [b]).
  { intro b. unfold keepalives_of. apply flat_map_app. }
  assert (Tk : (length (handled_of ls) <= length (sy_delegate (de_sys d)))%nat).
  { rewrite <- rev_length, <- (or_taken _ _ _ _ O). apply nodup_bound; [apply K|apply K]. }
  assert (SY : forall l' s' q b, handled_of [b] = [] -> keepalives_of [b] = [] ->
     sys_step (de_sys d) l' = Some s' ->
     match l' with SRespond _ _ => respond_idle (sy_in (de_sys d)) | _ => true end = true ->
     produced (in_trace (sy_in s')) ++ q = produced (in_trace (sy_in (de_sys d))) ++ de_queue d ->
     d' = mk_dev s' (de_taken d) (de_srv d) (de_world d) q -> ordered E w (ls ++ [b]) d').
  { intros l' s' q b B1 B2 E1 R P ->. constructor; cbn [de_sys de_taken de_srv de_world de_queue].
    - exact OK'.
    - destruct (or_sys _ _ _ _ O) as (s0 & sl & W & Rn). exists s0, (sl ++ [l']). split; [exact W|].
      rewrite sys_run_app, Rn. cbn [obind sys_run]. rewrite E1. reflexivity.
    - eapply fifo_sys; [apply O|exact E1|exact R].
    - rewrite H1, B1, app_nil_r. apply O.
    - rewrite H1, H2, B1, B2, !app_nil_r.
      destruct (delegate_grows _ _ _ I E1) as [x ->]. rewrite firstn_app.
      replace (length (handled_of ls) - length (sy_delegate (de_sys d)))%nat with 0%nat by lia.
      cbn [firstn]. rewrite app_nil_r, P. apply O. }
  assert (SS : forall l' b, not_respond l' -> handled_of [b] = [] -> keepalives_of [b] = [] ->
     in_sys d l' = Some (Running d') -> ordered E w (ls ++ [b]) d').
  { intros l' b NR B1 B2 H. unfold in_sys in H. destruct (sys_step (de_sys d) l') as [s'|] eqn:E1; [|discriminate H].
    cbn [obind] in H. injection H as <-. eapply (SY l' s' (de_queue d) b); auto.
    - now destruct l'.
    - now rewrite (produced_same _ _ _ NR E1). }
  destruct l as [| |i|i|i ka|choice|i|s]; cbn [dev_step] in S.
  - now apply (SS SRead).
  - now apply (SS SWrite).
  - now apply (SS (SRun i)).
  - now apply (SS (STimeout i)).
  - destruct (existsb (Nat.eqb i) (de_taken d)) eqn:T; [discriminate S|].
    destruct (nth_error (sy_delegate (de_sys d)) i) as [msg|] eqn:Nt; [|discriminate S]. cbn [obind] in S.
    rewrite H1 in Hn. cbn [handled_of flat_map app] in Hn.
    assert (Hi : i = length (handled_of ls)).
    { destruct n as [|n]; [destruct (handled_of ls); discriminate Hn|].
      rewrite seq_S in Hn. apply app_inj_tail in Hn as [Hn ->]. now rewrite Hn, seq_length. }
    destruct (o_res (hid_handle (device_apps E) (de_srv d) (de_world d) ka msg)) as [[]|] eqn:R; [|discriminate S].
    injection S as <-. constructor; cbn [de_sys de_taken de_srv de_world de_queue].
    + exact OK'.
    + apply O.
    + apply O.
    + rewrite H1, rev_app_distr. cbn. now rewrite <- (or_taken _ _ _ _ O).
    + rewrite H1, H2. cbn [handled_of keepalives_of flat_map app]. rewrite app_length. cbn [length].
      rewrite Nat.add_1_r. rewrite Hi in Nt. rewrite (firstn_snoc _ _ _ Nt).
      fold (keepalives_of ls). rewrite combine_snoc.
      2:{ rewrite handled_length, firstn_length. fold (handled_of ls). lia. }
      rewrite hid_run_app. destruct (or_run _ _ _ _ O) as (O1 & O2 & O3 & O4). cbv zeta.
      fold (handled_of ls). rewrite O1, O2, O3, O4.
      cbn [hid_run]. rewrite R. cbn [o_res o_srv o_app o_packets]. rewrite app_nil_r, <- app_assoc. auto.
  - destruct (de_queue d) as [|p rest] eqn:Q; [discriminate S|].
    destruct (respond_idle (sy_in (de_sys d))) eqn:RI; [|discriminate S].
    destruct (sys_step (de_sys d) (SRespond choice p)) as [s'|] eqn:E1; [|discriminate S].
    cbn [obind] in S. injection S as <-. eapply (SY (SRespond choice p) s' rest); auto.
    cbn [sys_step in_step] in E1. destruct (rb_respond _ _ _) as [[bf cb]|]; [|discriminate E1].
    cbn [obind] in E1. injection E1 as <-. cbn [sy_in in_trace].
    unfold produced. rewrite flat_map_app. cbn. now rewrite <- app_assoc.
  - destruct NL.
  - destruct (cn_phase (sy_conn (de_sys d))) eqn:P; try discriminate S. injection S as <-.
    destruct (dk_untouched _ _ K) as [(x & X)|(U1 & U2 & U3)]; [rewrite P in X; discriminate X|].
    assert (D : sy_delegate (de_sys d) = []).
    { rewrite (wi_delegate _ I). unfold written_of. now rewrite U1. }
    rewrite U2, U3, D in *. constructor; cbn [de_sys de_taken de_srv de_world de_queue sy_in sy_delegate].
    + exact OK'.
    + exists s, []. split; [exact Lo|reflexivity].
    + exact fifo_start.
    + rewrite H1. cbn. rewrite app_nil_r. apply O.
    + rewrite H1, H2. cbn [handled_of keepalives_of flat_map app]. rewrite !app_nil_r.
      pose proof (or_run _ _ _ _ O) as O4. cbv zeta in O4. rewrite U2, D in O4. exact O4.
Qed.

Lemma ordered_start E w s : Forall wfb s -> ordered E w [] (dev_init s w).
Proof.
  intro W. constructor; cbn [dev_init de_sys de_taken de_srv de_world de_queue].
  - exists []. now apply dev_ok_init.
  - exists s, []. auto.
  - exact fifo_start.
  - reflexivity.
  - cbn. auto.
Qed.

Lemma seq_prefix a b n : a ++ b = seq 0 n -> a = seq 0 (length a).
Proof.
  intro H. assert (length a <= n)%nat.
  { apply (f_equal (@length nat)) in H. rewrite app_length, seq_length in H. lia. }
  replace n with (length a + (n - length a))%nat in H by lia. rewrite seq_app in H.
  apply (f_equal (firstn (length a))) in H. rewrite !firstn_app, Nat.sub_diag, firstn_all in H. cbn [firstn] in H.
  rewrite app_nil_r in H. rewrite H at 1. rewrite seq_length, Nat.sub_diag. cbn [firstn]. rewrite app_nil_r.
  rewrite firstn_all2 by (rewrite seq_length; lia). reflexivity.
Qed.

Lemma ordered_run E w s ls d n : Forall wfb s -> dev_run E (dev_init s w) ls = Some (Running d) ->
  Forall label_ok ls -> Forall no_local ls -> handled_of ls = seq 0 n -> ordered E w ls d.
Proof.
  intro W. revert d n. induction ls as [|l ls IH] using rev_ind; intros d n R Lo NL Hn.
  - cbn in R. injection R as <-. now apply ordered_start.
  - rewrite dev_run_app in R. destruct (dev_run E (dev_init s w) ls) as [[d0|w0]|] eqn:R0; try discriminate R.
    cbn [dev_run] in R. destruct (dev_step E d0 l) as [m|] eqn:S; [|discriminate R]. cbn [obind] in R.
    assert (m = Running d) as -> by (destruct m; injection R as <-; reflexivity).
    apply Forall_app in Lo as [Lo1 Lo2]. apply Forall_app in NL as [NL1 NL2].
    apply Forall_inv in Lo2. apply Forall_inv in NL2.
    assert (Hn' : handled_of ls = seq 0 (length (handled_of ls))).
    { apply (seq_prefix _ (handled_of [l]) n). rewrite <- Hn. unfold handled_of. now rewrite flat_map_app. }
    eapply ordered_step; eauto.
Qed.

Lemma in_frames_data s : wire_inv s -> reads_64 (sy_log s) -> (forall p, made s p -> len p = 64) ->
  forall ch, 0 < ch < 4294967296 -> forall t, incl (delivered t) (produced (in_trace (sy_in s))) ->
  (forall k v, In (EvCallback k v) t -> (k < length (sy_subs s))%nat) ->
  filter (on_channel ch) (map (dropN 48) (in_frames (sy_subs s) t)) = filter (on_channel ch) (delivered t).
Proof.
  intros I R M ch Hch. induction t as [|e t IH]; intros D B; [reflexivity|].
  unfold in_frames, delivered in *. cbn [flat_map] in *. rewrite map_app, !filter_app.
  apply f_equal2; [|apply IH; [intros x Hx; apply D; apply in_or_app; now right|intros k v H; apply (B k v); now right]].
  destruct e as [| |k v| |]; try reflexivity.
  assert (Hk : (k < length (sy_subs s))%nat) by (apply (B k v); now left).
  destruct (nth_error (sy_subs s) k) as [[h b]|] eqn:Nk.
  2:{ apply nth_error_None in Nk. lia. }
  apply nth_error_In in Nk. destruct (wi_subs s I _ _ Nk) as [He [st Hs]].
  pose proof (wi_submits _ I) as Ok. rewrite Forall_forall in Ok. destruct (Ok _ Hs) as (O1 & O2 & O3 & O4).
  destruct (R _ _ _ Hs He) as [Rd Rl].
  cbn [map]. rewrite return_submit_spec by assumption. rewrite Rd, N.eqb_refl.
  destruct (ret_submit_parts (hd_seq h) (len b)
    (match v with Some r => takeN (len b) r ++ dropN (len r) b | None => b end) O4 O2) as (_ & _ & _ & _ & _ & Dp).
  rewrite Dp. destruct v as [p|].
  - assert (len p = 64) as Lp.
    { apply M. assert (In p (produced (in_trace (sy_in s)))) as H by (apply D; apply in_or_app; left; now left).
      unfold produced in H. apply in_flat_map in H as (x & Hx & Hp). destruct x; try easy. destruct Hp as [<-|[]]. exact Hx. }
    rewrite Rl, Lp, takeN_all, dropN_all, app_nil_r by lia. reflexivity.
  - cbn [filter]. rewrite O3 by lia. unfold on_channel.
    assert (bytes_eqb (takeN 4 (zeros (length b))) (le 4 ch) = false) as ->; [|reflexivity].
    apply bytes_eqb_neq. intro Q. assert (length b = 64)%nat as Lb by (unfold len in Rl; lia).
    rewrite Lb in Q. apply (f_equal le_dec) in Q. rewrite le_dec_le_small in Q by (cbn; lia).
    change (0 = ch) in Q. lia.
Qed.

Lemma host_reads E w s ls d n ch : Forall wfb s -> dev_run E (dev_init s w) ls = Some (Running d) ->
  Forall label_ok ls -> Forall no_local ls -> handled_of ls = seq 0 n ->
  let log := sy_log (de_sys d) in
  NoDup (submit_seqs log) -> reads_64 log -> 0 < ch < 4294967296 ->
  let o := hid_run (device_apps E) new_server w (combine (keepalives_of ls) (firstn n (written_of log))) in
  o_res o = Ok tt /\ o_app o = de_world d /\ o_srv o = de_srv d /\
  exists later, packets_read ch log (sy_out (de_sys d)) ++ later = filter (on_channel ch) (o_packets o) /\
    (drained d -> later = []).
Proof.
  intros W R Lo NL Hn log ND R64 Hch. pose proof (ordered_run _ _ _ _ _ _ W R Lo NL Hn) as O.
  destruct (or_ok _ _ _ _ O) as (h & K). pose proof (dk_wire _ _ K) as I.
  destruct (or_sys _ _ _ _ O) as (s0 & sl & W0 & Rn).
  pose proof (sys_reach _ _ _ W0 Rn ND) as SI.
  pose proof (read_run _ _ _ (sys_init_inv _ W0) (wire_init _ W0) (read_init _) Rn ND) as [RI _].
  pose proof (or_run _ _ _ _ O) as OR. rewrite Hn, seq_length, (wi_delegate _ I) in OR. fold log in OR.
  cbv zeta in *. set (o := hid_run _ _ _ _) in *. destruct OR as (O1 & O2 & O3 & O4).
  do 3 (split; [assumption|]).
  destruct (or_fifo _ _ _ _ O) as (F1 & _).
  set (s' := de_sys d) in *.
  assert (PR : packets_read ch log (sy_out s') = filter (on_channel ch) (delivered (in_trace (sy_in s')))).
  { unfold packets_read. unfold log. rewrite RI. apply in_frames_data; auto.
    - intros p Hp. eapply explained_64. apply (dk_made _ _ K). exact Hp.
    - rewrite F1. apply incl_app_l.
    - intros k v H. rewrite (subs_len _ SI). eapply callback_bound; [apply SI|exact H]. }
  exists (filter (on_channel ch) (flying_data (sy_in s') ++ rb_responses (in_buf (sy_in s')) ++ de_queue d)).
  rewrite PR, O4, F1, <- filter_app, <- !app_assoc. split; [reflexivity|].
  intros (D1 & D2 & D3). fold s' in D2, D3. rewrite D1, D2. unfold flying_data. rewrite D3. reflexivity.
Qed.
