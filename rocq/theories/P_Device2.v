(* The USB/IP session seen from the wire: where every frame and every message comes from. *)
From Verif Require Import Base M_Util M_Usb M_ReqBuf M_Usbip S_ReqBuf S_Usbip S_UsbipSys
  P_ReqBuf P_Usb P_Usbip1 P_Usbip2 P_Usbip3 S_Device.
From Coq Require Import Lia.

Lemma wfb_zeros n : wfb (zeros n).
Proof. unfold zeros, wfb. apply Forall_forall. intros x Hx. apply repeat_spec in Hx. subst x. reflexivity. Qed.

Lemma wfb_pad d n : wfb d -> wfb (pad d n).
Proof.
  intro W. unfold pad. assert (wfb (d ++ zeros n)) as H by (apply wfb_app; auto using wfb_zeros).
  unfold wfb in *. rewrite <- (firstn_skipn n (d ++ zeros n)) in H. now apply Forall_app in H.
Qed.

Lemma submit_wfb c c' d h st b : wfb (concat (cn_stream c)) ->
  conn_step [usb_device] c = (c', ASubmit d h st b) -> wfb b.
Proof.
  destruct c as [p s]. unfold conn_step. cbn [cn_phase cn_stream]. intros W E.
  destruct p as [|d'|].
  - exfalso. destruct (read_full 8 s) as [[h0 s1]|]; [|discriminate E].
    destruct (_ =? 0x8005); [discriminate E|]. destruct (_ =? 0x8003); [|discriminate E].
    destruct (util_read 32 s1) as [[dt s2]|]; [|discriminate E].
    destruct (cstring dt); [|discriminate E]. destruct (get_device _ _ _) as [[? ?]|]; discriminate E.
  - destruct (read_full 20 s) as [[hb s1]|] eqn:E1; [|discriminate E].
    apply read_full_some in E1 as [C1 _]. rewrite C1 in W. apply wfb_app in W as [_ W].
    destruct (_ =? 1).
    + unfold read_submit in E. destruct (read_full 28 s1) as [[bb s2]|] eqn:E2; cbn [obind] in E; [|discriminate E].
      apply read_full_some in E2 as [C2 _]. rewrite C2 in W. apply wfb_app in W as [_ W].
      destruct (_ && _).
      * destruct (read_once _ s2) as [[dt s3]|] eqn:E3; cbn [obind] in E; [|discriminate E].
        apply read_once_some in E3 as [C3 _]. rewrite C3 in W. apply wfb_app in W as [W _].
        injection E as _ _ _ _ <-. now apply wfb_pad.
      * injection E as _ _ _ _ <-. apply wfb_zeros.
    + destruct (_ =? 2); [|discriminate E]. destruct (read_full 28 s1) as [[u s2]|]; discriminate E.
  - discriminate E.
Qed.

Definition submit_ok (x : header * bytes * bytes) : Prop :=
  let '(h, st, b) := x in
  hd_command h = 1 /\ len b < 4294967296 /\ (hd_dir h <> 0 -> b = zeros (length b)) /\ hd_seq h < 4294967296.

Definition made (s : sys) (d : bytes) : Prop := In (EvProduced d) (in_trace (sy_in s)).

Record wire_inv (s : sys) : Prop := mk_wire_inv {
  wi_wf : wfb (concat (cn_stream (sy_conn s)));
  wi_delegate : sy_delegate s = written_of (sy_log s);
  wi_wfb : Forall wfb (sy_delegate s);
  wi_subs : forall h b, In (h, b) (sy_subs s) -> hd_ep h = 1 /\ exists st, In (h, st, b) (submits_of (sy_log s));
  wi_submits : Forall submit_ok (submits_of (sy_log s));
  wi_responses : Forall (made s) (rb_responses (in_buf (sy_in s)));
  wi_flight : forall f d, In f (in_flight (sy_in s)) -> fl_value f = Some d -> made s d;
  wi_out : Forall (on_wire (sy_log s) (made s)) (sy_out s);
  wi_pending : Forall (on_wire (sy_log s) (made s)) (opt_list (sy_pending s)) }.

Lemma on_wire_mono log l (P Q : bytes -> Prop) f : (forall p, P p -> Q p) ->
  on_wire log P f -> on_wire (log ++ l) Q f.
Proof.
  intros PQ X. destruct X.
  - now apply W_control.
  - eapply W_unlink; [|eassumption]. rewrite unlinks_of_app. apply in_or_app. left. eassumption.
  - eapply W_other; [|eassumption|eassumption]. rewrite submits_app. apply in_or_app. left. eassumption.
  - eapply W_in; [|eassumption|eassumption|apply PQ; eassumption|eassumption].
    rewrite submits_app. apply in_or_app. left. eassumption.
  - eapply W_timeout; [|eassumption|eassumption|eassumption]. rewrite submits_app. apply in_or_app. left. eassumption.
Qed.

Lemma on_wire_imp log (P Q : bytes -> Prop) f : (forall p, P p -> Q p) -> on_wire log P f -> on_wire log Q f.
Proof. intros PQ X. rewrite <- (app_nil_r log). eapply on_wire_mono; eauto. Qed.

Lemma all_mono log l (P Q : bytes -> Prop) fs : (forall p, P p -> Q p) ->
  Forall (on_wire log P) fs -> Forall (on_wire (log ++ l) Q) fs.
Proof. intros PQ. apply Forall_impl. intros. eapply on_wire_mono; eauto. Qed.

Lemma all_imp log (P Q : bytes -> Prop) fs : (forall p, P p -> Q p) ->
  Forall (on_wire log P) fs -> Forall (on_wire log Q) fs.
Proof. intros PQ. apply Forall_impl. intros. eapply on_wire_imp; eauto. Qed.

Lemma written_app a b : written_of (a ++ b) = written_of a ++ written_of b.
Proof. unfold written_of. now rewrite submits_app, flat_map_app. Qed.

(* an answer to an IN transfer *)
Lemma in_answer log (P : bytes -> Prop) h st b v : In (h, st, b) (submits_of log) -> submit_ok (h, st, b) -> hd_ep h = 1 ->
  (forall d, v = Some d -> P d) -> on_wire log P (return_submit h b v).
Proof.
  intros Hi (H1 & H2 & H3 & _) He Hv. rewrite return_submit_spec by assumption.
  destruct (hd_dir h =? 1) eqn:D.
  - apply N.eqb_eq in D. assert (B : b = zeros (length b)) by (apply H3; lia).
    destruct v as [d|].
    + eapply W_in; [exact Hi|exact He|exact D|apply Hv; reflexivity|]. f_equal.
      rewrite B at 2. unfold len at 3. rewrite <- overlay_zeros. do 2 f_equal. unfold len. now rewrite Nat2N.id.
    + eapply W_timeout; [exact Hi|exact He|exact D|]. now rewrite <- B.
  - apply N.eqb_neq in D. eapply W_other; [exact Hi|right; split; [exact D|reflexivity]|reflexivity].
Qed.

Lemma other_answer log (P : bytes -> Prop) h st b v : In (h, st, b) (submits_of log) -> submit_ok (h, st, b) -> hd_ep h <> 1 ->
  on_wire log P (return_submit h b v).
Proof.
  intros Hi (H1 & H2 & H3 & _) He. rewrite return_submit_spec by assumption.
  eapply W_other; [exact Hi|left; exact He|reflexivity].
Qed.

Lemma wire_init s : Forall wfb s -> wire_inv (sys_init s).
Proof.
  intro W. constructor; cbn; auto; try easy.
  induction W; cbn; [constructor|now apply wfb_app].
Qed.

Lemma wire_step s l s' : wire_inv s -> sys_step s l = Some s' -> wire_inv s'.
Proof.
  intros I E. pose proof (wi_out s I) as IO. pose proof (wi_pending s I) as IP.
  destruct l as [| |choice data|j|j]; cbn [sys_step] in E.
  - (* SRead *)
    destruct (sy_pending s) eqn:P; [discriminate|].
    destruct (conn_step [usb_device] (sy_conn s)) as [c a] eqn:CS.
    pose proof (conn_step_facts _ _ _ _ (wi_wf s I) CS) as [Wc Ha].
    assert (G : forall x, (forall d h st b, a = ASubmit d h st b -> hd_ep h <> 1 /\ (hd_ep h <> 2 \/ False)) ->
              (forall f, x = Some f -> on_wire (sy_log s ++ [a]) (made s) f) ->
              wire_inv (mk_sys c (sy_in s) (sy_subs s) x (sy_delegate s) (sy_out s) (sy_log s ++ [a]))).
    { intros x Hs Hx. constructor; cbn [sy_conn sy_in sy_subs sy_pending sy_delegate sy_out sy_log].
      - exact Wc.
      - rewrite written_app, (wi_delegate s I). unfold written_of at 3.
        destruct a as [|r|d h st b|d h t]; cbn [submits_of flat_map app]; rewrite ?app_nil_r; try reflexivity.
        destruct (Hs _ _ _ _ eq_refl) as [_ [K|[]]]. apply N.eqb_neq in K. rewrite K. now rewrite app_nil_r.
      - apply (wi_wfb s I).
      - intros h b Hi. destruct (wi_subs s I h b Hi) as [Q1 [st Q2]]. split; [exact Q1|]. exists st.
        rewrite submits_app. apply in_or_app. now left.
      - rewrite submits_app. apply Forall_app. split; [apply (wi_submits s I)|].
        destruct a as [|r|d h st b|d h t]; cbn; try constructor; [|constructor].
        destruct Ha as (_ & _ & H1 & H2 & H3 & H4 & _). unfold submit_ok. auto.
      - apply (wi_responses s I).
      - apply (wi_flight s I).
      - apply (all_mono _ _ (made s)); auto.
      - destruct x as [f|]; cbn; constructor; auto. }
    destruct a as [|r|d h st b|d h t].
    + injection E as <-. apply G; discriminate.
    + injection E as <-. apply G; [discriminate|]. intros f [= <-]. apply W_control.
      eapply conn_step_control_reply; eassumption.
    + assert (Hok : submit_ok (h, st, b)).
      { destruct Ha as (_ & _ & H1 & H2 & H3 & H4 & _). unfold submit_ok. auto. }
      assert (Hi : In (h, st, b) (submits_of (sy_log s ++ [ASubmit d h st b]))).
      { rewrite submits_app. apply in_or_app. right. now left. }
      destruct (N.eqb_spec (hd_ep h) 0) as [E0|E0].
      * destruct (handle_control_message (read_setup st)) as [r|]; injection E as <-; apply G;
          try (intros ? ? ? ? [= <- <- <- <-]; split; [lia|left; lia]); [|discriminate].
        intros f [= <-]. eapply other_answer; [exact Hi|exact Hok|lia].
      * destruct (N.eqb_spec (hd_ep h) 1) as [E1|E1].
        -- destruct (in_step (sy_in s) (ISubmit (hd_seq h))) as [i|] eqn:IS; [|discriminate].
           cbn [obind] in E. injection E as <-.
           cbn [in_step] in IS. unfold rb_request in IS |- *.
           assert (Hd : sy_delegate s = written_of (sy_log s ++ [ASubmit d h st b])).
           { rewrite written_app, (wi_delegate s I). unfold written_of at 3. cbn [submits_of flat_map app].
             rewrite E1. cbn. now rewrite app_nil_r. }
           pose proof (wi_responses s I) as IR. pose proof (wi_flight s I) as IF. unfold made in *.
           destruct (rb_responses (in_buf (sy_in s))) as [|dt rest]; injection IS as <-;
           (constructor; unfold made; cbn [sy_conn sy_in sy_subs sy_pending sy_delegate sy_out sy_log in_trace in_buf in_flight rb_responses opt_list snd];
            [exact Wc|exact Hd|apply (wi_wfb s I)| | | | | |constructor]).
           1, 6: (intros h' b' Hx; apply in_app_or in Hx as [Hx|[Hx|[]]];
             [destruct (wi_subs s I h' b' Hx) as [Q1 [st' Q2]]; split; [exact Q1|]; exists st';
              rewrite submits_app; apply in_or_app; now left
             |injection Hx as <- <-; split; [exact E1|]; exists st; exact Hi]).
           1, 5: (rewrite submits_app; apply Forall_app; split; [apply (wi_submits s I)|];
                  cbn; constructor; [exact Hok|constructor]).
           ++ constructor.
           ++ intros f d' Hf Hv. apply in_or_app. left. eapply IF; eauto.
           ++ rewrite app_nil_r. eapply all_mono; [|exact IO]. intros p Hp. apply in_or_app. now left.
           ++ eapply Forall_impl; [|exact (Forall_inv_tail IR)]. intros p Hp. apply in_or_app. now left.
           ++ intros f d' Hf Hv. apply in_or_app. left. eapply IF; eauto.
           ++ apply Forall_app. split.
              { eapply all_mono; [|exact IO]. intros p Hp. apply in_or_app. now left. }
              constructor; [|constructor]. eapply in_answer; [exact Hi|exact Hok|exact E1|].
              intros ? [= <-]. apply in_or_app. left. exact (Forall_inv IR).
        -- destruct (N.eqb_spec (hd_ep h) 2) as [E2|E2]; injection E as <-.
           ++ pose proof (submit_wfb _ _ _ _ _ _ (wi_wf s I) CS) as Wb.
              constructor; cbn [sy_conn sy_in sy_subs sy_pending sy_delegate sy_out sy_log].
              ** exact Wc.
              ** rewrite written_app, (wi_delegate s I). f_equal. unfold written_of. cbn [submits_of flat_map app].
                 rewrite E2. reflexivity.
              ** apply Forall_app. split; [apply (wi_wfb s I)|]. constructor; [exact Wb|constructor].
              ** intros h' b' Hx. destruct (wi_subs s I h' b' Hx) as [Q1 [st' Q2]]. split; [exact Q1|]. exists st'.
                 rewrite submits_app. apply in_or_app. now left.
              ** rewrite submits_app. apply Forall_app. split; [apply (wi_submits s I)|].
                 cbn; constructor; [exact Hok|constructor].
              ** apply (wi_responses s I).
              ** apply (wi_flight s I).
              ** apply (all_mono _ _ (made s)); auto.
              ** cbn [opt_list]. constructor; [|constructor]. eapply other_answer; [exact Hi|exact Hok|lia].
           ++ apply G; [|discriminate]. intros ? ? ? ? [= <- <- <- <-]. split; [lia|left; lia].
    + destruct Ha as (_ & _ & H1 & _).
      destruct (in_step (sy_in s) (IUnlink t)) as [i|] eqn:IS; [|discriminate].
      cbn [obind] in E. injection E as <-. cbn [in_step] in IS.
      pose proof (wi_responses s I) as IR. pose proof (wi_flight s I) as IF. unfold made in *.
      assert (Hr : rb_responses (fst (rb_cancel (in_buf (sy_in s)) t)) = rb_responses (in_buf (sy_in s))).
      { unfold rb_cancel. destruct (map_has _ _); reflexivity. }
      destruct (rb_cancel (in_buf (sy_in s)) t) as [bf rm]. cbn [fst snd] in *. injection IS as <-.
      assert (Mo : forall p, In (EvProduced p) (in_trace (sy_in s)) -> In (EvProduced p) (in_trace (sy_in s) ++ [EvUnlink t rm])).
      { intros p Hp. apply in_or_app. now left. }
      constructor; unfold made; cbn [sy_conn sy_in sy_subs sy_pending sy_delegate sy_out sy_log in_trace in_buf in_flight].
      * exact Wc.
      * rewrite written_app, (wi_delegate s I). unfold written_of at 3. cbn. now rewrite app_nil_r.
      * apply (wi_wfb s I).
      * intros h' b' Hx. destruct (wi_subs s I h' b' Hx) as [Q1 [st' Q2]]. split; [exact Q1|]. exists st'.
        rewrite submits_app. apply in_or_app. now left.
      * rewrite submits_app. apply Forall_app. split; [apply (wi_submits s I)|constructor].
      * rewrite Hr. eapply Forall_impl; [|exact IR]. auto.
      * eauto.
      * eapply all_mono; [|exact IO]. auto.
      * cbn [opt_list]. constructor; [|constructor]. rewrite return_unlink_spec by exact H1.
        eapply W_unlink; [|reflexivity]. rewrite unlinks_of_app. apply in_or_app. right. now left.
  - destruct (sy_pending s) as [f|] eqn:P; [|discriminate]. injection E as <-.
    destruct I. constructor; cbn [sy_conn sy_in sy_subs sy_pending sy_delegate sy_out sy_log]; auto.
    + apply Forall_app. split; assumption.
    + constructor.
  - destruct (in_step (sy_in s) (IRespond choice data)) as [i|] eqn:IS; [|discriminate].
    cbn [obind] in E. injection E as <-. cbn [in_step] in IS. unfold rb_respond in IS.
    pose proof (wi_responses s I) as IR. pose proof (wi_flight s I) as IF. unfold made in *.
    assert (Mo : forall p, In (EvProduced p) (in_trace (sy_in s)) -> In (EvProduced p) (in_trace (sy_in s) ++ [EvProduced data])).
    { intros p Hp. apply in_or_app. now left. }
    assert (Me : In (EvProduced data) (in_trace (sy_in s) ++ [EvProduced data])).
    { apply in_or_app. right. now left. }
    destruct (rb_waiting (in_buf (sy_in s))) as [|wt rest] eqn:WT;
      [|destruct (nth_error _ choice) as [[id k]|]; [|discriminate IS]]; injection IS as <-;
    (constructor; unfold made; cbn [sy_conn sy_in sy_subs sy_pending sy_delegate sy_out sy_log in_trace in_buf in_flight rb_responses];
     [apply (wi_wf s I)|apply (wi_delegate s I)|apply (wi_wfb s I)|apply (wi_subs s I)|apply (wi_submits s I)| | | | ]).
    all: try (eapply all_imp; [|eassumption]; exact Mo).
    + apply Forall_app. split; [eapply Forall_impl; [|exact IR]; auto|]. constructor; [exact Me|constructor].
    + rewrite app_nil_r. eauto.
    + eapply Forall_impl; [|exact IR]; auto.
    + intros f d Hf Hv. apply in_app_or in Hf as [Hf|[Hf|[]]]; [eauto|]. subst f. cbn in Hv. now injection Hv as <-.
  - destruct (nth_error (in_flight (sy_in s)) j) as [f|] eqn:F; [|discriminate]. cbn [obind] in E.
    destruct (nth_error (sy_subs s) (fl_key f)) as [[h b]|] eqn:S; [|discriminate]. cbn [obind] in E.
    cbn [in_step] in E. rewrite F in E. cbn [obind] in E. injection E as <-.
    pose proof (wi_responses s I) as IR. pose proof (wi_flight s I) as IF. unfold made in *.
    assert (Mo : forall p, In (EvProduced p) (in_trace (sy_in s)) -> In (EvProduced p) (in_trace (sy_in s) ++ [EvCallback (fl_key f) (fl_value f)])).
    { intros p Hp. apply in_or_app. now left. }
    apply nth_error_In in F. apply nth_error_In in S. destruct (wi_subs s I _ _ S) as [S1 [st S2]].
    constructor; unfold made; cbn [sy_conn sy_in sy_subs sy_pending sy_delegate sy_out sy_log in_trace in_buf in_flight];
     [apply (wi_wf s I)|apply (wi_delegate s I)|apply (wi_wfb s I)|apply (wi_subs s I)|apply (wi_submits s I)| | | | ].
    + eapply Forall_impl; [|exact IR]; auto.
    + intros f' d Hf Hv. apply Mo. eapply IF; [|exact Hv]. revert Hf. generalize (in_flight (sy_in s)). clear.
      induction j as [|j IH]; intros [|x l]; cbn; auto. intros [H|H]; [now left|right; auto].
    + apply Forall_app. split; [eapply all_imp; [|exact IO]; exact Mo|]. constructor; [|constructor].
      eapply in_answer; [exact S2| |exact S1|].
      * pose proof (wi_submits s I) as K. rewrite Forall_forall in K. apply K. exact S2.
      * intros d Hv. apply Mo. eapply IF; eauto.
    + eapply all_imp; [|exact IP]. exact Mo.
  - destruct (in_step (sy_in s) (ITimeout j)) as [i|] eqn:IS; [|discriminate].
    cbn [obind] in E. injection E as <-. cbn [in_step] in IS.
    destruct (nth_error (in_timers (sy_in s)) j) as [[id k]|]; [|discriminate IS].
    pose proof (wi_responses s I) as IR. pose proof (wi_flight s I) as IF. unfold made in *.
    assert (Hr : rb_responses (fst (rb_cancel (in_buf (sy_in s)) id)) = rb_responses (in_buf (sy_in s))).
    { unfold rb_cancel. destruct (map_has _ _); reflexivity. }
    destruct (rb_cancel (in_buf (sy_in s)) id) as [bf rm]. cbn [fst] in Hr. injection IS as <-.
    assert (Mo : forall p, In (EvProduced p) (in_trace (sy_in s)) -> In (EvProduced p) (in_trace (sy_in s) ++ [EvTimeout k rm])).
    { intros p Hp. apply in_or_app. now left. }
    constructor; unfold made; cbn [sy_conn sy_in sy_subs sy_pending sy_delegate sy_out sy_log in_trace in_buf in_flight];
     [apply (wi_wf s I)|apply (wi_delegate s I)|apply (wi_wfb s I)|apply (wi_subs s I)|apply (wi_submits s I)| | | | ].
    + rewrite Hr. eapply Forall_impl; [|exact IR]; auto.
    + intros f d Hf Hv. apply in_app_or in Hf as [Hf|Hf]; [eauto|]. destruct rm; [|destruct Hf].
      destruct Hf as [<-|[]]. discriminate Hv.
    + eapply all_imp; [|exact IO]. exact Mo.
    + eapply all_imp; [|exact IP]. exact Mo.
Qed.

Lemma wire_run ls : forall s s', wire_inv s -> sys_run s ls = Some s' -> wire_inv s'.
Proof.
  induction ls as [|l ls IH]; intros s s' I E; cbn [sys_run] in E; [now injection E as <-|].
  destruct (sys_step s l) as [s1|] eqn:E1; [|discriminate]. cbn [obind] in E. eauto using wire_step.
Qed.

(* Before a device was imported nothing has happened to it. *)
Definition untouched (s : sys) : Prop :=
  (exists d, cn_phase (sy_conn s) = Commands d) \/
  (submits_of (sy_log s) = [] /\ sy_in s = in_init /\ sy_subs s = []).

Lemma untouched_step s l s' : wire_inv s -> untouched s -> sys_step s l = Some s' ->
  match l with SRespond _ _ => submits_of (sy_log s) <> [] | _ => True end -> untouched s'.
Proof.
  intros I U E R.
  assert (PH : forall c a d, conn_step [usb_device] (sy_conn s) = (c, a) -> cn_phase (sy_conn s) = Commands d ->
               cn_phase c = Commands d).
  { intros c a d H Hp. destruct (sy_conn s) as [p st]. cbn in Hp. subst p.
    destruct (commands_forever [usb_device] 1 d st) as [s1 H1]. cbn [conn_run] in H1.
    rewrite H in H1. cbn in H1. now subst c. }
  destruct l as [| |choice data|j|j]; cbn [sys_step] in E.
  - destruct (sy_pending s) eqn:P; [discriminate|].
    destruct (conn_step [usb_device] (sy_conn s)) as [c a] eqn:CS.
    pose proof (conn_step_facts _ _ _ _ (wi_wf s I) CS) as [_ Ha].
    destruct U as [(d & D)|(U1 & U2 & U3)].
    { left. exists d. specialize (PH _ _ _ eq_refl D).
      destruct a as [|r|d' h st b|d' h t].
      - now injection E as <-.
      - now injection E as <-.
      - destruct (hd_ep h =? 0); [destruct (handle_control_message _); now injection E as <-|].
        destruct (hd_ep h =? 1).
        + destruct (in_step _ _); [|discriminate]. now injection E as <-.
        + destruct (hd_ep h =? 2); now injection E as <-.
      - destruct (in_step _ _); [|discriminate]. now injection E as <-. }
    destruct a as [|r|d' h st b|d' h t].
    + injection E as <-. right. cbn. now rewrite submits_app, U1.
    + injection E as <-. right. cbn. now rewrite submits_app, U1.
    + left. destruct Ha as (A1 & (d & A2) & _). exists d. rewrite <- A1 in A2.
      destruct (hd_ep h =? 0); [destruct (handle_control_message _); now injection E as <-|].
      destruct (hd_ep h =? 1).
      * destruct (in_step _ _); [|discriminate]. now injection E as <-.
      * destruct (hd_ep h =? 2); now injection E as <-.
    + left. destruct Ha as (A1 & (d & A2) & _). exists d. rewrite <- A1 in A2.
      destruct (in_step _ _); [|discriminate]. now injection E as <-.
  - destruct (sy_pending s); [|discriminate]. injection E as <-. exact U.
  - destruct (in_step _ _); [|discriminate]. injection E as <-.
    destruct U as [U|(U1 & _)]; [left; exact U|contradiction].
  - destruct U as [U|(U1 & U2 & U3)].
    + left. destruct (nth_error _ _) as [f|]; [|discriminate]. cbn [obind] in E.
      destruct (nth_error _ _) as [[h b]|]; [|discriminate]. cbn [obind] in E.
      destruct (in_step _ _); [|discriminate]. injection E as <-. exact U.
    + rewrite U2 in E. cbn in E. destruct j; discriminate E.
  - destruct U as [U|(U1 & U2 & U3)].
    + left. destruct (in_step _ _); [|discriminate]. injection E as <-. exact U.
    + rewrite U2 in E. cbn in E. destruct j; discriminate E.
Qed.
