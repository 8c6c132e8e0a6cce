(* Whole transactions over the device, and why it never gets stuck on its own side. *)
From Verif Require Import Base M_Util M_Usb M_ReqBuf M_Usbip M_Hid M_Crypto M_Cose M_State M_Client M_Ctap M_U2f M_History
  M_Device S_ReqBuf S_Usbip S_UsbipSys S_Hid S_Device P_ReqBuf P_Usb P_Usbip2 P_Usbip3 P_Hid1 P_Hid2 P_Hid3 P_Hid4
  P_Device1 P_Device2 P_Device3 P_Device4 S_Client S_History P_Client P_History.
From Coq Require Import Lia.

(* ---------------------------------------------------- transactions *)
Lemma run_on_channel {A} (h : apps A) ch : forall ms s a,
  Forall (fun x => wfb (snd x) /\ takeN 4 (snd x) = le 4 ch) ms -> chan_inv s ->
  Forall (fun p => takeN 4 p = le 4 ch) (o_packets (hid_run h s a ms)).
Proof.
  induction ms as [|[ka m] ms IH]; intros s a F P; [constructor|].
  inversion_clear F as [|? ? [Fm Fc] F']. cbn [snd] in *. cbn [hid_run].
  pose proof (all_on_channel h s a ka m Fm P) as Q. rewrite Fc in Q.
  pose proof (handle_chan_inv h s a ka m Fm P) as P'.
  destruct (o_res (hid_handle h s a ka m)); [|exact Q]. cbn [o_packets]. apply Forall_app. auto.
Qed.

Lemma filter_on_channel ch l : Forall (fun p => takeN 4 p = le 4 ch) l -> filter (on_channel ch) l = l.
Proof.
  induction 1 as [|p l H F IH]; [reflexivity|]. cbn [filter]. unfold on_channel at 1.
  rewrite H, bytes_eqb_refl, IH. reflexivity.
Qed.

Lemma filter_off_channel ch ch' l : ch < 4294967296 -> ch' < 4294967296 -> ch <> ch' ->
  Forall (fun p => takeN 4 p = le 4 ch') l -> filter (on_channel ch) l = [].
Proof.
  intros A B D. induction 1 as [|p l H F IH]; [reflexivity|]. cbn [filter]. unfold on_channel at 1. rewrite H.
  replace (bytes_eqb (le 4 ch') (le 4 ch)) with false; [exact IH|]. symmetry. apply bytes_eqb_neq. intro Q.
  apply (f_equal le_dec) in Q. rewrite !le_dec_le_small in Q by (cbn; lia). lia.
Qed.

Lemma host_send_channel ch cmd p : Forall (fun m => takeN 4 m = le 4 ch) (host_send ch cmd p).
Proof.
  unfold host_send, host_request. constructor.
  - apply takeN_exact, le_len.
  - generalize 0 as i. induction (split59 (length p) (skipn 57 p)) as [|c l IH]; intro i; cbn [host_continuations]; constructor; auto.
Qed.

Lemma combine_all {A B} (P : B -> Prop) (a : list A) (b : list B) : Forall P b -> Forall (fun x => P (snd x)) (combine a b).
Proof.
  intro F. rewrite Forall_forall in *. intros [x y] H. apply in_combine_r in H. cbn. auto.
Qed.

Lemma combine_split {A B} (a : list A) (b c : list B) : (length b <= length a)%nat ->
  combine a (b ++ c) = combine (firstn (length b) a) b ++ combine (skipn (length b) a) c.
Proof.
  revert a. induction b as [|x b IH]; intros a H; [reflexivity|]. destruct a as [|y a]; [cbn in H; lia|].
  cbn in *. f_equal. apply IH. lia.
Qed.

Lemma all_handled ls (w : list bytes) : handled_of ls = seq 0 (length w) -> length (keepalives_of ls) = length w.
Proof. intro H. now rewrite handled_length, H, seq_length. Qed.

Lemma device_transaction E w s ls d ch cmd before m w' r : Forall wfb s ->
  dev_run E (dev_init s w) ls = Some (Running d) -> Forall label_ok ls -> Forall no_local ls ->
  let log := sy_log (de_sys d) in
  handled_of ls = seq 0 (length (written_of log)) -> NoDup (submit_seqs log) -> reads_64 log -> drained d ->
  written_of log = before ++ host_send ch cmd m ->
  0 < ch < 0xFFFFFFFF -> cmd = 0x90 \/ cmd = 0x83 -> len m <= 7609 ->
  let b := hid_run (device_apps E) new_server w (combine (firstn (length before) (keepalives_of ls)) before) in
  idle (o_srv b) ch ->
  (if cmd =? 0x90 then ctap_handle E m else u2f_handle E m) (o_app b) = (w', Ok r) -> 1 <= len r <= 7609 ->
  exists reply, packets_read ch log (sy_out (de_sys d)) = filter (on_channel ch) (o_packets b) ++ reply /\
    host_await ch reply = Some (cmd, r) /\ de_world d = w'.
Proof.
  intros W R Lo NL log Hn ND R64 Dr Wr Hch Hc Hm b Id Ap Hr.
  destruct (ordered_run _ _ _ _ _ _ W R Lo NL Hn) as [(h & K) _ _ _ _].
  pose proof (wi_wfb _ (dk_wire _ _ K)) as Wf. rewrite (wi_delegate _ (dk_wire _ _ K)) in Wf. fold log in Wf.
  pose proof (all_handled _ _ Hn) as Hk. unfold log in Hk. fold log in Hk.
  destruct (host_reads E w s ls d _ ch W R Lo NL Hn ND R64 ltac:(lia)) as (O1 & O2 & O3 & later & O4 & O5).
  fold log in O1, O2, O3, O4. rewrite (O5 Dr), app_nil_r in O4. rewrite firstn_all, Wr in O1, O2, O3, O4.
  rewrite Wr, app_length in Hk. rewrite Wr in Wf. apply Forall_app in Wf as [Wf1 Wf2].
  rewrite combine_split in O1, O2, O3, O4 by lia.
  rewrite hid_run_app in O1, O2, O3, O4. cbv zeta in O1, O2, O3, O4. fold b in O1, O2, O3, O4.
  destruct (o_res b) as [[]|] eqn:Rb; [|rewrite Rb in O1; discriminate O1].
  assert (Hl : length (skipn (length before) (keepalives_of ls)) = length (host_send ch cmd m)).
  { rewrite skipn_length. lia. }
  assert (Ap' : (if cmd =? 0x90 then app_ctap (device_apps E) (o_app b) m else app_u2f (device_apps E) (o_app b) m) = (w', Ok r)).
  { unfold device_apps. cbn [app_ctap app_u2f]. now destruct (cmd =? 0x90). }
  destruct (transaction (device_apps E) (o_srv b) (o_app b) ch cmd m _ w' r ltac:(lia) ltac:(lia) Hc Hm Id Hl Ap' Hr)
    as (T1 & T2 & T3 & T4).
  cbn [o_res o_srv o_app o_packets] in O1, O2, O3, O4.
  eexists. split; [rewrite O4, filter_app; reflexivity|].
  rewrite filter_on_channel.
  { split; [exact T1|]. now rewrite <- O2. }
  apply run_on_channel.
  - apply (combine_all (fun x => wfb x /\ takeN 4 x = le 4 ch)).
    pose proof (host_send_channel ch cmd m) as Cc. rewrite Forall_forall in *. auto.
  - apply run_chan_inv; [now apply combine_all|apply new_server_chan_inv].
Qed.

(* From nothing: the host asks for a channel, and uses it. *)
Lemma device_first_request E w s ls d id cmd nonce junk m w' r : Forall wfb s ->
  dev_run E (dev_init s w) ls = Some (Running d) -> Forall label_ok ls -> Forall no_local ls ->
  let log := sy_log (de_sys d) in let out := sy_out (de_sys d) in
  handled_of ls = seq 0 (length (written_of log)) -> NoDup (submit_seqs log) -> reads_64 log -> drained d ->
  written_of log = (le 4 0xFFFFFFFF ++ [0x86] ++ be 2 8 ++ nonce ++ junk) :: host_send id cmd m ->
  len nonce = 8 -> init_ids (packets_read 0xFFFFFFFF log out) = [id] ->
  cmd = 0x90 \/ cmd = 0x83 -> len m <= 7609 ->
  (if cmd =? 0x90 then ctap_handle E m else u2f_handle E m) w = (w', Ok r) -> 1 <= len r <= 7609 ->
  host_receive 0xFFFFFFFF (packets_read 0xFFFFFFFF log out) = Some (0x86, nonce ++ le 4 id ++ [2; 0; 0; 1; 4]) /\
  host_await id (packets_read id log out) = Some (cmd, r) /\ de_world d = w'.
Proof.
  intros W R Lo NL log out Hn ND R64 Dr Wr Nn Ids Hc Hm Ap Hr.
  destruct (ordered_run _ _ _ _ _ _ W R Lo NL Hn) as [(h & K) _ _ _ _].
  pose proof (wi_wfb _ (dk_wire _ _ K)) as Wf. rewrite (wi_delegate _ (dk_wire _ _ K)) in Wf. fold log in Wf.
  pose proof (all_handled _ _ Hn) as Hk. fold log in Hk.
  destruct (keepalives_of ls) as [|ka kas] eqn:Ks; [rewrite Wr in Hk; discriminate Hk|].
  destruct (init_reply_id (device_apps E) new_server w ka nonce junk new_server_inv ltac:(reflexivity) ltac:(reflexivity) Nn)
    as (I1 & I2 & I3 & _ & I5 & I6 & I7 & I8). change (srv_max new_server + 1) with 1 in *.
  set (init := le 4 0xFFFFFFFF ++ [0x86] ++ be 2 8 ++ nonce ++ junk) in *.
  set (o := hid_handle (device_apps E) new_server w ka init) in *.
  rewrite Wr in Wf. pose proof (Forall_inv Wf) as Wi. pose proof (Forall_inv_tail Wf) as Wm.
  assert (B : hid_run (device_apps E) new_server w (combine (firstn (length [init]) (keepalives_of ls)) [init]) =
              mk_outcome (o_srv o) (o_app o) (o_packets o ++ []) (Ok tt)).
  { rewrite Ks. cbn [length firstn combine hid_run]. fold o. rewrite I2. reflexivity. }
  assert (Bc : filter (on_channel 0xFFFFFFFF) (o_packets o) = o_packets o).
  { apply filter_on_channel. rewrite I1. apply spec_packets_chan. }
  destruct (host_reads E w s ls d _ 0xFFFFFFFF W R Lo NL Hn ND R64 ltac:(lia)) as (O1 & _ & _ & later & O4 & O5).
  fold log out in O1, O4. rewrite (O5 Dr), app_nil_r in O4. rewrite firstn_all, Wr, Ks in O1, O4.
  cbn [combine hid_run] in O1, O4. fold o in O1, O4. rewrite I2 in O1, O4. cbn [o_packets o_res] in O1, O4.
  assert (id = 1) as ->.
  { rewrite O4, filter_app, Bc, I1, init_ids_app in Ids.
    change 0xFFFFFFFF with hid_broadcast in Ids. rewrite (init_ids_init nonce 1 Nn ltac:(reflexivity)) in Ids.
    now injection Ids. }
  assert (Rest : filter (on_channel 0xFFFFFFFF) (o_packets (hid_run (device_apps E) (o_srv o) (o_app o) (combine kas (host_send 1 cmd m)))) = []).
  { apply (filter_off_channel _ 1); [reflexivity|reflexivity|discriminate|]. apply run_on_channel.
    - apply (combine_all (fun x => wfb x /\ takeN 4 x = le 4 1)).
      pose proof (host_send_channel 1 cmd m) as Cc. rewrite Forall_forall in *. auto.
    - apply handle_chan_inv; [exact Wi|apply new_server_chan_inv]. }
  rewrite filter_app, Bc, Rest, app_nil_r in O4.
  destruct (device_transaction E w s ls d 1 cmd [init] m w' r W R Lo NL Hn ND R64 Dr Wr ltac:(lia) Hc Hm) as (reply & Q1 & Q2 & Q3).
  - refine (eq_ind_r (fun x => idle (o_srv x) 1) _ B). exact I7.
  - refine (eq_ind_r (fun x => (if cmd =? 0x90 then ctap_handle E m else u2f_handle E m) (o_app x) = (w', Ok r)) _ B).
    cbn [o_app]. rewrite I3. exact Ap.
  - exact Hr.
  - assert (Q1' := eq_ind _ (fun x => packets_read 1 (sy_log (de_sys d)) (sy_out (de_sys d)) = filter (on_channel 1) (o_packets x) ++ reply) Q1 _ B).
    clear Q1. rename Q1' into Q1. cbn [o_packets] in Q1. rewrite app_nil_r, (filter_off_channel 1 0xFFFFFFFF) in Q1.
    + cbn [app] in Q1. fold log out in Q1. rewrite Q1. split; [|auto]. rewrite O4, I1.
      apply host_receive_ok; try lia. rewrite !len_app, le_len, Nn. split; vm_compute; discriminate.
    + reflexivity.
    + reflexivity.
    + discriminate.
    + rewrite I1. apply spec_packets_chan.
Qed.

(* ---------------------------------------------------- the device is never stuck *)
Definition known (s : sys) : Prop :=
  length (sy_subs s) = in_next (sy_in s) /\
  Forall (fun f => (fl_key f < in_next (sy_in s))%nat) (in_flight (sy_in s)) /\
  Forall (fun x => (snd x < in_next (sy_in s))%nat) (rb_waiting (in_buf (sy_in s))) /\
  Forall (fun x => (snd x < in_next (sy_in s))%nat) (in_timers (sy_in s)).

Lemma forall_drop {A} (P : A -> Prop) l i : Forall P l -> Forall P (drop_nth i l).
Proof. rewrite !Forall_forall. intros H x Hx. apply H. eapply drop_nth_in; eassumption. Qed.
Lemma forall_delete (P : N * nat -> Prop) l i : Forall P l -> Forall P (map_delete i l).
Proof. rewrite !Forall_forall. intros H x Hx. apply in_delete in Hx as [Hx _]. auto. Qed.
Lemma forall_S {A} (f : A -> nat) l n : Forall (fun x => (f x < n)%nat) l -> Forall (fun x => (f x < S n)%nat) l.
Proof. apply Forall_impl. intros; lia. Qed.

Lemma known_step s l s' : known s -> sys_step s l = Some s' -> known s'.
Proof.
  intros (K1 & K2 & K3 & K4) E. destruct l as [| |choice data|j|j]; cbn [sys_step] in E.
  - destruct (sy_pending s); [discriminate|]. destruct (conn_step _ _) as [c a].
    assert (U : forall t bf rm, rb_cancel (in_buf (sy_in s)) t = (bf, rm) ->
                Forall (fun x => (snd x < in_next (sy_in s))%nat) (rb_waiting bf)).
    { intros t bf rm H. unfold rb_cancel in H. destruct (map_has _ _); injection H as <- <-; auto.
      now apply forall_delete. }
    destruct a as [|r|d h st b|d h t].
    + injection E as <-. unfold known. auto.
    + injection E as <-. unfold known. auto.
    + destruct (hd_ep h =? 0); [destruct (handle_control_message _); injection E as <-; unfold known; auto|].
      destruct (hd_ep h =? 1).
      * cbn [in_step] in E. unfold rb_request in E. destruct (rb_responses (in_buf (sy_in s))); cbn [obind] in E;
          injection E as <-; unfold known; cbn [sy_subs sy_in in_next in_flight in_buf rb_waiting in_timers];
          rewrite app_length, Nat.add_1_r, K1; (split; [reflexivity|]); (split; [now apply forall_S|]);
          (split; [|apply Forall_app; split; [now apply forall_S|]; constructor; [cbn; lia|constructor]]).
        -- constructor; [cbn; lia|]. apply forall_delete. now apply forall_S.
        -- now apply forall_S.
      * destruct (hd_ep h =? 2); injection E as <-; unfold known; auto.
    + cbn [in_step] in E. destruct (rb_cancel _ _) as [bf rm] eqn:Rc. cbn [obind] in E. injection E as <-.
      unfold known; cbn [sy_subs sy_in in_next in_flight in_buf rb_waiting in_timers]. eauto.
  - destruct (sy_pending s); [|discriminate]. injection E as <-. unfold known. auto.
  - cbn [in_step] in E. unfold rb_respond in E.
    destruct (rb_waiting (in_buf (sy_in s))) as [|w0 wt] eqn:Wt.
    + cbn [obind] in E. injection E as <-. unfold known; cbn [sy_subs sy_in in_next in_flight in_buf rb_waiting in_timers].
      rewrite app_nil_r. auto.
    + destruct (nth_error (w0 :: wt) choice) as [[id k]|] eqn:Nt; [|discriminate]. cbn [obind] in E. injection E as <-.
      unfold known; cbn [sy_subs sy_in in_next in_flight in_buf rb_waiting in_timers].
      split; [exact K1|]. split; [apply Forall_app; split; [exact K2|constructor; [|constructor]]|].
      * apply nth_error_In in Nt. rewrite Forall_forall in K3. exact (K3 _ Nt).
      * split; [|exact K4]. exact (forall_delete _ (w0 :: wt) id K3).
  - destruct (nth_error (in_flight (sy_in s)) j) as [f|] eqn:F; [|discriminate]. cbn [obind] in E.
    destruct (nth_error (sy_subs s) (fl_key f)) as [[h b]|]; [|discriminate]. cbn [obind] in E.
    cbn [in_step] in E. rewrite F in E. injection E as <-.
    unfold known; cbn [sy_subs sy_in in_next in_flight in_buf rb_waiting in_timers]. auto using forall_drop.
  - cbn [in_step] in E. destruct (nth_error _ _) as [[id k]|] eqn:Nt; [|discriminate].
    destruct (rb_cancel _ _) as [bf rm] eqn:Rc. cbn [obind] in E. injection E as <-.
    unfold known; cbn [sy_subs sy_in in_next in_flight in_buf rb_waiting in_timers].
    split; [exact K1|]. apply nth_error_In in Nt. split; [|split; [|now apply forall_drop]].
    + apply Forall_app. split; [exact K2|]. destruct rm; [|constructor]. constructor; [|constructor].
      rewrite Forall_forall in K4. exact (K4 _ Nt).
    + unfold rb_cancel in Rc. destruct (map_has _ _); injection Rc as <- <-; auto. now apply forall_delete.
Qed.

Definition free (d : dev) : Prop := known (de_sys d) /\ fifo_inv (sy_in (de_sys d)).

Lemma free_init s w : free (dev_init s w).
Proof.
  split; [|exact fifo_start]. unfold known. cbn. auto.
Qed.

Lemma free_step E d l d' : free d -> dev_step E d l = Some (Running d') -> free d'.
Proof.
  intros (K & F) S.
  assert (SS : forall l', not_respond l' -> in_sys d l' = Some (Running d') -> free d').
  { intros l' NR H. unfold in_sys in H. destruct (sys_step (de_sys d) l') as [s'|] eqn:E1; [|discriminate H].
    cbn [obind] in H. injection H as <-. split; cbn [de_sys]; [eapply known_step; eauto|].
    eapply fifo_sys; [exact F|exact E1|]. now destruct l'. }
  destruct l as [| |i|i|i ka|choice|i|s]; cbn [dev_step] in S.
  - now apply (SS SRead).
  - now apply (SS SWrite).
  - now apply (SS (SRun i)).
  - now apply (SS (STimeout i)).
  - destruct (existsb _ _); [discriminate S|]. destruct (nth_error _ _); [|discriminate S]. cbn [obind] in S.
    destruct (o_res _); [|discriminate S]. injection S as <-. now split.
  - destruct (de_queue d) as [|p rest]; [discriminate S|].
    destruct (respond_idle (sy_in (de_sys d))) eqn:RI; [|discriminate S].
    destruct (sys_step (de_sys d) (SRespond choice p)) as [s'|] eqn:E1; [|discriminate S].
    cbn [obind] in S. injection S as <-. split; cbn [de_sys]; [eapply known_step; eauto|].
    eapply fifo_sys; [exact F|exact E1|exact RI].
  - destruct (local_input i); [|discriminate S]. destruct (handle E i (de_world d)) as [w [o|]]; [|discriminate S].
    injection S as <-. now split.
  - destruct (cn_phase _); try discriminate S. injection S as <-. now split.
Qed.

Lemma free_life E ps s : life E ps s -> match s with Up d => free d | Down _ => True end.
Proof. induction 1; auto; [apply free_init|eapply free_step; eauto]. Qed.

Lemma delivers_keeps E d l d' : delivers l -> dev_step E d l = Some (Running d') ->
  de_world d' = de_world d /\ de_srv d' = de_srv d /\ sy_log (de_sys d') = sy_log (de_sys d).
Proof.
  intros D S. destruct l as [| |i|i|i ka|choice|i|s]; try destruct D; cbn [dev_step] in S.
  - unfold in_sys in S. cbn [sys_step] in S. destruct (sy_pending _); [|discriminate]. injection S as <-. auto.
  - unfold in_sys in S. cbn [sys_step in_step] in S. destruct (nth_error (in_flight _) i); [|discriminate].
    cbn [obind] in S. destruct (nth_error (sy_subs _) _) as [[h b]|]; [|discriminate]. injection S as <-. auto.
  - destruct (de_queue d) as [|p rest]; [discriminate S|]. destruct (respond_idle _); [|discriminate S].
    cbn [sys_step in_step] in S. destruct (rb_respond _ _ _) as [[bf cb]|]; [|discriminate S]. injection S as <-. auto.
Qed.

Lemma run_flights E : forall k d, free d -> length (in_flight (sy_in (de_sys d))) = k ->
  exists ls d', dev_run E d ls = Some (Running d') /\ Forall delivers ls /\
    in_flight (sy_in (de_sys d')) = [] /\ de_queue d' = de_queue d /\ sy_pending (de_sys d') = sy_pending (de_sys d).
Proof.
  induction k as [|k IH]; intros d F L.
  - exists [], d. cbn. destruct (in_flight (sy_in (de_sys d))); [auto|discriminate].
  - destruct (in_flight (sy_in (de_sys d))) as [|f fs] eqn:Fl; [discriminate|].
    destruct F as (K & Fi). pose proof K as (K1 & K2 & _). rewrite Fl in K2. apply Forall_inv in K2.
    destruct (nth_error (sy_subs (de_sys d)) (fl_key f)) as [[h b]|] eqn:Nt.
    2:{ apply nth_error_None in Nt. lia. }
    assert (S : exists s', sys_step (de_sys d) (SRun 0) = Some s' /\ in_flight (sy_in s') = fs /\
                sy_pending s' = sy_pending (de_sys d)).
    { cbn [sys_step in_step]. rewrite Fl. cbn [nth_error obind]. rewrite Nt. cbn [obind].
      eexists. split; [reflexivity|]. cbn. auto. }
    destruct S as (s' & S & S1 & S2).
    set (d1 := mk_dev s' (de_taken d) (de_srv d) (de_world d) (de_queue d)).
    assert (S3 : dev_step E d (DRun 0) = Some (Running d1)).
    { cbn [dev_step]. unfold in_sys. rewrite S. reflexivity. }
    destruct (IH d1) as (ls & d' & R & Fd & A & B & C).
    + eapply free_step; [split; eassumption|exact S3].
    + cbn [d1 de_sys]. rewrite S1. now injection L.
    + exists (DRun 0 :: ls), d'. cbn [dev_run]. rewrite S3. cbn [obind]. split; [exact R|].
      split; [constructor; [exact Logic.I|exact Fd]|]. split; [exact A|]. split; [exact B|]. now rewrite C.
Qed.

Lemma free_run E ls : forall d d', free d -> dev_run E d ls = Some (Running d') -> free d'.
Proof.
  induction ls as [|l ls IH]; intros d d' F R; cbn [dev_run] in R; [now injection R as <-|].
  destruct (dev_step E d l) as [[d1|w]|] eqn:S; cbn [obind] in R; [|destruct ls; discriminate R|discriminate R].
  apply (IH d1); [|exact R]. eapply free_step; eauto.
Qed.

Lemma delivers_run E ls : forall d d', Forall delivers ls -> dev_run E d ls = Some (Running d') ->
  de_world d' = de_world d /\ de_srv d' = de_srv d /\ sy_log (de_sys d') = sy_log (de_sys d).
Proof.
  induction ls as [|l ls IH]; intros d d' F R; cbn [dev_run] in R; [now injection R as <-|].
  destruct (dev_step E d l) as [[d1|w]|] eqn:S; cbn [obind] in R; [|destruct ls; discriminate R|discriminate R].
  destruct (IH d1 d' (Forall_inv_tail F) R) as (A & B & C).
  destruct (delivers_keeps _ _ _ _ (Forall_inv F) S) as (A' & B' & C'). split; [congruence|]. split; congruence.
Qed.

Lemma run_queue E : forall k d, free d -> length (de_queue d) = k ->
  exists ls d', dev_run E d ls = Some (Running d') /\ Forall delivers ls /\
    in_flight (sy_in (de_sys d')) = [] /\ de_queue d' = [] /\ sy_pending (de_sys d') = sy_pending (de_sys d).
Proof.
  induction k as [|k IH]; intros d F L; destruct (run_flights E _ d F eq_refl) as (l0 & d0 & R0 & D0 & A0 & B0 & C0).
  - exists l0, d0. destruct (de_queue d); [auto|discriminate].
  - destruct (de_queue d) as [|p rest] eqn:Q; [discriminate|].
    pose proof (free_run _ _ _ _ F R0) as F0.
    assert (S : exists s', sys_step (de_sys d0) (SRespond 0 p) = Some s' /\ sy_pending s' = sy_pending (de_sys d0)).
    { cbn [sys_step in_step]. unfold rb_respond. destruct (rb_waiting (in_buf (sy_in (de_sys d0)))) as [|[i k'] wt];
        cbn [nth_error obind]; eexists; split; reflexivity. }
    destruct S as (s' & S & S2). set (d1 := mk_dev s' (de_taken d0) (de_srv d0) (de_world d0) rest).
    assert (S3 : dev_step E d0 (DSend 0) = Some (Running d1)).
    { cbn [dev_step]. rewrite B0. unfold respond_idle. rewrite A0. cbn [forallb]. rewrite S. reflexivity. }
    destruct (IH d1) as (ls & d' & R & Fd & A & B & C).
    + eapply free_step; [exact F0|exact S3].
    + cbn [d1 de_queue]. now injection L.
    + exists (l0 ++ DSend 0 :: ls), d'. rewrite dev_run_app, R0. cbn [dev_run]. rewrite S3. cbn [obind].
      split; [exact R|]. split; [apply Forall_app; split; [exact D0|constructor; [exact Logic.I|exact Fd]]|].
      split; [exact A|]. split; [exact B|]. rewrite C. cbn [d1 de_sys]. congruence.
Qed.

(* Everything the device has to say can be said, without any further help, and then a
   packet stays behind only if the host has no transfer waiting. *)
Lemma device_delivers E ps d : life E ps (Up d) ->
  exists ls d', dev_run E d ls = Some (Running d') /\ Forall delivers ls /\ life E ps (Up d') /\
    de_queue d' = [] /\ in_flight (sy_in (de_sys d')) = [] /\ sy_pending (de_sys d') = None /\
    (rb_responses (in_buf (sy_in (de_sys d'))) = [] \/ rb_waiting (in_buf (sy_in (de_sys d'))) = []) /\
    de_world d' = de_world d /\ sy_log (de_sys d') = sy_log (de_sys d).
Proof.
  intro Lf. pose proof (free_life _ _ _ Lf) as F. cbn in F.
  destruct (run_queue E _ d F eq_refl) as (l0 & d0 & R0 & D0 & A0 & B0 & C0).
  assert (G : exists ls d', dev_run E d ls = Some (Running d') /\ Forall delivers ls /\
    de_queue d' = [] /\ in_flight (sy_in (de_sys d')) = [] /\ sy_pending (de_sys d') = None).
  { destruct (sy_pending (de_sys d0)) as [f|] eqn:P.
    - exists (l0 ++ [DWrite]). eexists. rewrite dev_run_app, R0. cbn [dev_run dev_step]. unfold in_sys. cbn [sys_step].
      rewrite P. cbn [obind]. split; [reflexivity|]. split; [apply Forall_app; split; [exact D0|repeat constructor]|].
      cbn. auto.
    - exists l0, d0. auto. }
  destruct G as (ls & d' & R & D & Q & Fl & P). exists ls, d'.
  destruct (delivers_run _ _ _ _ D R) as (W1 & _ & W3).
  assert (Lf' : life E ps (Up d')).
  { clear - Lf R D. revert d Lf R. induction D as [|l ls Hl D IH]; intros d Lf R; cbn [dev_run] in R; [now injection R as <-|].
    destruct (dev_step E d l) as [[d1|w]|] eqn:S; cbn [obind] in R; [|destruct ls; discriminate R|discriminate R].
    apply (IH d1); [|exact R]. eapply L_step; eauto. destruct l; try destruct Hl; exact Logic.I. }
  do 6 (split; [assumption|]). split; [|auto].
  destruct (free_run _ _ _ _ F R) as (_ & _ & [H|[H _]] & _); auto.
Qed.

Lemma life_run E ps ls : forall d d', life E ps (Up d) -> Forall label_ok ls ->
  dev_run E d ls = Some (Running d') -> life E ps (Up d').
Proof.
  induction ls as [|l ls IH]; intros d d' Lf D R; cbn [dev_run] in R; [now injection R as <-|].
  destruct (dev_step E d l) as [[d1|w]|] eqn:S; cbn [obind] in R; [|destruct ls; discriminate R|discriminate R].
  apply (IH d1); [|exact (Forall_inv_tail D)|exact R]. eapply L_step; eauto. exact (Forall_inv D).
Qed.

Lemma starts_of_in h p : In (HStart p) h \/ In (HStartFailed p) h -> In p (starts_of h).
Proof.
  intro H. unfold starts_of. apply in_flat_map. destruct H as [H|H]; eexists; (split; [exact H|now left]).
Qed.

Lemma device_restarts E ps w p : env_ok E -> life E ps (Down w) -> Forall (params_ok E) (ps ++ [p]) ->
  exists w', start E p (saved_in (w_trace w)) w = (w', Ok tt).
Proof.
  intros Eo L F. destruct (device_history _ _ _ L) as (h & H & S & _).
  destruct (start E p (saved_in (w_trace w)) w) as [w' [[]|]] eqn:St; [eauto|exfalso].
  pose proof (H_start_failed E h w p w' H St) as H'.
  refine (starts_succeed E _ _ _ p Eo H' _ _); [|apply in_or_app; right; now left].
  intros q Hq. rewrite Forall_forall in F. apply F.
  apply starts_of_in in Hq. unfold starts_of in Hq. rewrite flat_map_app in Hq. fold (starts_of h) in Hq.
  rewrite S in Hq. exact Hq.
Qed.

Lemma delegated s ls d : Forall wfb s -> sys_run (sys_init s) ls = Some d -> sy_delegate d = written_of (sy_log d).
Proof. intros W R. exact (wi_delegate _ (wire_run _ _ _ (wire_init _ W) R)). Qed.
