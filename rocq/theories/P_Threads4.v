(* The life of the device with its goroutines is a history of overlapping requests, and every
   answer of that history reaches the host once and whole. *)
From Verif Require Import Base M_Util M_Usb M_ReqBuf M_Usbip M_Hid M_HidConc M_Crypto M_Cose M_State M_Client M_Ctap M_U2f M_History
  M_Overlap M_Device M_Threads S_ReqBuf S_Usbip S_UsbipSys S_Hid S_Client S_Ctap S_History S_Device S_Overlap S_Threads
  P_ReqBuf P_Usb P_Usbip2 P_Usbip3 P_Hid1 P_Hid2 P_Hid3 P_Device1 P_Device2
  P_Device3 P_Device4 P_Device5 P_Overlap1 P_Overlap7 P_Threads1 P_Threads2 P_Threads3.
From Coq Require Import Lia Sorted Permutation.

Definition tworld_of (s : tstatus) : world := match s with TDown w => w | TUp d => td_world d end.

Lemma tlife_history E ps s : tlife E ps s -> exists h lo, ohistory E h lo (tworld_of s) /\ ostarts_of h = ps /\
  match s with TUp d => exists l g p, lo = Some l /\ tinv h l g p d | TDown _ => lo = None end.
Proof.
  induction 1 as [c t|ps w p w' s L (H & lo & A & B & ->) W St|ps w p w' L (H & lo & A & B & ->) St
    |ps d l d' L (H & lo & A & B & l0 & g & p & -> & C) Lo St|ps d l w L (H & lo & A & B & l0 & g & p & -> & C) Lo St
    |ps d l m es rest L (H & lo & A & B & l0 & g & p & -> & C) Lo St Tr]; cbn [tworld_of] in *.
  - exists [], None. split; [constructor|]. auto.
  - exists (H ++ [OStart p]), (Some []). split; [eapply O_start; eauto|]. split; [now rewrite ostarts_app, B|].
    exists [], [], []. split; [reflexivity|]. now apply tinv_init.
  - exists (H ++ [OStartFailed p]), None. split; [eapply O_start_failed; eauto|]. split; [now rewrite ostarts_app, B|reflexivity].
  - destruct (tstep_inv _ _ _ _ _ _ _ _ A C Lo St) as (es & l' & g' & p' & X & Y & Z).
    exists (H ++ es), (Some l'). split; [exact X|]. split; [now rewrite ostarts_app, Y, app_nil_r|]. eauto.
  - destruct (tstep_did _ _ _ _ _ _ _ _ C Lo St) as [D1|i r G D1 D2|k x r Nt D1 D2]; cbn [tworld_after] in *.
    + subst w. exists (H ++ [OKill]), None. split; [now apply O_kill in A|]. split; [rewrite ostarts_app, B; apply app_nil_r|reflexivity].
    + subst r. exists (H ++ [OBegin (length H) i; OPanic (length H) i]), None. split; [eapply O_panic; eauto|].
      split; [rewrite ostarts_app, B; apply app_nil_r|reflexivity].
    + subst r. destruct (remove_nth_split _ _ _ Nt) as (w1 & w2 & Wt & _ & _).
      pose proof (ti_waits _ _ _ _ _ C) as FW. rewrite Wt in FW. apply forall2_at in FW as (l1 & y & l2 & -> & (_ & Y2 & _) & _ & _).
      exists (H ++ [OPanic (wt_no y) (wt_input y)]), None. split; [eapply O_panic_later; [exact A|now rewrite Y2]|].
      split; [rewrite ostarts_app, B; apply app_nil_r|reflexivity].
  - destruct (tstep_did _ _ _ _ _ _ _ _ C Lo St) as [D1|i r G D1 D2|k x r Nt D1 D2].
    + rewrite D1 in *. exists (H ++ [OKill]), None. split; [|split; [rewrite ostarts_app, B; apply app_nil_r|reflexivity]].
      assert (es = []) as ->.
      { rewrite <- (app_nil_r (w_trace (td_world d))) in Tr at 1. apply app_inv_head in Tr.
        symmetry in Tr. now apply app_eq_nil in Tr. }
      rewrite app_nil_r. apply O_kill in A. destruct (td_world d). exact A.
    + exists (H ++ [OBegin (length H) i; OCrash (length H) i]), None.
      split; [|split; [rewrite ostarts_app, B; apply app_nil_r|reflexivity]]. eapply O_crash; eauto.
    + destruct (remove_nth_split _ _ _ Nt) as (w1 & w2 & Wt & _ & _).
      pose proof (ti_waits _ _ _ _ _ C) as FW. rewrite Wt in FW. apply forall2_at in FW as (l1 & y & l2 & -> & (_ & Y2 & _) & _ & _).
      exists (H ++ [OCrash (wt_no y) (wt_input y)]), None.
      split; [|split; [rewrite ostarts_app, B; apply app_nil_r|reflexivity]]. eapply O_crash_later; [exact A| |exact Tr]. rewrite Y2. exact D1.
Qed.

(* ---- on the wire *)
Lemma made_sent h l g p d x : tinv h l g p d -> made (td_sys d) x -> exists t, In t g /\ In x (out_packets t).
Proof.
  intros K Mx. assert (In x (concat (map out_packets g))) as H.
  { rewrite (ti_sent _ _ _ _ _ K). apply in_app_iff. left. unfold produced. apply in_flat_map. exists (EvProduced x). split; [exact Mx|now left]. }
  apply in_concat in H as (y & Hy & Hx). apply in_map_iff in Hy as (t & <- & Ht). eauto.
Qed.

Lemma reason_explained w h t x : reason w h t -> In x (out_packets t) -> explained w (S_Overlap.answers_in h) x.
Proof.
  intros [_ R] Hx. destruct t; cbn [out_packets] in *.
  - destruct R as (m & Q). eapply X_keepalive; eauto.
  - destruct R as (f & Q & T). eapply X_error; eauto.
  - destruct R as (L & m & Q). eapply X_init; eauto.
  - eapply X_ping; eauto.
  - destruct R as (I & m & [->| ->] & Q).
    + eapply X_ctap; [exact Q| |exact Hx]. unfold S_Overlap.answers_in. apply in_flat_map. eexists. split; [exact I|now left].
    + eapply X_u2f; [exact Q| |exact Hx]. unfold S_Overlap.answers_in. apply in_flat_map. eexists. split; [exact I|now left].
Qed.

Lemma waits_inputs w a b : Forall2 (wait_ok w) a b -> map wt_input b = map th_input a.
Proof. induction 1 as [|x y a b (H & _) F IH]; cbn; [reflexivity|]. now rewrite H, IH. Qed.

Lemma threads_history E ps s : tlife E ps s -> exists h lo, ohistory E h lo (tworld_of s) /\ ostarts_of h = ps /\
  match s with
  | TDown _ => lo = None
  | TUp d =>
    let log := sy_log (td_sys d) in let now := osince_start h in
    (exists l, lo = Some l /\ map wt_input l = map th_input (td_waits d)) /\
    Forall (ocame_from (written_of log)) now /\
    (length (filter begins_request now) <= length (written_of log))%nat /\
    Forall (on_wire log (explained (written_of log) (S_Overlap.answers_in now))) (sy_out (td_sys d))
  end.
Proof.
  intro L. destruct (tlife_history _ _ _ L) as (H & lo & A & B & C). exists H, lo. split; [exact A|]. split; [exact B|].
  destruct s as [w|d]; [exact C|]. destruct C as (l & g & p & -> & K). cbv zeta.
  rewrite <- (wi_delegate _ (ti_wire _ _ _ _ _ K)).
  split; [exists l; split; [reflexivity|]; eapply waits_inputs; apply K|]. split; [apply K|]. split.
  - pose proof (ti_count _ _ _ _ _ K). pose proof (nodup_bound _ _ (ti_nodup _ _ _ _ _ K) (ti_taken _ _ _ _ _ K)). lia.
  - eapply all_imp; [|apply K]. intros x Mx. destruct (made_sent _ _ _ _ _ _ K Mx) as (t & Ht & Hx).
    eapply reason_explained; [|exact Hx]. pose proof (ti_reason _ _ _ _ _ K) as R. rewrite Forall_forall in R. apply R.
    apply in_app_iff. now left.
Qed.

(* ---- to the host *)
Lemma out_packets_chan t : Forall (fun x => takeN 4 x = le 4 (out_channel t)) (out_packets t).
Proof. destruct t; apply spec_packets_chan. Qed.

Lemma channel_messages w h ch ts : ch < 4294967296 -> Forall (reason w h) ts ->
  filter (on_channel ch) (concat (map out_packets ts)) = concat (map out_packets (filter (sent_on ch) ts)).
Proof.
  intros Hch F. induction F as [|t ts [B _] F IH]; [reflexivity|]. cbn [map concat filter]. rewrite filter_app, IH.
  unfold sent_on at 2. destruct (out_channel t =? ch) eqn:C.
  - apply N.eqb_eq in C. cbn [map concat]. f_equal. apply filter_on_channel. rewrite <- C. apply out_packets_chan.
  - apply N.eqb_neq in C. rewrite (filter_off_channel ch (out_channel t)); auto using out_packets_chan.
Qed.

Lemma pending_few ch o p : Forall2 fits o p -> (length (numbers_of (filter (sent_on ch) p)) <= count_occ N.eq_dec (locks_of o) ch)%nat.
Proof.
  induction 1 as [|g t o p [_ FT] F IH]; [reflexivity|]. cbn [filter]. change (locks_of (g :: o)) with (opt_list (gr_lock g) ++ locks_of o).
  rewrite count_occ_app. unfold sent_on at 1. destruct (out_channel t =? ch) eqn:C; [|lia].
  apply N.eqb_eq in C. unfold numbers_of in *. cbn [flat_map]. rewrite app_length.
  destruct t as [| | | |n c i r]; cbn [answer_number length] in *; try lia.
  rewrite (FT n (or_introl eq_refl)), C. cbn [opt_list count_occ]. destruct (N.eq_dec ch ch); [lia|contradiction].
Qed.

Lemma turns_sorted h l g p d ch : tinv h l g p d -> StronglySorted lt (numbers_of (filter (sent_on ch) (g ++ p))).
Proof.
  intro K. rewrite filter_app, numbers_of_app. pose proof (pending_few ch _ _ (ti_out _ _ _ _ _ K)) as F.
  assert (count_occ N.eq_dec (locks_of (td_out d)) ch <= 1)%nat.
  { pose proof (ti_locks _ _ _ _ _ K) as L. unfold holders in L. rewrite (NoDup_count_occ N.eq_dec) in L. specialize (L ch).
    rewrite !count_occ_app in L. lia. }
  pose proof (ti_later _ _ _ _ _ K ch) as Lt. destruct (numbers_of (filter (sent_on ch) p)) as [|m [|m' r]]; [| |cbn in F; lia].
  - rewrite app_nil_r. apply K.
  - apply sorted_snoc; [apply K|]. intros n A. apply (Lt n m A). left. now left.
Qed.

Lemma nodup_since h : NoDup (answered_numbers h) -> NoDup (answered_requests (osince_start h)).
Proof.
  assert (S : forall h, NoDup (answered_numbers h) -> NoDup (answered_requests h)).
  { induction h0 as [|e h0 IH]; [auto|]. unfold answered_numbers, answered_requests in *. cbn [flat_map]. intro H.
    destruct e as [| | |n i o| | |]; try (now apply IH). cbn [app] in *. inversion_clear H as [|? ? H1 H2].
    destruct (from_host i); [|now apply IH]. cbn [app]. constructor; [|now apply IH]. intro X. apply H1.
    apply in_flat_map in X as (e & X1 & X2). apply in_flat_map. exists e. split; [exact X1|].
    destruct e; try destruct X2. destruct (from_host i0); [exact X2|destruct X2]. }
  intro H. apply S. induction h as [|e h IH]; [exact H|]. cbn [osince_start].
  assert (NoDup (answered_numbers h)) as H'.
  { unfold answered_numbers in *. cbn [flat_map] in H. destruct e; try exact H. now inversion H. }
  destruct (existsb is_ostart h); [auto|]. destruct (is_ostart e); [|auto]. exact H'.
Qed.

Lemma threads_deliver_all E ps d : tlife E ps (TUp d) -> exists h l turns, ohistory E h (Some l) (td_world d) /\ ostarts_of h = ps /\ map wt_input l = map th_input (td_waits d) /\
  let log := sy_log (td_sys d) in let now := osince_start h in
  Forall (reason (written_of log) now) turns /\
  NoDup (numbers_of turns) /\ Permutation (numbers_of turns) (answered_requests now) /\
  (forall ch, StronglySorted lt (numbers_of (filter (sent_on ch) turns))) /\
  reads_as d turns.
Proof.
  intro L. destruct (tlife_history _ _ _ L) as (h & lo & A & B & l & g & p & -> & K). cbn [tworld_of] in A.
  exists h, l, (g ++ p). split; [exact A|]. split; [exact B|]. split; [eapply waits_inputs; apply K|]. cbv zeta.
  pose proof (ti_wire _ _ _ _ _ K) as I. rewrite <- (wi_delegate _ I). split; [apply K|].
  split; [eapply Permutation_NoDup; [symmetry; apply K|]; apply nodup_since; destruct (onumbers_inv _ _ _ _ A) as [X _]; now apply nodup_left in X|].
  split; [apply K|]. split; [intro ch; eapply turns_sorted; exact K|].
  cbv zeta delta [reads_as]. intros ND R64 ch Hch. destruct (ti_reads _ _ _ _ _ K) as (s0 & sl & W0 & Rn).
  pose proof (sys_reach _ _ _ W0 Rn ND) as SI.
  pose proof (read_run _ _ _ (sys_init_inv _ W0) (wire_init _ W0) (read_init _) Rn ND) as [RI _].
  destruct (ti_fifo _ _ _ _ _ K) as (F1 & _).
  set (s' := td_sys d) in *.
  assert (PR : packets_read ch (sy_log s') (sy_out s') = filter (on_channel ch) (delivered (in_trace (sy_in s')))).
  { unfold packets_read. rewrite RI. apply in_frames_data; auto.
    - intros x Mx. destruct (made_sent _ _ _ _ _ _ K Mx) as (t & Ht & Hx). eapply explained_64.
      eapply reason_explained; [|exact Hx]. pose proof (ti_reason _ _ _ _ _ K) as R. rewrite Forall_forall in R. apply R.
      apply in_app_iff. now left.
    - rewrite F1. apply incl_app_l.
    - intros k v H. rewrite (subs_len _ SI). eapply callback_bound; [apply SI|exact H]. }
  exists (filter (on_channel ch) (flying_data (sy_in s') ++ rb_responses (in_buf (sy_in s')) ++ turn_left d ++ concat (map out_packets p))).
  rewrite <- (channel_messages (sy_delegate s') (osince_start h) ch (g ++ p)) by (lia || apply K).
  rewrite map_app, concat_app, (ti_sent _ _ _ _ _ K). fold s'. rewrite PR, F1, <- filter_app, <- !app_assoc. split; [reflexivity|].
  intros D1 D2 D3 D4. fold s' in D3, D4. pose proof (ti_out _ _ _ _ _ K) as FO. rewrite D1 in FO. inversion FO; subst p.
  unfold turn_left, flying_data. rewrite D2, D3, D4. reflexivity.
Qed.

Lemma threads_deliver E ps d : tlife E ps (TUp d) -> exists h l turns, ohistory E h (Some l) (td_world d) /\ ostarts_of h = ps /\
  let log := sy_log (td_sys d) in let now := osince_start h in
  Forall (reason (written_of log) now) turns /\
  NoDup (numbers_of turns) /\ Permutation (numbers_of turns) (answered_requests now) /\
  (forall ch, StronglySorted lt (numbers_of (filter (sent_on ch) turns))) /\
  reads_as d turns.
Proof.
  intro L. destruct (threads_deliver_all _ _ _ L) as (h & l & turns & A & B & _ & C). exists h, l, turns. auto.
Qed.
