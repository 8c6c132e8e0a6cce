(* One step of the device with its goroutines: what it does to the history of requests. *)
From Verif Require Import Base M_Util M_Usb M_ReqBuf M_Usbip M_Hid M_HidConc M_Crypto M_Cose M_State M_Client M_Ctap M_U2f M_History
  M_Overlap M_Device M_Threads S_ReqBuf S_Usbip S_UsbipSys S_Hid S_Device S_Threads P_ReqBuf P_Usb P_Usbip2 P_Usbip3 P_Hid1 P_Hid2 P_Device1 P_Device2
  P_Device3 P_Device4 P_Overlap1 P_Threads1 P_Threads2.
From Coq Require Import Lia Sorted Permutation.

Lemma fmap_ok {A B} (f : A -> B) (m : M A) w w' b : fmapM f m w = (w', Ok b) -> exists a, m w = (w', Ok a) /\ b = f a.
Proof.
  unfold fmapM, bind, ret. destruct (m w) as [w1 [a|]]; [|discriminate]. intros [= <- <-]. eauto.
Qed.

Lemma begin_bytes E ctap q w w' o : begin E (input_of ctap q) w = (w', Ok (inl o)) -> o = OBytes (bytes_of o).
Proof.
  destruct ctap; cbn [input_of begin]; intro H; apply fmap_ok in H as ([r|p] & _ & Q); try discriminate Q;
    injection Q as ->; reflexivity.
Qed.

Lemma begin_local E i w : local_input i = true -> begin E i w =
  match handle E i w with (w', Ok o) => (w', Ok (inl o)) | (w', Panic) => (w', Panic) end.
Proof.
  destruct i; try discriminate; intros _; cbn [begin]; unfold fmapM, bind, ret;
    match goal with |- context [handle E ?x w] => destruct (handle E x w) as [? [?|]] end; reflexivity.
Qed.

Lemma asks_host i m : asks i m -> from_host i = true.
Proof. intros [->| ->]; reflexivity. Qed.
Lemma asks_command i m : asks i m -> command_of i = asks_by i.
Proof. intros [->| ->]; reflexivity. Qed.
Lemma asks_input ctap m : asks (input_of ctap m) m.
Proof. destruct ctap; [now left|now right]. Qed.
Lemma asks_good i m : asks i m -> wfb m -> good_input i.
Proof. intros [->| ->] W; exact W. Qed.

Lemma numbers_filter f n l : In n (numbers_of (filter f l)) -> In n (numbers_of l).
Proof.
  unfold numbers_of. intro H. apply in_flat_map in H as (t & A & B). apply filter_In in A as [A _].
  apply in_flat_map. eauto.
Qed.

Lemma refresh_wait w W x y : wait_ok W x y ->
  wait_ok W (mk_thread (th_ch x) (th_reply x) (th_input x) (refresh (cl_vault (w_client w)) (th_state x)))
    (mk_waiting (wt_no y) (wt_input y) (refresh (cl_vault (w_client w)) (wt_state y))).
Proof. intros (A & B & C). unfold wait_ok. cbn [wt_input wt_state th_input th_state th_ch th_reply]. rewrite A, B. auto. Qed.

Lemma refresh_waits w W l m : Forall2 (wait_ok W) l m -> Forall2 (wait_ok W) (refresh_threads w l) (refreshed w m).
Proof. induction 1; cbn; constructor; auto using refresh_wait. Qed.

Lemma refresh_chs w l : map th_ch (refresh_threads w l) = map th_ch l.
Proof. induction l; cbn; f_equal; auto. Qed.
Lemma refresh_nos w l : map wt_no (refreshed w l) = map wt_no l.
Proof. induction l; cbn; f_equal; auto. Qed.

Lemma forall2_len {A B} (R : A -> B -> Prop) a b : Forall2 R a b -> length a = length b.
Proof. induction 1; cbn; auto. Qed.

Lemma combine_app {A B} (a1 a2 : list A) (b1 b2 : list B) : length a1 = length b1 ->
  combine (a1 ++ a2) (b1 ++ b2) = combine a1 b1 ++ combine a2 b2.
Proof.
  revert b1. induction a1 as [|x a1 IH]; intros [|y b1] H; try discriminate H; cbn; [reflexivity|].
  f_equal. apply IH. now injection H.
Qed.

Lemma locks_app a b : locks_of (a ++ b) = locks_of a ++ locks_of b.
Proof. apply flat_map_app. Qed.

(* more of the history and more to send *)
Lemma tinv_ext h l g p d es l' taken srv w waits extra pextra ticks :
  tinv h l g p d -> existsb is_ostart es = false ->
  P_Device1.waiting (sy_delegate (td_sys d)) srv ->
  NoDup taken -> (forall i, In i taken -> (i < length (sy_delegate (td_sys d)))%nat) ->
  (length (filter begins_request es) + length (td_taken d) <= length taken)%nat ->
  Forall (ocame_from (sy_delegate (td_sys d))) es ->
  Forall2 (wait_ok (sy_delegate (td_sys d))) waits l' ->
  Forall (fun ch => ch < 4294967296 /\ exists m, requested (sy_delegate (td_sys d)) ch 0x90 m) ticks ->
  Forall2 fits extra pextra ->
  Forall (reason (sy_delegate (td_sys d)) (osince_start h ++ es)) pextra ->
  Permutation (numbers_of pextra) (answered_requests es) ->
  (forall ch n m, In n (numbers_of (filter (sent_on ch) g)) ->
    In m (numbers_of (filter (sent_on ch) pextra)) \/ In (ch, m) (combine (map th_ch waits) (map wt_no l')) -> (n < m)%nat) ->
  (forall n, In n (numbers_of pextra) \/ In n (map wt_no l') -> (n < length (h ++ es))%nat) ->
  NoDup (map th_ch waits ++ locks_of (td_out d ++ extra) ++ match td_turn d with Some g => opt_list (gr_lock g) | None => [] end) ->
  tinv (h ++ es) l' g (p ++ pextra)
    (mk_tdev (td_sys d) taken srv w waits (td_out d ++ extra) (td_turn d) ticks).
Proof.
  intros K NS Hw Hn Hb Hc Hf HW HT HO HR HP HL HB HLk.
  constructor; rewrite ?(osince_more _ _ (ti_started _ _ _ _ _ K) NS);
    cbn [td_sys td_srv td_taken td_waits td_tickers td_out td_turn]; try assumption; try (now apply K).
  - rewrite existsb_app, (ti_started _ _ _ _ _ K). reflexivity.
  - rewrite filter_app, app_length. pose proof (ti_count _ _ _ _ _ K). lia.
  - apply Forall_app. split; [apply K|assumption].
  - apply Forall2_app; [apply K|assumption].
  - rewrite app_assoc. apply Forall_app. split; [|assumption].
    eapply Forall_impl; [|apply K]. intros t. apply reason_mono; [apply incl_refl|apply incl_app_l].
  - rewrite app_assoc, numbers_of_app, answered_app. apply Permutation_app; [apply K|assumption].
  - intros ch n m A B. rewrite filter_app, numbers_of_app in B. destruct B as [B|B].
    + apply in_app_iff in B as [B|B]; [apply (ti_later _ _ _ _ _ K ch n m A); now left|apply (HL ch n m A); now left].
    + apply (HL ch n m A). now right.
  - intros n A. rewrite app_assoc, numbers_of_app, in_app_iff in A. destruct A as [[A|A]|A].
    + pose proof (ti_bound _ _ _ _ _ K n (or_introl A)). rewrite app_length. lia.
    + apply HB. now left.
    + apply HB. now right.
Qed.

Lemma taken_more h l g p d i m : tinv h l g p d -> existsb (Nat.eqb i) (td_taken d) = false ->
  nth_error (sy_delegate (td_sys d)) i = Some m ->
  NoDup (i :: td_taken d) /\ (forall j, In j (i :: td_taken d) -> (j < length (sy_delegate (td_sys d)))%nat).
Proof.
  intros K T Nt. split.
  - constructor; [|apply K]. intro H. assert (existsb (Nat.eqb i) (td_taken d) = true) as X; [|congruence].
    apply existsb_exists. exists i. split; [exact H|apply Nat.eqb_refl].
  - intros j [<-|H]; [apply nth_error_Some; rewrite Nt; discriminate|now apply (ti_taken _ _ _ _ _ K)].
Qed.

Lemma nodup_more {A} (a b c : list A) x : NoDup (a ++ b ++ c) -> ~ In x (a ++ b ++ c) -> NoDup (a ++ (b ++ [x]) ++ c).
Proof.
  intros H N. apply (Permutation_NoDup (l := x :: a ++ b ++ c)); [|now constructor].
  rewrite <- (app_assoc b). cbn [app]. rewrite !app_assoc. apply Permutation_middle.
Qed.

Lemma move_one {A} (a b c z : list A) x : Permutation ((a ++ x :: b) ++ c ++ z) ((a ++ b) ++ (c ++ [x]) ++ z).
Proof.
  rewrite <- !app_assoc. apply Permutation_app_head. cbn [app]. rewrite (app_assoc b c z), (app_assoc b c (x :: z)).
  apply Permutation_middle.
Qed.

Lemma nodup_first {A} (a b : list A) x : NoDup (a ++ b) -> ~ In x (a ++ b) -> NoDup ((a ++ [x]) ++ b).
Proof.
  intros H N. apply (Permutation_NoDup (l := x :: a ++ b)); [|now constructor].
  rewrite <- app_assoc. cbn [app]. apply Permutation_middle.
Qed.

(* What a step means for the authenticators. *)
Inductive tdid (E : Env) (d : tdev) (m : tmoved) : Prop :=
| Tdid_nothing : tworld_after m = td_world d -> tdid E d m
| Tdid_begin i r : good_input i -> begin E i (td_world d) = (tworld_after m, r) ->
    (match m with TDead _ => r = Panic | TRunning _ => r <> Panic end) -> tdid E d m
| Tdid_resume k x r : nth_error (td_waits d) k = Some x -> resume E (th_state x) (td_world d) = (tworld_after m, r) ->
    (match m with TDead _ => r = Panic | TRunning _ => r <> Panic end) -> tdid E d m.

Lemma tstep_did E h l g p d lab m : tinv h l g p d -> tlabel_ok lab -> tdev_step E d lab = Some m -> tdid E d m.
Proof.
  intros K Lo S.
  assert (SY : forall l', in_tsys d l' = Some m -> tdid E d m).
  { intros l' H. unfold in_tsys in H. destruct (sys_step (td_sys d) l'); [|discriminate H]. cbn [obind] in H.
    injection H as <-. now apply Tdid_nothing. }
  destruct lab as [| |i|i|i|k|k|k|choice|i|s]; cbn [tdev_step] in S; try (now eapply SY; eassumption).
  - destruct (existsb _ _); [discriminate S|]. destruct (nth_error _ i) as [q|] eqn:Nt; [|discriminate S]. cbn [obind] in S.
    destruct (blocked d q); [discriminate S|].
    pose proof (hid_front_ok (sy_delegate (td_sys d)) (td_srv d) q (wi_wfb _ (ti_wire _ _ _ _ _ K)) (nth_error_In _ _ Nt)
      (ti_waiting _ _ _ _ _ K)) as FO.
    destruct (hid_front (td_srv d) q) as [s|lock s ps|ch s ctap reply m'|].
    + injection S as <-. now apply Tdid_nothing.
    + injection S as <-. now apply Tdid_nothing.
    + destruct FO as (_ & _ & Wq & _ & _).
      destruct (begin E (input_of ctap m') (td_world d)) as [w [[o|pp]|]] eqn:B; injection S as <-;
        (eapply Tdid_begin; [exact (asks_good _ _ (asks_input ctap m') Wq)|exact B|]); (discriminate || reflexivity).
    + injection S as <-. now apply Tdid_nothing.
  - destruct (nth_error (td_waits d) k) as [x|] eqn:Nt; [|discriminate S]. cbn [obind] in S.
    destruct (resume E (th_state x) (td_world d)) as [w [r|]] eqn:R; injection S as <-;
      (eapply Tdid_resume; [exact Nt|exact R|]); (discriminate || reflexivity).
  - destruct (nth_error (td_tickers d) k); [|discriminate S]. injection S as <-. now apply Tdid_nothing.
  - destruct (td_turn d); [discriminate S|]. destruct (nth_error (td_out d) k); [|discriminate S].
    injection S as <-. now apply Tdid_nothing.
  - destruct (td_turn d) as [[lock [|p0 rest]]|]; try discriminate S. destruct (respond_idle _); [|discriminate S].
    destruct (sys_step _ _); [|discriminate S]. injection S as <-. now apply Tdid_nothing.
  - destruct (local_input i) eqn:LI; [|discriminate S]. pose proof (begin_local E i (td_world d) LI) as B.
    destruct (handle E i (td_world d)) as [w [o|]]; injection S as <-;
      (eapply Tdid_begin; [exact Lo|exact B|]); (discriminate || reflexivity).
  - destruct (cn_phase _); try discriminate S. injection S as <-. now apply Tdid_nothing.
Qed.

(* A goroutine gets responsesLock. *)
Lemma tinv_grab h l g p d k gr : tinv h l g p d -> td_turn d = None -> nth_error (td_out d) k = Some gr ->
  exists t p1 p2, p = p1 ++ t :: p2 /\
  tinv h l (g ++ [t]) (p1 ++ p2) (mk_tdev (td_sys d) (td_taken d) (td_srv d) (td_world d) (td_waits d)
    (remove_nth k (td_out d)) (match gr_packets gr with [] => None | _ => Some gr end) (td_tickers d)).
Proof.
  intros K T Nt. destruct (remove_nth_split _ _ _ Nt) as (o1 & o2 & O & R & _).
  pose proof (ti_out _ _ _ _ _ K) as F. rewrite O in F. apply forall2_at in F as (p1 & t & p2 & P & Ft & F1 & F2).
  exists t, p1, p2. split; [exact P|]. destruct Ft as [Ft1 Ft2].
  assert (PE : Permutation ((g ++ [t]) ++ p1 ++ p2) (g ++ p)).
  { rewrite P, <- app_assoc. apply Permutation_app_head. cbn [app]. apply Permutation_middle. }
  pose proof (ti_locks _ _ _ _ _ K) as LK. unfold holders in LK. rewrite T, O, app_nil_r in LK.
  assert (HERE : forall ch n, In n (answer_number t) -> out_channel t = ch -> gr_lock gr = Some ch).
  { intros ch n A <-. eauto. }
  assert (ALONE : forall ch n m, In n (numbers_of (filter (sent_on ch) [t])) ->
    In m (numbers_of (filter (sent_on ch) (p1 ++ p2))) \/ In (ch, m) (combine (map th_ch (td_waits d)) (map wt_no l)) -> False).
  { intros ch n m A B. cbn [filter] in A. unfold sent_on in A at 1. destruct (out_channel t =? ch) eqn:C; [|destruct A].
    apply N.eqb_eq in C. unfold numbers_of in A. cbn [flat_map] in A. rewrite app_nil_r in A. pose proof (HERE ch n A C) as H1.
    apply (Permutation_NoDup (l' := ch :: map th_ch (td_waits d) ++ locks_of (o1 ++ o2))) in LK.
    2:{ rewrite !locks_app. change (locks_of (gr :: o2)) with (opt_list (gr_lock gr) ++ locks_of o2). rewrite H1. cbn [opt_list app].
        rewrite !app_assoc. symmetry. apply Permutation_middle. }
    inversion_clear LK as [|? ? NI _]. apply NI. apply in_app_iff. destruct B as [B|B].
    - right. unfold numbers_of in B. apply in_flat_map in B as (t' & B1 & B2). apply filter_In in B1 as [B1 B3].
      unfold sent_on in B3. apply N.eqb_eq in B3.
      assert (X : Forall2 fits (o1 ++ o2) (p1 ++ p2)) by (now apply Forall2_app).
      clear - X B1 B2 B3. unfold locks_of. induction X as [|g0 t0 gs ts FT X IH]; [destruct B1|].
      cbn [flat_map]. apply in_app_iff. destruct B1 as [<-|B1]; [left|right; auto].
      destruct FT as [_ FT]. rewrite (FT m B2), B3. now left.
    - left. now apply in_combine_l in B. }
  constructor; cbn [td_sys td_srv td_taken td_waits td_tickers td_out td_turn]; try (now apply K).
  - rewrite R. now apply Forall2_app.
  - eapply Permutation_Forall; [symmetry; exact PE|apply K].
  - rewrite map_app, concat_app, (ti_sent _ _ _ _ _ K). unfold turn_left. rewrite T. cbn [td_turn map concat].
    rewrite !app_nil_r, <- Ft1. destruct (gr_packets gr) eqn:Q; [reflexivity|]. now rewrite Q.
  - etransitivity; [|apply K]. unfold numbers_of. apply Permutation_flat_map. exact PE.
  - intro ch. rewrite filter_app, numbers_of_app. cbn [filter]. destruct (sent_on ch t) eqn:C; cbn; [|rewrite app_nil_r; apply K].
    rewrite app_nil_r. destruct t as [| | | |n c i r]; cbn [answer_number]; rewrite ?app_nil_r; try apply K.
    apply sorted_snoc; [apply K|]. intros m A. apply (ti_later _ _ _ _ _ K ch m n A). left.
    rewrite P, filter_app, numbers_of_app. apply in_app_iff. right. cbn [filter]. rewrite C. now left.
  - intros ch n m A B. rewrite filter_app, numbers_of_app in A. apply in_app_iff in A as [A|A]; [|destruct (ALONE ch n m A B)].
    apply (ti_later _ _ _ _ _ K ch n m A). destruct B as [B|B]; [left|now right].
    rewrite P, filter_app, numbers_of_app. rewrite filter_app, numbers_of_app in B. cbn [filter].
    apply in_app_iff in B as [B|B]; apply in_app_iff; [now left|right]. destruct (sent_on ch t); [|exact B].
    unfold numbers_of. cbn [flat_map]. apply in_app_iff. now right.
  - intros n [A|A]; [|apply (ti_bound _ _ _ _ _ K); now right]. apply (ti_bound _ _ _ _ _ K). left.
    unfold numbers_of in *. apply (Permutation_in (l := flat_map answer_number ((g ++ [t]) ++ p1 ++ p2))); [|exact A].
    apply Permutation_flat_map. exact PE.
  - unfold holders. cbn [td_waits td_out td_turn]. rewrite R.
    assert (X : NoDup (map th_ch (td_waits d) ++ locks_of (o1 ++ o2) ++ opt_list (gr_lock gr))).
    { eapply Permutation_NoDup; [|exact LK]. apply Permutation_app_head. rewrite !locks_app, <- app_assoc.
      apply Permutation_app_head. change (locks_of (gr :: o2)) with (opt_list (gr_lock gr) ++ locks_of o2). apply Permutation_app_comm. }
    destruct (gr_packets gr); [|exact X]. rewrite app_nil_r. rewrite app_assoc in X. now apply nodup_app_l in X.
  - destruct (gr_packets gr) eqn:Q; [exact Logic.I|]. rewrite Q. discriminate.
Qed.

(* A new connection. *)
Lemma tinv_accept h l g p d s : tinv h l g p d -> cn_phase (sy_conn (td_sys d)) = Closed -> Forall wfb s ->
  tinv h l g p (mk_tdev (mk_sys (mk_conn Control s) (sy_in (td_sys d)) (sy_subs (td_sys d)) None
    (sy_delegate (td_sys d)) [] []) (td_taken d) (td_srv d) (td_world d) (td_waits d) (td_out d) (td_turn d) (td_tickers d)).
Proof.
  intros K P W.
  destruct (ti_untouched _ _ _ _ _ K) as [(x & X)|(U1 & U2 & U3)]; [rewrite P in X; discriminate X|].
  assert (D : sy_delegate (td_sys d) = []).
  { rewrite (wi_delegate _ (ti_wire _ _ _ _ _ K)). unfold written_of. now rewrite U1. }
  pose proof (ti_fifo _ _ _ _ _ K) as FI. pose proof (ti_sent _ _ _ _ _ K) as SE. rewrite U2 in SE.
  rewrite U2, U3, D. destruct K. rewrite D in *.
  constructor; cbn [td_sys td_srv td_waits td_taken td_tickers td_out td_turn sy_delegate sy_in]; try assumption.
  - apply (wire_init s W).
  - right. auto.
  - exists s, []. split; [exact W|reflexivity].
  - exact fifo_start.
Qed.

Lemma tstep_inv E h l g p d lab d' : ohistory E h (Some l) (td_world d) -> tinv h l g p d -> tlabel_ok lab ->
  tdev_step E d lab = Some (TRunning d') ->
  exists es l' g' p', ohistory E (h ++ es) (Some l') (td_world d') /\ ostarts_of es = [] /\ tinv (h ++ es) l' g' p' d'.
Proof.
  intros H K Lo S.
  assert (SAME : forall d1 g1 p1, td_world d1 = td_world d -> tinv h l g1 p1 d1 ->
    exists es l' g' p', ohistory E (h ++ es) (Some l') (td_world d1) /\ ostarts_of es = [] /\ tinv (h ++ es) l' g' p' d1).
  { intros d1 g1 p1 Q K1. exists [], l, g1, p1. rewrite app_nil_r, Q. auto. }
  assert (SY : forall l', not_respond l' -> in_tsys d l' = Some (TRunning d') ->
    exists es l' g' p', ohistory E (h ++ es) (Some l') (td_world d') /\ ostarts_of es = [] /\ tinv (h ++ es) l' g' p' d').
  { intros l' NR Q. unfold in_tsys in Q. destruct (sys_step (td_sys d) l') as [s'|] eqn:E1; [|discriminate Q]. cbn [obind] in Q.
    injection Q as <-. apply (SAME _ g p); [reflexivity|]. apply (tinv_sys _ _ _ _ _ l'); auto. destruct l'; auto. destruct NR. }
  pose proof (ti_locks _ _ _ _ _ K) as LK. unfold holders in LK.
  pose proof (forall2_len _ _ _ (ti_waits _ _ _ _ _ K)) as LE.
  assert (OLD : forall ch n m, In n (numbers_of (filter (sent_on ch) g)) ->
    In (ch, m) (combine (map th_ch (td_waits d)) (map wt_no l)) -> (n < m)%nat).
  { intros ch n m A B. apply (ti_later _ _ _ _ _ K ch n m A). now right. }
  assert (NEWER : forall ch n, In n (numbers_of (filter (sent_on ch) g)) -> (n < length h)%nat).
  { intros ch n A. apply (ti_bound _ _ _ _ _ K). left. rewrite numbers_of_app. apply in_app_iff. left.
    eapply numbers_filter; exact A. }
  destruct lab as [| |i|i|i|k|k|k|choice|i|s]; cbn [tdev_step] in S.
  - now apply (SY SRead).
  - now apply (SY SWrite).
  - now apply (SY (SRun i)).
  - now apply (SY (STimeout i)).
  - (* a message *)
    destruct (existsb (Nat.eqb i) (td_taken d)) eqn:T; [discriminate S|].
    destruct (nth_error (sy_delegate (td_sys d)) i) as [q|] eqn:Nt; [|discriminate S]. cbn [obind] in S.
    destruct (blocked d q) eqn:BL; [discriminate S|].
    destruct (taken_more _ _ _ _ _ _ _ K T Nt) as [TK1 TK2].
    pose proof (hid_front_ok (sy_delegate (td_sys d)) (td_srv d) q (wi_wfb _ (ti_wire _ _ _ _ _ K)) (nth_error_In _ _ Nt)
      (ti_waiting _ _ _ _ _ K)) as FO.
    assert (FREE : forall ch rest, read_le 4 q = Ok (ch, rest) -> ~ In ch (holders d)).
    { intros ch rest Q. unfold blocked in BL. rewrite Q in BL. now apply locked_holders. }
    unfold holders in FREE.
    destruct (hid_front (td_srv d) q) as [s|lock s ps|ch s ctap reply m'|]; [| | |discriminate S].
    + injection S as <-. apply (SAME _ g p); [reflexivity|].
      destruct K. constructor; cbn [td_sys td_srv td_waits td_taken td_tickers td_out td_turn]; try assumption.
      cbn [length]. lia.
    + injection S as <-. destruct FO as (Ws & (t & A1 & A2 & ->) & FL).
      apply (SAME _ g (p ++ [t])); [reflexivity|].
      rewrite <- (app_nil_r h). apply (tinv_ext h l g p d []); auto; try (now apply K).
      * cbn. lia.
      * constructor; [|constructor]. split; [reflexivity|]. rewrite A1. intros n [].
      * unfold numbers_of. cbn. rewrite A1. reflexivity.
      * intros c n m A [B|B]; [|eauto]. apply numbers_filter in B. unfold numbers_of in B. cbn in B. rewrite A1 in B. destruct B.
      * rewrite app_nil_r. intros n [A|A]; [unfold numbers_of in A; cbn in A; rewrite A1 in A; destruct A|].
        apply (ti_bound _ _ _ _ _ K). now right.
      * rewrite locks_app. cbn [locks_of flat_map gr_lock app]. destruct lock as [c|]; cbn [opt_list app].
        -- destruct (FL c eq_refl) as [rest Q]. apply nodup_more; [exact LK|]. exact (FREE c rest Q).
        -- now rewrite app_nil_r.
    + destruct FO as (Ws & -> & Wq & Hch & RQ & rest & Q). pose proof (FREE ch rest Q) as FR. clear FREE.
      set (inp := input_of ctap m') in *.
      assert (HA : asks inp m') by apply asks_input.
      pose proof (asks_good _ _ HA Wq) as GI. pose proof (asks_host _ _ HA) as FH.
      assert (TKS : Forall (fun ch => ch < 4294967296 /\ exists m, requested (sy_delegate (td_sys d)) ch 0x90 m)
                      (if ctap then td_tickers d ++ [ch] else td_tickers d)).
      { destruct ctap; [|apply K]. apply Forall_app. split; [apply K|]. constructor; [|constructor]. split; [exact Hch|]. exists m'. exact RQ. }
      assert (CF : forall n, ocame_from (sy_delegate (td_sys d)) (OBegin n inp)) by (intros n _; eauto).
      destruct (begin E inp (td_world d)) as [w [[o|pp]|]] eqn:B; [| |discriminate S]; injection S as <-; cbn [td_world].
      * pose proof (begin_bytes _ _ _ _ _ _ B) as OB. set (r := bytes_of o) in *.
        exists [OBegin (length h) inp; ODone (length h) inp o], (refreshed w l), g, (p ++ [Answer (length h) ch inp r]).
        split; [now apply (O_quick E h l (td_world d))|]. split; [reflexivity|].
        apply (tinv_ext h l); auto; try (now apply K).
        -- cbn [filter begins_request]. rewrite FH. cbn. lia.
        -- now apply refresh_waits, K.
        -- constructor; [|constructor]. split; [|intros n [<-|[]]; reflexivity]. cbn [gr_packets out_packets].
           rewrite (asks_command _ _ HA). apply create_response_packets_spec. destruct HA as [->| ->]; vm_compute; reflexivity.
        -- constructor; [|constructor]. split; [exact Hch|]. split; [|eauto]. apply in_app_iff. right. right. left. now rewrite <- OB.
        -- cbn. rewrite FH. reflexivity.
        -- intros c n m A [D|D].
           ++ apply numbers_filter in D. destruct D as [<-|[]]. eauto.
           ++ rewrite refresh_chs, refresh_nos in D. eauto.
        -- intros n A. rewrite app_length, refresh_nos in *. cbn [length]. destruct A as [[<-|[]]|A]; [lia|].
           pose proof (ti_bound _ _ _ _ _ K n (or_intror A)). lia.
        -- rewrite refresh_chs, locks_app. cbn [locks_of flat_map gr_lock app opt_list]. now apply nodup_more.
      * exists [OBegin (length h) inp], (refreshed w l ++ [mk_waiting (length h) inp pp]), g, p.
        split; [now apply (O_wait E h l (td_world d))|]. split; [reflexivity|].
        rewrite <- (app_nil_r p), <- (app_nil_r (td_out d)). apply (tinv_ext h l); auto; try (now apply K).
        -- cbn [filter begins_request]. rewrite FH. cbn. lia.
        -- apply Forall2_app; [now apply refresh_waits, K|]. constructor; [|constructor].
           unfold wait_ok. cbn. eauto 7.
        -- intros c n m A [[]|D]. rewrite !map_app, refresh_chs, refresh_nos in D. cbn [map th_ch wt_no] in D.
           rewrite combine_app in D by (rewrite !map_length; exact LE). apply in_app_iff in D as [D|[D|[]]]; [eauto|].
           injection D as <- <-. eauto.
        -- intros n [[]|A]. rewrite map_app, refresh_nos in A. rewrite app_length. cbn [length].
           apply in_app_iff in A as [A|[<-|[]]]; cbn [wt_no]; [|lia]. pose proof (ti_bound _ _ _ _ _ K n (or_intror A)). lia.
        -- rewrite map_app, refresh_chs, app_nil_r. cbn [map th_ch]. now apply nodup_first.
  - (* the user answers *)
    destruct (nth_error (td_waits d) k) as [x|] eqn:Nt; [|discriminate S]. cbn [obind] in S.
    destruct (resume E (th_state x) (td_world d)) as [w [r|]] eqn:R; [|discriminate S]. injection S as <-. cbn [td_world].
    destruct (remove_nth_split _ _ _ Nt) as (w1 & w2 & Wt & Rm & _).
    pose proof (ti_waits _ _ _ _ _ K) as FW. rewrite Wt in FW. apply forall2_at in FW as (l1 & y & l2 & Ll & (Y1 & Y2 & Y3 & YB & m & Y4 & Y5) & F1 & F2).
    pose proof (forall2_len _ _ _ F1) as LE1.
    assert (COMB : combine (map th_ch (td_waits d)) (map wt_no l) =
      combine (map th_ch w1) (map wt_no l1) ++ (th_ch x, wt_no y) :: combine (map th_ch w2) (map wt_no l2)).
    { rewrite Wt, Ll, !map_app. rewrite combine_app by (now rewrite !map_length). reflexivity. }
    exists [ODone (wt_no y) (wt_input y) (OBytes r)], (refreshed w (l1 ++ l2)), g, (p ++ [Answer (wt_no y) (th_ch x) (th_input x) r]).
    split; [rewrite Ll in H; apply (O_resume E h l1 y l2 (td_world d)); [exact H|now rewrite Y2]|]. split; [reflexivity|].
    rewrite Rm. apply (tinv_ext h l); auto; try (now apply K).
    + apply refresh_waits. now apply Forall2_app.
    + constructor; [|constructor]. split; [|intros n [<-|[]]; reflexivity]. cbn [gr_packets out_packets].
      rewrite Y3, (asks_command _ _ Y4). apply create_response_packets_spec. destruct Y4 as [->| ->]; vm_compute; reflexivity.
    + constructor; [|constructor]. split; [exact YB|]. split; [|eauto]. apply in_app_iff. right. left. now rewrite Y1.
    + cbn. rewrite Y1, (asks_host _ _ Y4). reflexivity.
    + intros c n m0 A [D|D].
      * cbn [filter] in D. unfold sent_on in D. cbn [out_channel] in D. destruct (th_ch x =? c) eqn:C; [|destruct D].
        apply N.eqb_eq in C. subst c. destruct D as [<-|[]]. apply (OLD (th_ch x) n _ A). rewrite COMB. apply in_elt.
      * rewrite refresh_chs, refresh_nos, !map_app, combine_app in D by (now rewrite !map_length).
        apply (OLD c n _ A). rewrite COMB. apply in_app_iff in D as [D|D]; apply in_app_iff; [now left|right; now right].
    + intros n A. rewrite app_length, refresh_nos in *. cbn [length].
      assert (In n (map wt_no l)) as A'.
      { rewrite Ll, map_app. cbn [map]. destruct A as [[<-|[]]|A]; [apply in_elt|]. rewrite map_app in A.
        apply in_app_iff in A as [A|A]; apply in_app_iff; [now left|right; now right]. }
      pose proof (ti_bound _ _ _ _ _ K n (or_intror A')). lia.
    + rewrite refresh_chs, locks_app, map_app. rewrite Wt, map_app in LK. change (locks_of [_]) with [th_ch x].
      eapply Permutation_NoDup; [|exact LK]. apply move_one.
  - (* a keepalive *)
    destruct (nth_error (td_tickers d) k) as [ch|] eqn:Nt; [|discriminate S]. injection S as <-.
    pose proof (ti_ticks _ _ _ _ _ K) as TK. rewrite Forall_forall in TK. destruct (TK ch (nth_error_In _ _ Nt)) as (Hch & m & RQ).
    apply (SAME _ g (p ++ [Keepalive ch])); [reflexivity|].
    rewrite <- (app_nil_r h). apply (tinv_ext h l g p d []); auto; try (now apply K).
    + constructor; [|constructor]. split; [|intros n []]. cbn [gr_packets out_packets]. unfold keepalive.
      apply create_response_packets_spec. vm_compute; reflexivity.
    + constructor; [|constructor]. split; [exact Hch|]. exists m. exact RQ.
    + intros c n m0 A [B|B]; [|eauto]. apply numbers_filter in B. destruct B.
    + rewrite app_nil_r. intros n [[]|A]. apply (ti_bound _ _ _ _ _ K). now right.
    + rewrite locks_app. cbn [locks_of flat_map gr_lock app opt_list]. now rewrite app_nil_r.
  - (* responsesLock *)
    destruct (td_turn d) eqn:T; [discriminate S|]. destruct (nth_error (td_out d) k) as [gr|] eqn:Nt; [|discriminate S].
    cbn [obind] in S. injection S as <-. destruct (tinv_grab _ _ _ _ _ _ _ K T Nt) as (t & p1 & p2 & _ & K').
    eapply SAME; [reflexivity|exact K'].
  - (* a packet *)
    destruct (td_turn d) as [[lock [|p0 rest]]|] eqn:T; try discriminate S.
    destruct (respond_idle (sy_in (td_sys d))) eqn:RI; [|discriminate S].
    destruct (sys_step (td_sys d) (SRespond choice p0)) as [s'|] eqn:E1; [|discriminate S]. cbn [obind] in S. injection S as <-.
    eapply SAME; [reflexivity|]. eapply tinv_sys; [exact K|exact E1|]. cbn. split; [exact RI|]. eauto.
  - (* the program *)
    destruct (local_input i) eqn:LI; [|discriminate S]. pose proof (begin_local E i (td_world d) LI) as B.
    destruct (handle E i (td_world d)) as [w [o|]]; [|discriminate S]. injection S as <-. cbn [td_world].
    assert (FH : from_host i = false) by (destruct i; try discriminate LI; reflexivity).
    exists [OBegin (length h) i; ODone (length h) i o], (refreshed w l), g, p.
    split; [now apply (O_quick E h l (td_world d))|]. split; [reflexivity|].
    rewrite <- (app_nil_r p), <- (app_nil_r (td_out d)). apply (tinv_ext h l); auto; try (now apply K).
    + cbn [filter begins_request]. rewrite FH. cbn. lia.
    + constructor; [|repeat constructor]. intro Q. rewrite FH in Q. discriminate Q.
    + now apply refresh_waits, K.
    + cbn. rewrite FH. reflexivity.
    + intros c n m A [[]|D]. rewrite refresh_chs, refresh_nos in D. eauto.
    + intros n [[]|A]. rewrite refresh_nos in A. rewrite app_length. pose proof (ti_bound _ _ _ _ _ K n (or_intror A)). lia.
    + now rewrite refresh_chs, app_nil_r.
  - (* another connection *)
    destruct (cn_phase (sy_conn (td_sys d))) eqn:P; try discriminate S. injection S as <-.
    apply (SAME _ g p); [reflexivity|]. now apply tinv_accept.
Qed.
