(* What stays true while the goroutines of the device work. *)
From Verif Require Import Base M_Util M_Usb M_ReqBuf M_Usbip M_Hid M_HidConc M_Crypto M_Cose M_State M_Client M_Ctap M_U2f M_History
  M_Overlap M_Device M_Threads S_ReqBuf S_Usbip S_UsbipSys S_Hid S_Device S_Threads P_ReqBuf P_Usb P_Usbip2 P_Usbip3 P_Hid2 P_Device1 P_Device2
  P_Device3 P_Device4 P_Overlap1 P_Threads1.
From Coq Require Import Lia Sorted Permutation.

(* ---- lists *)
Lemma osince_new h p : osince_start (h ++ [OStart p]) = [].
Proof.
  induction h as [|e h IH]; [reflexivity|]. cbn [app osince_start].
  rewrite existsb_app. cbn [existsb is_ostart]. rewrite orb_true_r. exact IH.
Qed.

Lemma osince_more h es : existsb is_ostart h = true -> existsb is_ostart es = false ->
  osince_start (h ++ es) = osince_start h ++ es.
Proof.
  intros H He. induction h as [|x h IH]; [discriminate H|]. cbn [app osince_start existsb] in *.
  rewrite existsb_app, He, orb_false_r.
  destruct (existsb is_ostart h) eqn:X; [now apply IH|].
  rewrite orb_false_r in H. rewrite H. reflexivity.
Qed.

Lemma ostarts_app a b : ostarts_of (a ++ b) = ostarts_of a ++ ostarts_of b.
Proof. apply flat_map_app. Qed.
Lemma numbers_of_app a b : numbers_of (a ++ b) = numbers_of a ++ numbers_of b.
Proof. apply flat_map_app. Qed.
Lemma answered_app a b : answered_requests (a ++ b) = answered_requests a ++ answered_requests b.
Proof. apply flat_map_app. Qed.

Lemma remove_nth_split {A} (l : list A) k x : nth_error l k = Some x ->
  exists l1 l2, l = l1 ++ x :: l2 /\ remove_nth k l = l1 ++ l2 /\ length l1 = k.
Proof.
  revert k. induction l as [|y l IH]; intros [|k] H; try discriminate H; cbn in *.
  - injection H as ->. exists [], l. auto.
  - destruct (IH k H) as (l1 & l2 & -> & R & L). exists (y :: l1), l2. cbn. rewrite R, L. auto.
Qed.

Lemma forall2_at {A B} (R : A -> B -> Prop) l1 x l2 m : Forall2 R (l1 ++ x :: l2) m ->
  exists m1 y m2, m = m1 ++ y :: m2 /\ R x y /\ Forall2 R l1 m1 /\ Forall2 R l2 m2.
Proof.
  intro H. apply Forall2_app_inv_l in H as (m1 & m' & H1 & H2 & ->). inversion H2; subst. eauto 8.
Qed.

Lemma forall2_imp {A B} (R S : A -> B -> Prop) l m : (forall a b, R a b -> S a b) -> Forall2 R l m -> Forall2 S l m.
Proof. intros I. induction 1; constructor; auto. Qed.

Lemma sorted_snoc l n : StronglySorted lt l -> (forall m, In m l -> (m < n)%nat) -> StronglySorted lt (l ++ [n]).
Proof.
  induction 1 as [|a l S IH F]; intro B; cbn [app]; [repeat constructor|].
  constructor; [apply IH; intros; apply B; now right|]. apply Forall_app. split; [exact F|].
  constructor; [apply B; now left|constructor].
Qed.

(* ---- reasons *)
Lemma reason_mono w w' h h' t : incl w w' -> incl h h' -> reason w h t -> reason w' h' t.
Proof.
  intros I J [RB R]. split; [exact RB|]. clear RB. destruct t; cbn in *.
  - destruct R as (m & Q). exists m. eapply requested_mono; eauto.
  - destruct R as (f & Q & T). eauto.
  - destruct R as (L & m & Q). split; [exact L|]. exists m. eapply requested_mono; eauto.
  - eapply requested_mono; eauto.
  - destruct R as (Q & m & Q1 & Q2). split; [auto|]. exists m. split; [exact Q1|]. eapply requested_mono; eauto.
Qed.

Lemma reason_written w h t : reason w h t -> w <> [].
Proof.
  intros [_ R] ->. destruct t; cbn in R.
  - destruct R as (m & f & l & [] & _).
  - destruct R as (f & [] & _).
  - destruct R as (_ & m & f & l & [] & _).
  - destruct R as (f & l & [] & _).
  - destruct R as (_ & m & _ & f & l & [] & _).
Qed.

Lemma ocame_mono w w' e : incl w w' -> ocame_from w e -> ocame_from w' e.
Proof.
  intros I. destruct e; cbn; auto. intros H F. destruct (H F) as (m & ch & A & Q). eauto using requested_mono.
Qed.

Definition wait_ok (w : list bytes) (x : thread) (y : M_Overlap.waiting) : Prop :=
  wt_input y = th_input x /\ wt_state y = th_state x /\ th_reply x = th_ch x /\ th_ch x < 4294967296 /\
  exists m, asks (th_input x) m /\ requested w (th_ch x) (asks_by (th_input x)) m.

Definition fits (g : group) (t : message_out) : Prop :=
  gr_packets g = out_packets t /\ (forall n, In n (answer_number t) -> gr_lock g = Some (out_channel t)).

Definition turn_left (d : tdev) : list bytes := match td_turn d with Some g => gr_packets g | None => [] end.
Definition locks_of (l : list group) : list N := flat_map (fun g => opt_list (gr_lock g)) l.
Definition holders (d : tdev) : list N :=
  map th_ch (td_waits d) ++ locks_of (td_out d) ++ match td_turn d with Some g => opt_list (gr_lock g) | None => [] end.

Lemma locked_holders d ch : locked d ch = false -> ~ In ch (holders d).
Proof.
  unfold locked, holders. intros H I. apply orb_false_iff in H as [H H3]. apply orb_false_iff in H as [H1 H2].
  assert (G : forall g, In ch (opt_list (gr_lock g)) -> has_lock ch g = true).
  { intros g Q. unfold has_lock. destruct (gr_lock g); [|destruct Q]. destruct Q as [<-|[]]. apply N.eqb_refl. }
  apply in_app_iff in I as [I|I]; [|apply in_app_iff in I as [I|I]].
  - apply in_map_iff in I as (x & <- & I). assert (existsb (fun y => th_ch y =? th_ch x) (td_waits d) = true) as Q; [|congruence].
    apply existsb_exists. exists x. split; [exact I|apply N.eqb_refl].
  - unfold locks_of in I. apply in_flat_map in I as (g & I & Q). assert (existsb (has_lock ch) (td_out d) = true) as Q'; [|congruence].
    apply existsb_exists. exists g. auto.
  - destruct (td_turn d) as [g|]; [|destruct I]. rewrite (G g I) in H3. discriminate H3.
Qed.

Lemma holders_locked d ch : In ch (holders d) -> locked d ch = true.
Proof.
  unfold locked, holders. intro I.
  assert (G : forall g, In ch (opt_list (gr_lock g)) -> has_lock ch g = true).
  { intros g Q. unfold has_lock. destruct (gr_lock g); [|destruct Q]. destruct Q as [<-|[]]. apply N.eqb_refl. }
  apply in_app_iff in I as [I|I]; [|apply in_app_iff in I as [I|I]].
  - apply in_map_iff in I as (x & <- & I). rewrite !orb_true_iff. left. left. apply existsb_exists. exists x. split; [exact I|apply N.eqb_refl].
  - unfold locks_of in I. apply in_flat_map in I as (g & I & Q). rewrite !orb_true_iff. left. right. apply existsb_exists. eauto.
  - destruct (td_turn d) as [g|]; [|destruct I]. rewrite (G g I). apply orb_true_r.
Qed.

Record tinv (h : list oentry) (l : list M_Overlap.waiting) (g p : list message_out) (d : tdev) : Prop := mk_tinv {
  ti_started : existsb is_ostart h = true;
  ti_wire : wire_inv (td_sys d);
  ti_untouched : untouched (td_sys d);
  ti_waiting : P_Device1.waiting (sy_delegate (td_sys d)) (td_srv d);
  ti_nodup : NoDup (td_taken d);
  ti_taken : forall i, In i (td_taken d) -> (i < length (sy_delegate (td_sys d)))%nat;
  ti_count : (length (filter begins_request (osince_start h)) <= length (td_taken d))%nat;
  ti_from : Forall (ocame_from (sy_delegate (td_sys d))) (osince_start h);
  ti_waits : Forall2 (wait_ok (sy_delegate (td_sys d))) (td_waits d) l;
  ti_ticks : Forall (fun ch => ch < 4294967296 /\ exists m, requested (sy_delegate (td_sys d)) ch 0x90 m) (td_tickers d);
  ti_out : Forall2 fits (td_out d) p;
  ti_reason : Forall (reason (sy_delegate (td_sys d)) (osince_start h)) (g ++ p);
  ti_sent : concat (map out_packets g) = produced (in_trace (sy_in (td_sys d))) ++ turn_left d;
  ti_perm : Permutation (numbers_of (g ++ p)) (answered_requests (osince_start h));
  ti_sorted : forall ch, StronglySorted lt (numbers_of (filter (sent_on ch) g));
  ti_later : forall ch n m, In n (numbers_of (filter (sent_on ch) g)) ->
    In m (numbers_of (filter (sent_on ch) p)) \/ In (ch, m) (combine (map th_ch (td_waits d)) (map wt_no l)) -> (n < m)%nat;
  ti_bound : forall n, In n (numbers_of (g ++ p)) \/ In n (map wt_no l) -> (n < length h)%nat;
  ti_locks : NoDup (holders d);
  ti_full : match td_turn d with Some gr => gr_packets gr <> [] | None => True end;
  ti_reads : exists s sl, Forall wfb s /\ sys_run (sys_init s) sl = Some (td_sys d);
  ti_fifo : fifo_inv (sy_in (td_sys d)) }.

Lemma tinv_init h p s w : Forall wfb s -> tinv (h ++ [OStart p]) [] [] [] (tdev_init s w).
Proof.
  intro W. constructor; rewrite ?osince_new; cbn [tdev_init td_sys td_srv td_taken td_waits td_tickers td_out td_turn
    sys_init sy_delegate turn_left numbers_of flat_map app filter combine map locks_of]; try (now constructor); try easy.
  - rewrite existsb_app. cbn. apply orb_true_r.
  - now apply wire_init.
  - exact waiting_new.
  - intros n [[]|[]].
  - exists s, []. auto.
  - exact fifo_start.
Qed.

(* ---- steps of the connection *)
Lemma sys_run_snoc ls l : forall s s1 s2, sys_run s ls = Some s1 -> sys_step s1 l = Some s2 -> sys_run s (ls ++ [l]) = Some s2.
Proof.
  induction ls as [|x ls IH]; intros s s1 s2 R S; cbn [sys_run app] in *.
  - injection R as <-. rewrite S. reflexivity.
  - destruct (sys_step s x) as [s0|]; [|discriminate R]. cbn [obind] in *. eauto.
Qed.

Lemma produced_respond s c dt s' : sys_step s (SRespond c dt) = Some s' ->
  produced (in_trace (sy_in s')) = produced (in_trace (sy_in s)) ++ [dt].
Proof.
  cbn [sys_step in_step]. destruct (rb_respond _ _ _) as [[bf cb]|]; [|discriminate]. cbn [obind]. intros [= <-].
  cbn [sy_in in_trace]. unfold produced. rewrite flat_map_app. reflexivity.
Qed.

Lemma wait_mono w w' x y : incl w w' -> wait_ok w x y -> wait_ok w' x y.
Proof. intros I (A & B & C & CB & m & D & R). unfold wait_ok. eauto 9 using requested_mono. Qed.

Lemma tinv_sys h l g p d lab s' turn : tinv h l g p d -> sys_step (td_sys d) lab = Some s' ->
  match lab with
  | SRespond _ dt => respond_idle (sy_in (td_sys d)) = true /\ exists lock rest, td_turn d = Some (mk_group lock (dt :: rest)) /\
      turn = match rest with [] => None | _ => Some (mk_group lock rest) end
  | _ => turn = td_turn d
  end ->
  tinv h l g p (mk_tdev s' (td_taken d) (td_srv d) (td_world d) (td_waits d) (td_out d) turn (td_tickers d)).
Proof.
  intros K E T. pose proof (ti_wire _ _ _ _ _ K) as I.
  pose proof (wire_step _ _ _ I E) as I'. destruct (delegate_grows _ _ _ I E) as [x X].
  assert (INC : incl (sy_delegate (td_sys d)) (sy_delegate s')) by (rewrite X; apply incl_app_l).
  destruct (ti_reads _ _ _ _ _ K) as (s0 & sl & W0 & R0).
  constructor; cbn [td_sys td_srv td_taken td_waits td_tickers td_out td_turn]; try (now apply K).
  - exact I'.
  - eapply untouched_step; [exact I|apply K|exact E|]. destruct lab; try exact Logic.I.
    destruct T as (_ & lock & rest & T & _). intro Z.
    pose proof (ti_sent _ _ _ _ _ K) as SE. unfold turn_left in SE. rewrite T in SE. cbn [gr_packets] in SE.
    destruct g as [|t g]; [destruct (produced _); discriminate SE|].
    pose proof (Forall_inv (ti_reason _ _ _ _ _ K)) as RE. apply reason_written in RE. apply RE.
    rewrite (wi_delegate _ I). unfold written_of. now rewrite Z.
  - eapply waiting_mono; [exact INC|apply K].
  - intros i Hi. rewrite X, app_length. apply (ti_taken _ _ _ _ _ K) in Hi. lia.
  - eapply Forall_impl; [|apply K]. intros e. apply ocame_mono, INC.
  - eapply forall2_imp; [|apply K]. intros a b. apply wait_mono, INC.
  - eapply Forall_impl; [|apply K]. cbn. intros ch (B & m & Q). eauto using requested_mono.
  - eapply Forall_impl; [|apply K]. intros t. apply reason_mono; [exact INC|apply incl_refl].
  - rewrite (ti_sent _ _ _ _ _ K). unfold turn_left. cbn [td_turn].
    assert (PS : not_respond lab -> produced (in_trace (sy_in s')) = produced (in_trace (sy_in (td_sys d)))).
    { intro NR. exact (produced_same _ _ _ NR E). }
    destruct lab; try (subst turn; rewrite PS by exact Logic.I; reflexivity).
    destruct T as (_ & lock & rest & T & ->). rewrite T, (produced_respond _ _ _ _ E), <- app_assoc. cbn [gr_packets app].
    destruct rest; reflexivity.
  - pose proof (ti_locks _ _ _ _ _ K) as L. unfold holders in *. cbn [td_waits td_out td_turn].
    destruct lab; try (subst turn; exact L). destruct T as (_ & lock & rest & T & ->). rewrite T in L. cbn [gr_lock] in L.
    destruct rest; [|exact L]. rewrite app_assoc in L. rewrite app_nil_r. now apply nodup_app_l in L.
  - pose proof (ti_full _ _ _ _ _ K) as L. destruct lab; try (subst turn; exact L).
    destruct T as (_ & lock & rest & T & ->). destruct rest; [exact Logic.I|discriminate].
  - exists s0, (sl ++ [lab]). split; [exact W0|]. eapply sys_run_snoc; eauto.
  - eapply fifo_sys; [apply K|exact E|]. destruct lab; auto. apply T.
Qed.
