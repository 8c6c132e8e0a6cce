(* Why no goroutine of the device gets stuck, what a waiting request holds up and what the user approved. *)
From Verif Require Import Base M_Util M_Usb M_ReqBuf M_Usbip M_Hid M_HidConc M_Crypto M_Cose M_State M_Client M_Ctap M_U2f M_History
  M_Overlap M_Device M_Threads S_ReqBuf S_Usbip S_UsbipSys S_Hid S_Client S_Device S_History S_Overlap S_Threads P_ReqBuf P_Usb P_Usbip2 P_Usbip3
  P_Hid1 P_Hid2 P_Device1 P_Device2 P_Device3 P_Device4 P_Device5 P_Overlap1 P_Overlap7 P_Threads1 P_Threads2 P_Threads3 P_Threads4.
From Coq Require Import Lia Sorted Permutation.

(* ---- nothing is stuck *)
Definition full_turn (d : tdev) : Prop := match td_turn d with Some g => gr_packets g <> [] | None => True end.
Definition tfree (d : tdev) : Prop := known (td_sys d) /\ fifo_inv (sy_in (td_sys d)) /\ full_turn d.

Lemma tdev_run_app E a : forall d b d1, tdev_run E d a = Some (TRunning d1) -> tdev_run E d (a ++ b) = tdev_run E d1 b.
Proof.
  induction a as [|l a IH]; intros d b d1 R; cbn [tdev_run app] in *; [now injection R as ->|].
  destruct (tdev_step E d l) as [[d2|w]|]; cbn [obind] in *; [eauto|destruct a; discriminate R|discriminate R].
Qed.

Lemma tfree_step E d l d' : tfree d -> tdev_step E d l = Some (TRunning d') -> tfree d'.
Proof.
  intros (K & F & T) S.
  assert (SS : forall l', not_respond l' -> in_tsys d l' = Some (TRunning d') -> tfree d').
  { intros l' NR H. unfold in_tsys in H. destruct (sys_step (td_sys d) l') as [s'|] eqn:E1; [|discriminate H].
    cbn [obind] in H. injection H as <-. split; [cbn [td_sys]; eapply known_step; eauto|]. split; [|exact T]. cbn [td_sys].
    eapply fifo_sys; [exact F|exact E1|]. now destruct l'. }
  destruct l as [| |i|i|i|k|k|k|choice|i|s]; cbn [tdev_step] in S.
  - now apply (SS SRead).
  - now apply (SS SWrite).
  - now apply (SS (SRun i)).
  - now apply (SS (STimeout i)).
  - destruct (existsb _ _); [discriminate S|]. destruct (nth_error _ _); [|discriminate S]. cbn [obind] in S.
    destruct (blocked d _); [discriminate S|].
    destruct (hid_front (td_srv d) _) as [s|lock s ps|ch s ctap reply m'|]; try discriminate S; try (injection S as <-; exact (conj K (conj F T))).
    destruct (begin E _ _) as [w [[o|pp]|]]; try discriminate S; injection S as <-; exact (conj K (conj F T)).
  - destruct (nth_error (td_waits d) k) as [x|]; [|discriminate S]. cbn [obind] in S.
    destruct (resume E (th_state x) (td_world d)) as [w [r|]]; [|discriminate S]. injection S as <-. exact (conj K (conj F T)).
  - destruct (nth_error (td_tickers d) k); [|discriminate S]. injection S as <-. exact (conj K (conj F T)).
  - destruct (td_turn d); [discriminate S|]. destruct (nth_error (td_out d) k) as [g|]; [|discriminate S].
    injection S as <-. split; [exact K|]. split; [exact F|]. unfold full_turn. cbn [td_turn].
    destruct (gr_packets g) eqn:G; [exact Logic.I|]. rewrite G. discriminate.
  - destruct (td_turn d) as [[lock [|p0 rest]]|]; try discriminate S. destruct (respond_idle _) eqn:RI; [|discriminate S].
    destruct (sys_step _ _) as [s'|] eqn:E1; [|discriminate S]. injection S as <-. split; [cbn [td_sys]; eapply known_step; eauto|].
    split; [cbn [td_sys]; eapply fifo_sys; [exact F|exact E1|exact RI]|]. unfold full_turn. cbn [td_turn].
    destruct rest; [exact Logic.I|discriminate].
  - destruct (local_input i); [|discriminate S]. destruct (handle E i (td_world d)) as [w [o|]]; [|discriminate S].
    injection S as <-. exact (conj K (conj F T)).
  - destruct (cn_phase _); try discriminate S. injection S as <-. exact (conj K (conj F T)).
Qed.

Lemma tfree_life E ps s : tlife E ps s -> match s with TUp d => tfree d | TDown _ => True end.
Proof.
  induction 1; auto; [|eapply tfree_step; eauto]. split; [unfold known; cbn; auto|]. split; [exact fifo_start|exact Logic.I].
Qed.

Lemma tsame_trans a b c : tsame a b -> tsame b c -> tsame a c.
Proof. unfold tsame. intros (?&?&?&?&?&?&?) (?&?&?&?&?&?&?). repeat (split; [congruence|]). congruence. Qed.

Lemma tdelivers_keeps E d l d' : tdelivers l -> tdev_step E d l = Some (TRunning d') -> tsame d d'.
Proof.
  intros D S. unfold tsame. destruct l as [| |i|i|i|k|k|k|choice|i|s]; try destruct D; cbn [tdev_step] in S.
  - unfold in_tsys in S. cbn [sys_step] in S. destruct (sy_pending _); [|discriminate]. injection S as <-. cbn. auto 9.
  - unfold in_tsys in S. cbn [sys_step in_step] in S. destruct (nth_error (in_flight _) i); [|discriminate].
    cbn [obind] in S. destruct (nth_error (sy_subs _) _) as [[h b]|]; [|discriminate]. injection S as <-. cbn. auto 9.
  - destruct (td_turn d); [discriminate S|]. destruct (nth_error (td_out d) k); [|discriminate S]. injection S as <-. cbn. auto 9.
  - destruct (td_turn d) as [[lock [|p rest]]|]; try discriminate S. destruct (respond_idle _); [|discriminate S].
    cbn [sys_step in_step] in S. destruct (rb_respond _ _ _) as [[bf cb]|]; [|discriminate S]. injection S as <-. cbn. auto 9.
Qed.

Lemma trun_flights E : forall k d, tfree d -> length (in_flight (sy_in (td_sys d))) = k ->
  exists ls d', tdev_run E d ls = Some (TRunning d') /\ Forall tdelivers ls /\ tfree d' /\ tsame d d' /\
    in_flight (sy_in (td_sys d')) = [] /\ td_out d' = td_out d /\ td_turn d' = td_turn d /\ sy_pending (td_sys d') = sy_pending (td_sys d).
Proof.
  induction k as [|k IH]; intros d F L.
  - exists [], d. cbn. unfold tsame. destruct (in_flight (sy_in (td_sys d))); [auto 20|discriminate].
  - destruct (in_flight (sy_in (td_sys d))) as [|f fs] eqn:Fl; [discriminate|].
    pose proof F as ((K1 & K2 & _) & _). rewrite Fl in K2. apply Forall_inv in K2.
    destruct (nth_error (sy_subs (td_sys d)) (fl_key f)) as [[h b]|] eqn:Nt.
    2:{ apply nth_error_None in Nt. lia. }
    assert (S : exists s', sys_step (td_sys d) (SRun 0) = Some s' /\ in_flight (sy_in s') = fs /\
                sy_pending s' = sy_pending (td_sys d)).
    { cbn [sys_step in_step]. rewrite Fl. cbn [nth_error obind]. rewrite Nt. cbn [obind].
      eexists. split; [reflexivity|]. cbn. auto. }
    destruct S as (s' & S & S1 & S2).
    set (d1 := mk_tdev s' (td_taken d) (td_srv d) (td_world d) (td_waits d) (td_out d) (td_turn d) (td_tickers d)).
    assert (S3 : tdev_step E d (TRun 0) = Some (TRunning d1)).
    { cbn [tdev_step]. unfold in_tsys. rewrite S. reflexivity. }
    destruct (IH d1) as (ls & d' & R & Fd & FR & SA & A & B & C & P).
    + eapply tfree_step; [exact F|exact S3].
    + cbn [d1 td_sys]. rewrite S1. now injection L.
    + exists (TRun 0 :: ls), d'. cbn [tdev_run]. rewrite S3. cbn [obind]. split; [exact R|].
      split; [constructor; [exact Logic.I|exact Fd]|]. split; [exact FR|].
      split; [eapply tsame_trans; [eapply tdelivers_keeps; [|exact S3]; exact Logic.I|exact SA]|].
      split; [exact A|]. split; [exact B|]. split; [exact C|]. now rewrite P.
Qed.

Definition turn_count (d : tdev) : nat := length (turn_left d).

Lemma trun_turn E : forall k d, tfree d -> turn_count d = k ->
  exists ls d', tdev_run E d ls = Some (TRunning d') /\ Forall tdelivers ls /\ tfree d' /\ tsame d d' /\
    in_flight (sy_in (td_sys d')) = [] /\ td_out d' = td_out d /\ td_turn d' = None /\ sy_pending (td_sys d') = sy_pending (td_sys d).
Proof.
  induction k as [|k IH]; intros d F L; destruct (trun_flights E _ d F eq_refl) as (l0 & d0 & R0 & D0 & F0 & S0 & A0 & B0 & C0 & P0).
  - exists l0, d0. rewrite C0. destruct F as (_ & _ & F). unfold full_turn, turn_count, turn_left in *.
    destruct (td_turn d) as [g|]; [destruct (gr_packets g); [contradiction|discriminate L]|auto 9].
  - unfold turn_count, turn_left in L. destruct (td_turn d) as [[lock [|p rest]]|] eqn:T; try discriminate L.
    assert (S : exists s', sys_step (td_sys d0) (SRespond 0 p) = Some s' /\ sy_pending s' = sy_pending (td_sys d0)).
    { cbn [sys_step in_step]. unfold rb_respond. destruct (rb_waiting (in_buf (sy_in (td_sys d0)))) as [|[i k'] wt];
        cbn [nth_error obind]; eexists; split; reflexivity. }
    destruct S as (s' & S & S2).
    set (d1 := mk_tdev s' (td_taken d0) (td_srv d0) (td_world d0) (td_waits d0) (td_out d0)
                 (match rest with [] => None | _ => Some (mk_group lock rest) end) (td_tickers d0)).
    assert (S3 : tdev_step E d0 (TPut 0) = Some (TRunning d1)).
    { cbn [tdev_step]. rewrite C0. unfold respond_idle. rewrite A0. cbn [forallb]. rewrite S. reflexivity. }
    destruct (IH d1) as (ls & d' & R & Fd & FR & SA & A & B & C & P).
    + eapply tfree_step; [exact F0|exact S3].
    + cbn [gr_packets length] in L. unfold turn_count, turn_left. cbn [d1 td_turn]. destruct rest; cbn [gr_packets length] in *; lia.
    + exists (l0 ++ TPut 0 :: ls), d'. rewrite (tdev_run_app _ _ _ _ _ R0). cbn [tdev_run]. rewrite S3. cbn [obind].
      split; [exact R|]. split; [apply Forall_app; split; [exact D0|constructor; [exact Logic.I|exact Fd]]|].
      split; [exact FR|]. split; [eapply tsame_trans; [exact S0|]; eapply tsame_trans; [eapply tdelivers_keeps; [|exact S3]; exact Logic.I|exact SA]|].
      split; [exact A|]. split; [rewrite B; exact B0|]. split; [exact C|]. rewrite P. cbn [d1 td_sys]. congruence.
Qed.

Lemma trun_out E : forall k d, tfree d -> length (td_out d) = k ->
  exists ls d', tdev_run E d ls = Some (TRunning d') /\ Forall tdelivers ls /\ tfree d' /\ tsame d d' /\
    in_flight (sy_in (td_sys d')) = [] /\ td_out d' = [] /\ td_turn d' = None /\ sy_pending (td_sys d') = sy_pending (td_sys d).
Proof.
  induction k as [|k IH]; intros d F L; destruct (trun_turn E _ d F eq_refl) as (l0 & d0 & R0 & D0 & F0 & S0 & A0 & B0 & C0 & P0).
  - exists l0, d0. rewrite B0. destruct (td_out d); [auto 9|discriminate L].
  - destruct (td_out d) as [|g o] eqn:O; [discriminate L|].
    set (d1 := mk_tdev (td_sys d0) (td_taken d0) (td_srv d0) (td_world d0) (td_waits d0) o
                 (match gr_packets g with [] => None | _ => Some g end) (td_tickers d0)).
    assert (S3 : tdev_step E d0 (TGrab 0) = Some (TRunning d1)).
    { cbn [tdev_step]. rewrite C0, B0. cbn [nth_error obind remove_nth]. reflexivity. }
    destruct (IH d1) as (ls & d' & R & Fd & FR & SA & A & B & C & P).
    + eapply tfree_step; [exact F0|exact S3].
    + cbn [d1 td_out]. now injection L.
    + exists (l0 ++ TGrab 0 :: ls), d'. rewrite (tdev_run_app _ _ _ _ _ R0). cbn [tdev_run]. rewrite S3. cbn [obind].
      split; [exact R|]. split; [apply Forall_app; split; [exact D0|constructor; [exact Logic.I|exact Fd]]|].
      split; [exact FR|]. split; [eapply tsame_trans; [exact S0|]; eapply tsame_trans; [eapply tdelivers_keeps; [|exact S3]; exact Logic.I|exact SA]|].
      split; [exact A|]. split; [exact B|]. split; [exact C|]. rewrite P. exact P0.
Qed.

Lemma tlife_run E ps ls : forall d d', tlife E ps (TUp d) -> Forall tlabel_ok ls ->
  tdev_run E d ls = Some (TRunning d') -> tlife E ps (TUp d').
Proof.
  induction ls as [|l ls IH]; intros d d' Lf D R; cbn [tdev_run] in R; [now injection R as <-|].
  destruct (tdev_step E d l) as [[d1|w]|] eqn:S; cbn [obind] in R; [|destruct ls; discriminate R|discriminate R].
  apply (IH d1); [|exact (Forall_inv_tail D)|exact R]. eapply T_step; eauto. exact (Forall_inv D).
Qed.

Lemma tdelivers_ok ls : Forall tdelivers ls -> Forall tlabel_ok ls.
Proof. apply Forall_impl. intros l H. destruct l; try destruct H; exact Logic.I. Qed.

Lemma threads_drain E ps d : tlife E ps (TUp d) ->
  exists ls d', tdev_run E d ls = Some (TRunning d') /\ Forall tdelivers ls /\ tlife E ps (TUp d') /\ tsame d d' /\
    td_out d' = [] /\ td_turn d' = None /\ in_flight (sy_in (td_sys d')) = [] /\ sy_pending (td_sys d') = None /\
    (rb_responses (in_buf (sy_in (td_sys d'))) = [] \/ rb_waiting (in_buf (sy_in (td_sys d'))) = []).
Proof.
  intro Lf. pose proof (tfree_life _ _ _ Lf) as F. cbn in F.
  destruct (trun_out E _ d F eq_refl) as (l0 & d0 & R0 & D0 & F0 & S0 & A0 & B0 & C0 & P0).
  assert (G : exists ls d', tdev_run E d ls = Some (TRunning d') /\ Forall tdelivers ls /\ tfree d' /\ tsame d d' /\
    td_out d' = [] /\ td_turn d' = None /\ in_flight (sy_in (td_sys d')) = [] /\ sy_pending (td_sys d') = None).
  { destruct (sy_pending (td_sys d0)) as [f|] eqn:P; [|exists l0, d0; auto 9].
    assert (S : exists d1, tdev_step E d0 TWrite = Some (TRunning d1) /\ sy_pending (td_sys d1) = None /\ in_flight (sy_in (td_sys d1)) = [] /\
                td_out d1 = [] /\ td_turn d1 = None).
    { cbn [tdev_step]. unfold in_tsys. cbn [sys_step]. rewrite P. cbn [obind]. eexists. split; [reflexivity|]. cbn. auto. }
    destruct S as (d1 & S & S1 & S2 & S3 & S4).
    exists (l0 ++ [TWrite]), d1. rewrite (tdev_run_app _ _ _ _ _ R0). cbn [tdev_run]. rewrite S. cbn [obind].
    split; [reflexivity|]. split; [apply Forall_app; split; [exact D0|repeat constructor]|].
    split; [eapply tfree_step; eauto|]. split; [|auto].
    eapply tsame_trans; [exact S0|]. eapply tdelivers_keeps; [|exact S]. exact Logic.I. }
  destruct G as (ls & d' & R & D & F' & SA & O & T & Fl & P). exists ls, d'.
  split; [exact R|]. split; [exact D|]. split; [exact (tlife_run _ _ ls _ _ Lf (tdelivers_ok _ D) R)|].
  do 5 (split; [assumption|]). destruct F' as (_ & (_ & [H|[H _]] & _) & _); auto.
Qed.

(* A message whose channel no waiting request has locked can be taken. *)
Lemma threads_takes E d i m : td_out d = [] -> td_turn d = None -> nth_error (sy_delegate (td_sys d)) i = Some m ->
  ~ In i (td_taken d) -> wfb m -> (forall x, In x (td_waits d) -> takeN 4 m <> le 4 (th_ch x)) ->
  exists r, tdev_step E d (THandle i) = Some r.
Proof.
  intros O T Nt NI W F. cbn [tdev_step]. destruct (existsb _ _) eqn:X.
  { apply existsb_exists in X as (j & X & Y). apply Nat.eqb_eq in Y. subst j. contradiction. }
  rewrite Nt. cbn [obind]. clear X. assert (blocked d m = false) as ->.
  { unfold blocked. destruct (read_le 4 m) as [[ch rest]|] eqn:R; [|reflexivity]. unfold locked. rewrite O, T. cbn [existsb].
    rewrite !orb_false_r. destruct (existsb (fun x => th_ch x =? ch) _) eqn:Y; [exfalso|reflexivity]. apply existsb_exists in Y as (x & Y & Z).
    apply N.eqb_eq in Z. apply (F x Y). rewrite Z. unfold read_le in R. destruct (len m <? N.of_nat 4) eqn:Lm; [discriminate R|].
    injection R as <- _. change (firstn 4 m) with (takeN 4 m). apply N.ltb_ge in Lm.
    rewrite <- (le_le_dec (takeN 4 m)) at 1 by (now apply wfb_take). f_equal. unfold takeN. rewrite firstn_length. unfold len in Lm. lia. }
  destruct (hid_front _ m) as [s|lock s ps|ch s ctap reply q|]; eauto.
  destruct (begin _ _ _) as [w [[o|p]|]]; eauto.
Qed.

Lemma threads_never_stuck E ps d : tlife E ps (TUp d) ->
  (forall k, (k < length (td_waits d))%nat -> exists r, tdev_step E d (TAnswer k) = Some r) /\
  exists ls d', tdev_run E d ls = Some (TRunning d') /\ Forall tdelivers ls /\ tlife E ps (TUp d') /\ tsame d d' /\
    td_out d' = [] /\ td_turn d' = None /\ in_flight (sy_in (td_sys d')) = [] /\ sy_pending (td_sys d') = None /\
    (rb_responses (in_buf (sy_in (td_sys d'))) = [] \/ rb_waiting (in_buf (sy_in (td_sys d'))) = []) /\
    forall i m, nth_error (written_of (sy_log (td_sys d))) i = Some m -> ~ In i (td_taken d) ->
      (forall x, In x (td_waits d) -> takeN 4 m <> le 4 (th_ch x)) -> exists r, tdev_step E d' (THandle i) = Some r.
Proof.
  intro L. split.
  { intros k Hk. cbn [tdev_step]. destruct (nth_error (td_waits d) k) as [x|] eqn:Nt; [|apply nth_error_None in Nt; lia].
    cbn [obind]. destruct (resume _ _ _) as [w [r|]]; eauto. }
  destruct (threads_drain _ _ _ L) as (ls & d' & R & D & L' & SA & O & T & Fl & P & B). exists ls, d'.
  do 9 (split; [assumption|]). intros i m Nt NI F. destruct SA as (_ & _ & S3 & S4 & _ & _ & S7).
  destruct (tlife_history _ _ _ L) as (h & lo & _ & _ & l & g & p & _ & K). pose proof (ti_wire _ _ _ _ _ K) as I.
  rewrite <- (wi_delegate _ I), <- S7 in Nt. rewrite <- S3 in NI. rewrite <- S4 in F.
  eapply threads_takes; eauto. pose proof (wi_wfb _ I) as W. rewrite <- S7 in W. rewrite Forall_forall in W. apply W. eapply nth_error_In; eauto.
Qed.

(* ---- a waiting request goes on waiting until it is answered *)
Lemma still_refresh w x l : In x l -> still x (refresh_threads w l).
Proof. intro H. eexists. split; [apply in_map_iff; exists x; split; [reflexivity|exact H]|]. auto. Qed.

Lemma still_step E d l d' x : no_answer l -> tdev_step E d l = Some (TRunning d') -> In x (td_waits d) -> still x (td_waits d').
Proof.
  intros N S H. assert (SAME : td_waits d' = td_waits d -> still x (td_waits d')) by (intros ->; exists x; auto).
  assert (SY : forall l', in_tsys d l' = Some (TRunning d') -> still x (td_waits d')).
  { intros l' Q. unfold in_tsys in Q. destruct (sys_step (td_sys d) l'); [|discriminate Q]. cbn [obind] in Q. injection Q as <-. now apply SAME. }
  destruct l as [| |i|i|i|k|k|k|choice|i|s]; try destruct N; cbn [tdev_step] in S; try (now eapply SY; eassumption).
  - destruct (existsb _ _); [discriminate S|]. destruct (nth_error _ _); [|discriminate S]. cbn [obind] in S.
    destruct (blocked d _); [discriminate S|].
    destruct (hid_front (td_srv d) _) as [s|lock s ps|ch s ctap reply m'|]; try discriminate S; try (injection S as <-; now apply SAME).
    destruct (begin E _ _) as [w [[o|pp]|]]; try discriminate S; injection S as <-; cbn [td_waits]; [now apply still_refresh|].
    destruct (still_refresh w x _ H) as (x' & A & B). exists x'. split; [apply in_app_iff; now left|exact B].
  - destruct (nth_error (td_tickers d) k); [|discriminate S]. injection S as <-. now apply SAME.
  - destruct (td_turn d); [discriminate S|]. destruct (nth_error (td_out d) k) as [g|]; [|discriminate S]. injection S as <-. now apply SAME.
  - destruct (td_turn d) as [[lock [|p0 rest]]|]; try discriminate S. destruct (respond_idle _); [|discriminate S].
    destruct (sys_step _ _) as [s'|]; [|discriminate S]. injection S as <-. now apply SAME.
  - destruct (local_input i); [|discriminate S]. destruct (handle E i (td_world d)) as [w [o|]]; [|discriminate S].
    injection S as <-. now apply still_refresh.
  - destruct (cn_phase _); try discriminate S. injection S as <-. now apply SAME.
Qed.

Lemma taken_step E d l r i : tdev_step E d l = Some r -> ~ In i (td_taken d) -> l <> THandle i ->
  match r with TRunning d' => ~ In i (td_taken d') | TDead _ => True end.
Proof.
  intros S NI NE. destruct r as [d'|]; [|exact Logic.I].
  assert (SY : forall l', in_tsys d l' = Some (TRunning d') -> ~ In i (td_taken d')).
  { intros l' Q. unfold in_tsys in Q. destruct (sys_step (td_sys d) l'); [|discriminate Q]. cbn [obind] in Q. now injection Q as <-. }
  destruct l as [| |j|j|j|k|k|k|choice|j|s]; cbn [tdev_step] in S; try (now eapply SY; eassumption).
  - assert (NJ : ~ In i (j :: td_taken d)) by (intros [->|X]; [now apply NE|contradiction]).
    destruct (existsb _ _); [discriminate S|]. destruct (nth_error _ _); [|discriminate S]. cbn [obind] in S.
    destruct (blocked d _); [discriminate S|].
    destruct (hid_front (td_srv d) _) as [s|lock s ps|ch s ctap reply m'|]; try discriminate S; try (injection S as <-; exact NJ).
    destruct (begin E _ _) as [w [[o|pp]|]]; try discriminate S; injection S as <-; exact NJ.
  - destruct (nth_error (td_waits d) k) as [x|]; [|discriminate S]. cbn [obind] in S.
    destruct (resume _ _ _) as [w [r|]]; [|discriminate S]. injection S as <-. exact NI.
  - destruct (nth_error (td_tickers d) k); [|discriminate S]. injection S as <-. exact NI.
  - destruct (td_turn d); [discriminate S|]. destruct (nth_error (td_out d) k) as [g|]; [|discriminate S]. injection S as <-. exact NI.
  - destruct (td_turn d) as [[lock [|p0 rest]]|]; try discriminate S. destruct (respond_idle _); [|discriminate S].
    destruct (sys_step _ _) as [s'|]; [|discriminate S]. injection S as <-. exact NI.
  - destruct (local_input j); [|discriminate S]. destruct (handle E j (td_world d)) as [w [o|]]; [|discriminate S]. injection S as <-. exact NI.
  - destruct (cn_phase _); try discriminate S. injection S as <-. exact NI.
Qed.

Lemma delegate_step E ps d l d' : tlife E ps (TUp d) -> tlabel_ok l -> tdev_step E d l = Some (TRunning d') ->
  exists x, sy_delegate (td_sys d') = sy_delegate (td_sys d) ++ x.
Proof.
  intros L Lo S. destruct (tlife_history _ _ _ L) as (h & lo & _ & _ & ll & g & p & _ & K). pose proof (ti_wire _ _ _ _ _ K) as I.
  assert (SAME : td_sys d' = td_sys d -> exists x, sy_delegate (td_sys d') = sy_delegate (td_sys d) ++ x).
  { intros ->. exists []. symmetry. apply app_nil_r. }
  assert (SY : forall l', in_tsys d l' = Some (TRunning d') -> exists x, sy_delegate (td_sys d') = sy_delegate (td_sys d) ++ x).
  { intros l' Q. unfold in_tsys in Q. destruct (sys_step (td_sys d) l') eqn:E1; [|discriminate Q]. cbn [obind] in Q. injection Q as <-.
    exact (delegate_grows _ _ _ I E1). }
  destruct l as [| |i|i|i|k|k|k|choice|i|s]; cbn [tdev_step] in S; try (now eapply SY; eassumption).
  - destruct (existsb _ _); [discriminate S|]. destruct (nth_error _ _); [|discriminate S]. cbn [obind] in S.
    destruct (blocked d _); [discriminate S|].
    destruct (hid_front (td_srv d) _) as [s|lock s ps'|ch s ctap reply m'|]; try discriminate S; try (injection S as <-; now apply SAME).
    destruct (begin E _ _) as [w [[o|pp]|]]; try discriminate S; injection S as <-; now apply SAME.
  - destruct (nth_error (td_waits d) k) as [x|]; [|discriminate S]. cbn [obind] in S.
    destruct (resume _ _ _) as [w [r|]]; [|discriminate S]. injection S as <-. now apply SAME.
  - destruct (nth_error (td_tickers d) k); [|discriminate S]. injection S as <-. now apply SAME.
  - destruct (td_turn d); [discriminate S|]. destruct (nth_error (td_out d) k) as [gg|]; [|discriminate S]. injection S as <-. now apply SAME.
  - destruct (td_turn d) as [[lock [|p0 rest]]|]; try discriminate S. destruct (respond_idle _); [|discriminate S].
    destruct (sys_step _ _) as [s'|] eqn:E1; [|discriminate S]. injection S as <-. exact (delegate_grows _ _ _ I E1).
  - destruct (local_input i); [|discriminate S]. destruct (handle E i (td_world d)) as [w [o|]]; [|discriminate S].
    injection S as <-. now apply SAME.
  - destruct (cn_phase _); try discriminate S. injection S as <-. exists []. symmetry. apply app_nil_r.
Qed.

Lemma waits_hold E ps ls : forall d d' x i m, tlife E ps (TUp d) -> Forall tlabel_ok ls -> Forall no_answer ls ->
  tdev_run E d ls = Some (TRunning d') -> In x (td_waits d) ->
  nth_error (sy_delegate (td_sys d)) i = Some m -> ~ In i (td_taken d) -> takeN 4 m = le 4 (th_ch x) ->
  still x (td_waits d') /\ ~ In i (td_taken d').
Proof.
  induction ls as [|l ls IH]; intros d d' x i m L LO NA R Hx Nt NI Ch; cbn [tdev_run] in R.
  { injection R as <-. split; [exists x; auto|exact NI]. }
  destruct (tdev_step E d l) as [[d1|w]|] eqn:S; cbn [obind] in R; [|destruct ls; discriminate R|discriminate R].
  pose proof (T_step _ _ _ _ _ L (Forall_inv LO) S) as L1.
  destruct (still_step _ _ _ _ _ (Forall_inv NA) S Hx) as (x1 & X1 & X2 & X3 & X4).
  destruct (delegate_step _ _ _ _ _ L (Forall_inv LO) S) as (more & G).
  destruct (tlife_history _ _ _ L) as (h & lo & _ & _ & ll & g & p & _ & K).
  assert (NE : l <> THandle i).
  { intros ->. cbn [tdev_step] in S. destruct (existsb _ _); [discriminate S|]. rewrite Nt in S. cbn [obind] in S.
    pose proof (ti_waits _ _ _ _ _ K) as FW. destruct (in_split _ _ Hx) as (a & b & W). rewrite W in FW.
    apply forall2_at in FW as (_ & y & _ & _ & (_ & _ & _ & Bd & _) & _ & _).
    assert (blocked d m = true) as B; [|rewrite B in S; discriminate S].
    unfold blocked. destruct (N.lt_ge_cases (len m) 4) as [Sh|Sh].
    { exfalso. apply (f_equal len) in Ch. rewrite le_len, takeN_len in Ch. lia. }
    rewrite read_le4_ok by exact Sh. rewrite Ch, le_dec_le_small by (cbn; lia).
    apply holders_locked. unfold holders. apply in_app_iff. left. now apply in_map. }
  pose proof (taken_step _ _ _ _ _ S NI NE) as NI1. cbn in NI1.
  destruct (IH d1 d' x1 i m L1 (Forall_inv_tail LO) (Forall_inv_tail NA) R X1) as ((x' & Y1 & Y2 & Y3 & Y4) & Z).
  - rewrite G. rewrite nth_error_app1; [exact Nt|]. apply nth_error_Some. congruence.
  - exact NI1.
  - now rewrite X2.
  - split; [|exact Z]. exists x'. split; [exact Y1|]. split; [congruence|]. split; congruence.
Qed.

Lemma channel_waits E ps ls d d' x i m : tlife E ps (TUp d) -> Forall tlabel_ok ls -> Forall no_answer ls ->
  tdev_run E d ls = Some (TRunning d') -> In x (td_waits d) ->
  nth_error (written_of (sy_log (td_sys d))) i = Some m -> ~ In i (td_taken d) -> takeN 4 m = le 4 (th_ch x) ->
  still x (td_waits d') /\ ~ In i (td_taken d').
Proof.
  intros L LO NA R Hx Nt. destruct (tlife_history _ _ _ L) as (h & lo & _ & _ & ll & g & p & _ & K).
  rewrite <- (wi_delegate _ (ti_wire _ _ _ _ _ K)) in Nt. eapply waits_hold; eauto.
Qed.

(* ---- CANCEL before a request is complete *)
Definition plain (s : server) : Prop :=
  forall k t, chan_lookup k (srv_channels s) = Some (Some t) -> t_error t = 0 /\ t_cancelled t = false.

Lemma plain_set s ch v : plain s -> match v with Some t => t_error t = 0 /\ t_cancelled t = false | None => True end -> plain (srv_set s ch v).
Proof.
  intros P V k t H. cbn [srv_set srv_channels] in H. destruct (N.eq_dec ch k) as [->|D].
  - rewrite chan_lookup_set_eq in H. injection H as ->. exact V.
  - rewrite chan_lookup_set_neq in H by exact D. eauto.
Qed.

Lemma txn_plain s ch cur m t : plain s -> chan_lookup ch (srv_channels s) = Some cur ->
  (match cur with None => new_transaction m | Some t0 => add_message t0 m end) = Ok t -> t_done t = false ->
  t_error t = 0 /\ t_cancelled t = false.
Proof.
  intros P L E D. destruct cur as [t0|].
  - destruct (P _ _ L) as [P1 P2]. unfold add_message in E. destruct (t_done t0); [injection E as <-; discriminate D|].
    destruct (read_le 4 m) as [[c b]|]; [|discriminate E]. cbn [rbind] in E. destruct (t_result t0) as [r|]; [|discriminate E].
    destruct (negb (c =? tr_chan r)); [injection E as <-; discriminate D|].
    destruct (read_le 1 b) as [[q b']|]; [|discriminate E]. cbn [rbind] in E.
    destruct (q =? cmd_cancel); [injection E as <-; discriminate D|].
    destruct (negb (N.land q 128 =? 0)); [injection E as <-; discriminate D|].
    destruct (negb (q =? tr_seq r)); [injection E as <-; discriminate D|].
    destruct (tr_plen r <=? _); injection E as <-; [discriminate D|]. now split.
  - unfold new_transaction in E. destruct (read_le 4 m) as [[c b]|]; [|discriminate E]. cbn [rbind] in E.
    destruct (read_le 1 b) as [[q b']|]; [|discriminate E]. cbn [rbind] in E.
    destruct (N.land q 128 =? 0); [injection E as <-; discriminate D|].
    destruct (q =? cmd_cancel); [injection E as <-; discriminate D|].
    destruct (read_be 2 b') as [[z b'']|]; [|discriminate E]. cbn [rbind] in E.
    destruct (z <=? len b''); injection E as <-; [discriminate D|]. now split.
Qed.

Lemma front_plain s m : plain s -> match hid_front s m with FKeep s' | FSend _ s' _ | FCall _ s' _ _ _ => plain s' | FPanic => True end.
Proof.
  intro P. unfold hid_front. destruct (read_le 4 m) as [[ch rest]|]; [|exact Logic.I].
  destruct (chan_lookup ch (srv_channels s)) as [cur|] eqn:L; [|exact P].
  destruct (match cur with None => _ | Some t => _ end) as [t|] eqn:T; [|exact Logic.I].
  destruct (t_done t) eqn:D; [|apply plain_set; [exact P|]; eapply txn_plain; eauto].
  assert (PN : plain (srv_set s ch None)) by (now apply plain_set).
  destruct (negb _); [exact PN|]. destruct (t_cancelled t); [exact PN|]. destruct (t_result t) as [r|]; [|exact Logic.I].
  unfold front_finalized. destruct (ch =? hid_broadcast) eqn:B.
  - unfold handle_broadcast. destruct (tr_cmd r =? cmd_init).
    + assert (P' : plain (fst (new_channel s))) by (apply (plain_set s ((srv_max s + 1) mod 4294967296) None P Logic.I)).
      destruct (new_channel s) as [s' id]. cbn [fst] in P'. destruct (_ <? 8); cbn [o_res o_srv]; [exact Logic.I|now apply plain_set].
    + destruct (tr_cmd r =? cmd_ping); cbn [o_res o_srv]; [exact PN|exact Logic.I].
  - destruct (_ =? cmd_msg); [exact PN|]. destruct (_ =? cmd_cbor); [exact PN|]. destruct (_ =? cmd_ping); [exact PN|exact Logic.I].
Qed.

Lemma plain_life E ps s : tlife E ps s -> match s with TUp d => plain (td_srv d) | TDown _ => True end.
Proof.
  induction 1 as [| | |ps d l d' L IH Lo S| |]; auto.
  - intros k u Q. cbn in Q. destruct (_ =? k); discriminate Q.
  - assert (SY : forall l', in_tsys d l' = Some (TRunning d') -> plain (td_srv d')).
    { intros l' Q. unfold in_tsys in Q. destruct (sys_step (td_sys d) l'); [|discriminate Q]. cbn [obind] in Q. now injection Q as <-. }
    destruct l as [| |j|j|j|k|k|k|choice|j|s]; cbn [tdev_step] in S; try (now eapply SY; eassumption).
    + destruct (existsb _ _); [discriminate S|]. destruct (nth_error _ _) as [m|]; [|discriminate S]. cbn [obind] in S.
      destruct (blocked d _); [discriminate S|]. pose proof (front_plain (td_srv d) m IH) as FP.
      destruct (hid_front (td_srv d) _) as [s|lock s ps'|ch s ctap reply m'|]; try discriminate S; try (injection S as <-; exact FP).
      destruct (begin E _ _) as [w [[o|pp]|]]; try discriminate S; injection S as <-; exact FP.
    + destruct (nth_error (td_waits d) k) as [x|]; [|discriminate S]. cbn [obind] in S.
      destruct (resume _ _ _) as [w [r|]]; [|discriminate S]. injection S as <-. exact IH.
    + destruct (nth_error (td_tickers d) k); [|discriminate S]. injection S as <-. exact IH.
    + destruct (td_turn d); [discriminate S|]. destruct (nth_error (td_out d) k) as [g|]; [|discriminate S]. injection S as <-. exact IH.
    + destruct (td_turn d) as [[lock [|p0 rest]]|]; try discriminate S. destruct (respond_idle _); [|discriminate S].
      destruct (sys_step _ _) as [s'|]; [|discriminate S]. injection S as <-. exact IH.
    + destruct (local_input j); [|discriminate S]. destruct (handle E j (td_world d)) as [w [o|]]; [|discriminate S]. injection S as <-. exact IH.
    + destruct (cn_phase _); try discriminate S. injection S as <-. exact IH.
Qed.

Lemma threads_cancel E ps d i ch cur rest : tlife E ps (TUp d) -> ~ In i (td_taken d) ->
  nth_error (written_of (sy_log (td_sys d))) i = Some (le 4 ch ++ 0x91 :: rest) -> ch < 4294967296 ->
  chan_lookup ch (srv_channels (td_srv d)) = Some cur -> locked d ch = false ->
  exists d', tdev_step E d (THandle i) = Some (TRunning d') /\ chan_lookup ch (srv_channels (td_srv d')) = Some None /\
    td_sys d' = td_sys d /\ td_world d' = td_world d /\ td_waits d' = td_waits d /\ td_out d' = td_out d /\ td_turn d' = td_turn d /\
    td_tickers d' = td_tickers d.
Proof.
  intros L NI Nt Hch Lk Fr. destruct (tlife_history _ _ _ L) as (h & lo & _ & _ & ll & g & p & _ & K).
  pose proof (ti_wire _ _ _ _ _ K) as I. rewrite <- (wi_delegate _ I) in Nt.
  assert (RL : read_le 4 (le 4 ch ++ 0x91 :: rest) = Ok (ch, 0x91 :: rest)) by (apply read_le_app; exact Hch).
  assert (R1 : read_le 1 (0x91 :: rest) = Ok (0x91, rest)).
  { unfold read_le. replace (len (0x91 :: rest) <? N.of_nat 1) with false; [reflexivity|]. symmetry. apply N.ltb_ge. unfold len. cbn [length]. lia. }
  assert (F : hid_front (td_srv d) (le 4 ch ++ 0x91 :: rest) = FKeep (srv_set (td_srv d) ch None)).
  { unfold hid_front. rewrite RL, Lk. pose proof (plain_life _ _ _ L) as P. cbn in P.
    destruct cur as [t|].
    - destruct (P _ _ Lk) as [P1 P2]. destruct (ti_waiting _ _ _ _ _ K _ _ Lk) as (D & r & R & (PC & _)).
      unfold add_message. rewrite D, RL. cbn [rbind]. rewrite R, PC, N.eqb_refl. cbn [negb]. rewrite R1. cbn [rbind].
      change (0x91 =? cmd_cancel) with true. cbn [txn_cancel t_done t_error t_cancelled]. rewrite P1. reflexivity.
    - unfold new_transaction. rewrite RL. cbn [rbind]. rewrite R1. reflexivity. }
  cbn [tdev_step]. destruct (existsb _ _) eqn:X.
  { apply existsb_exists in X as (j & X & Y). apply Nat.eqb_eq in Y. subst j. contradiction. }
  rewrite Nt. cbn [obind]. unfold blocked. rewrite RL, Fr, F. eexists. split; [reflexivity|]. cbn. rewrite chan_lookup_set_eq. auto 9.
Qed.

(* ---- what the user approved *)
Lemma since_incl h : incl (osince_start h) h.
Proof.
  induction h as [|e h IH]; [apply incl_refl|]. cbn [osince_start].
  destruct (existsb is_ostart h); [now apply incl_tl|]. destruct (is_ostart e); [apply incl_tl, incl_refl|now apply incl_tl].
Qed.

Lemma ostarts_all E h : Forall (params_ok E) (ostarts_of h) -> ostarts_ok E h.
Proof.
  intros F p H. rewrite Forall_forall in F. apply F. unfold ostarts_of. apply in_flat_map.
  destruct H as [H|H]; eexists; (split; [exact H|now left]).
Qed.

Lemma approved_bound a w h turns : Forall (reason w (osince_start h)) turns -> NoDup (numbers_of turns) ->
  (approved_sent a turns <= approved a h)%nat.
Proof.
  intros F ND. unfold approved_sent, approved.
  set (f := fun t => match t with Answer _ _ i r => needs_yes a i (OBytes r) | _ => false end).
  set (entry := fun t => match t with Answer n _ i r => ODone n i (OBytes r) | _ => OKill end).
  rewrite <- (map_length entry). apply NoDup_incl_length.
  - clear F. induction turns as [|t turns IH]; [constructor|]. cbn [filter]. unfold numbers_of in ND. cbn [flat_map] in ND.
    destruct t as [| | | |n c i r]; cbn [f answer_number app] in *; auto. inversion_clear ND as [|? ? N1 N2].
    destruct (needs_yes a i (OBytes r)); [|now apply IH]. cbn [map]. constructor; [|now apply IH].
    intro X. apply N1. apply in_map_iff in X as (t & X & Y). apply filter_In in Y as [Y _].
    apply in_flat_map. exists t. split; [exact Y|]. destruct t; try discriminate X. injection X as -> _ _. now left.
  - intros e H. apply in_map_iff in H as (t & <- & H). apply filter_In in H as [H Y]. rewrite Forall_forall in F.
    destruct (F t H) as [_ R]. destruct t as [| | | |n c i r]; cbn [f entry] in *; try discriminate Y.
    apply filter_In. split; [|exact Y]. apply since_incl, R.
Qed.

Lemma threads_approved E ps d : env_ok E -> Forall (params_ok E) ps -> tlife E ps (TUp d) ->
  exists now turns, Forall (reason (written_of (sy_log (td_sys d))) now) turns /\ NoDup (numbers_of turns) /\
    Permutation (numbers_of turns) (answered_requests now) /\ reads_as d turns /\
    forall a, (approved_sent a turns <= said_yes a (w_trace (td_world d)))%nat.
Proof.
  intros Eo Fp L. destruct (threads_deliver _ _ _ L) as (h & l & turns & H & S & R & ND & P & _ & RA). cbv zeta in *.
  exists (osince_start h), turns. split; [exact R|]. split; [exact ND|]. split; [exact P|]. split; [exact RA|]. intro a.
  rewrite <- S in Fp. apply ostarts_all in Fp. pose proof (oapproved _ a _ _ _ Eo H Fp).
  pose proof (approved_bound a _ _ _ R ND). lia.
Qed.
