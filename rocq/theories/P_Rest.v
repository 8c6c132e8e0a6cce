(* A device that is left alone comes to rest with everything answered. *)
From Verif Require Import Base M_Util M_Usb M_ReqBuf M_Usbip M_Hid M_HidConc M_Crypto M_Cose M_State M_Client M_Ctap M_U2f M_History
  M_Overlap M_Device M_Threads S_ReqBuf S_Usbip S_UsbipSys S_Hid S_Client S_Device S_History S_Overlap S_Threads S_Rest P_ReqBuf P_Usb P_Usbip2 P_Usbip3
  P_Hid1 P_Hid2 P_Device1 P_Device2 P_Device3 P_Device4 P_Device5 P_Overlap1 P_Overlap7 P_Threads1 P_Threads2 P_Threads3 P_Threads4 P_Threads5.
From Coq Require Import Lia Sorted Permutation Wellfounded Relations.

(* ------------------------------------------------------------------ *)
(* Termination                                                         *)

Definition untaken (taken : list nat) (n : nat) : nat :=
  length (filter (fun i => negb (existsb (Nat.eqb i) taken)) (seq 0 n)).

Definition group_weight (g : group) : nat := S (2 * length (gr_packets g)).
Definition weight (d : tdev) : nat :=
  (length (opt_list (sy_pending (td_sys d))) + length (in_flight (sy_in (td_sys d))) +
   2 * length (turn_left d) + list_sum (map group_weight (td_out d)))%nat.

Definition lt2 := slexprod nat nat lt lt.
Definition lt3 := slexprod nat (nat * nat) lt lt2.
Definition lt4 := slexprod nat (nat * (nat * nat)) lt lt3.
Definition lt5 := slexprod nat (nat * (nat * (nat * nat))) lt lt4.
Lemma lt5_wf : well_founded lt5.
Proof. do 4 (apply wf_slexprod; [exact lt_wf|]). exact lt_wf. Qed.

Definition load (d : tdev) : nat * (nat * (nat * (nat * nat))) :=
  (length (concat (cn_stream (sy_conn (td_sys d)))),
   (length (in_timers (sy_in (td_sys d))),
    (untaken (td_taken d) (length (sy_delegate (td_sys d))),
     (length (td_waits d), weight d)))).

Lemma conn_shrinks devs c c' a : cn_phase c <> Closed -> concat (cn_stream c) <> [] -> conn_step devs c = (c', a) ->
  (length (concat (cn_stream c')) < length (concat (cn_stream c)))%nat.
Proof.
  intros P N S.
  assert (Z : (length (concat (@nil bytes)) < length (concat (cn_stream c)))%nat) by (destruct (concat (cn_stream c)); [congruence|cbn; lia]).
  assert (RF : forall n s b s', read_full n s = Some (b, s') -> length (concat s) = (N.to_nat n + length (concat s'))%nat).
  { intros n s b s' R. apply read_full_some in R. destruct R as (R1 & R2). rewrite R1, app_length. unfold len in R2. lia. }
  assert (RO : forall n s b s', read_once n s = Some (b, s') -> (length (concat s') <= length (concat s))%nat).
  { intros n s b s' R. apply read_once_some in R. destruct R as (R1 & _). rewrite R1, app_length. lia. }
  unfold conn_step in S. destruct (cn_phase c) as [|dd|]; [| |congruence].
  - destruct (read_full 8 (cn_stream c)) as [[h s1]|] eqn:R; [|injection S as <- <-; exact Z]. apply RF in R.
    destruct (_ =? 0x8005); [injection S as <- <-; cbn [cn_stream]; lia|]. destruct (_ =? 0x8003); [|injection S as <- <-; cbn [cn_stream]; lia].
    unfold util_read in S. destruct (read_once 32 s1) as [[x s2]|] eqn:R2; cbn [obind] in S; [|injection S as <- <-; exact Z]. apply RO in R2.
    destruct (cstring _); [|injection S as <- <-; exact Z]. destruct (get_device _ _ _) as [[i y]|]; injection S as <- <-; cbn [cn_stream]; lia.
  - destruct (read_full 20 (cn_stream c)) as [[h s1]|] eqn:R; [|injection S as <- <-; exact Z]. apply RF in R.
    destruct (_ =? 1).
    + unfold read_submit in S. destruct (read_full 28 s1) as [[x s2]|] eqn:R2; cbn [obind] in S; [|injection S as <- <-; exact Z]. apply RF in R2.
      destruct (_ && _); [|injection S as <- <-; cbn [cn_stream]; lia].
      destruct (read_once _ s2) as [[y s3]|] eqn:R3; cbn [obind] in S; [|injection S as <- <-; exact Z]. apply RO in R3. injection S as <- <-; cbn [cn_stream]; lia.
    + destruct (_ =? 2); [|injection S as <- <-; cbn [cn_stream]; lia].
      destruct (read_full 28 s1) as [[x s2]|] eqn:R2; [|injection S as <- <-; exact Z]. apply RF in R2. injection S as <- <-; cbn [cn_stream]; lia.
Qed.

Lemma read_conn s s' : sys_step s SRead = Some s' -> sy_conn s' = fst (conn_step [usb_device] (sy_conn s)).
Proof.
  cbn [sys_step]. destruct (sy_pending s); [discriminate|]. destruct (conn_step [usb_device] (sy_conn s)) as [c a]. cbn [fst].
  destruct a as [|r|dd h st b|dd h t].
  - intro S. now injection S as <-.
  - intro S. now injection S as <-.
  - destruct (_ =? 0); [destruct (handle_control_message _); intro S; now injection S as <-|].
    destruct (_ =? 1); [destruct (in_step _ _); cbn [obind]; intro S; [now injection S as <-|discriminate]|].
    destruct (_ =? 2); intro S; now injection S as <-.
  - destruct (in_step _ _); cbn [obind]; intro S; [now injection S as <-|discriminate].
Qed.

Lemma drop_length {A} i (l : list A) x : nth_error l i = Some x -> S (length (drop_nth i l)) = length l.
Proof. revert i. induction l as [|y l IH]; intros [|i] H; try discriminate; cbn in *; auto. Qed.

Lemma remove_length {A} i (l : list A) x : nth_error l i = Some x -> S (length (remove_nth i l)) = length l.
Proof. revert i. induction l as [|y l IH]; intros [|i] H; try discriminate; cbn in *; auto. Qed.

Lemma remove_weight i l g : nth_error l i = Some g -> list_sum (map group_weight l) = (group_weight g + list_sum (map group_weight (remove_nth i l)))%nat.
Proof.
  unfold list_sum. revert i. induction l as [|y l IH]; intros [|i] H; try discriminate; cbn [remove_nth map fold_right nth_error] in *.
  - now injection H as ->.
  - rewrite (IH _ H). lia.
Qed.

Lemma filter_less {A} (f g : A -> bool) l x : (forall y, f y = true -> g y = true) -> In x l -> f x = false -> g x = true ->
  (length (filter f l) < length (filter g l))%nat.
Proof.
  intros FG I Fx Gx. assert (Le : forall l, (length (filter f l) <= length (filter g l))%nat).
  { induction l0 as [|y l0 IH]; [cbn; lia|]. cbn [filter]. destruct (f y) eqn:Fy; [rewrite (FG _ Fy); cbn; lia|destruct (g y); cbn; lia]. }
  induction l as [|y l IH]; [destruct I|]. cbn [filter]. destruct I as [->|I].
  - rewrite Fx, Gx. cbn. specialize (Le l). lia.
  - specialize (IH I). destruct (f y) eqn:Fy; [rewrite (FG _ Fy); cbn; lia|destruct (g y); cbn; lia].
Qed.

Lemma taken_less i taken n : existsb (Nat.eqb i) taken = false -> (i < n)%nat -> (untaken (i :: taken) n < untaken taken n)%nat.
Proof.
  intros N L. unfold untaken. apply (filter_less _ _ _ i).
  - intros y. cbn [existsb]. rewrite !Bool.negb_true_iff, Bool.orb_false_iff. tauto.
  - apply in_seq. lia.
  - cbn [existsb]. now rewrite Nat.eqb_refl.
  - now rewrite N.
Qed.

Lemma refresh_length w l : length (refresh_threads w l) = length l.
Proof. unfold refresh_threads. apply map_length. Qed.

Lemma step_lighter E d l d' : works d l \/ expires l -> tdev_step E d l = Some (TRunning d') -> lt5 (load d') (load d).
Proof.
  intros W S. destruct l as [| |i|i|i|k|k|k|choice|i|s]; cbn [works expires] in W; cbn [tdev_step] in S.
  - destruct W as [(W1 & W2)|[]]. unfold in_tsys in S. destruct (sys_step (td_sys d) SRead) as [s'|] eqn:SS; [|discriminate S].
    cbn [obind] in S. injection S as <-. unfold load. cbn [td_sys]. apply left_slex.
    rewrite (read_conn _ _ SS). destruct (conn_step [usb_device] (sy_conn (td_sys d))) as [c a] eqn:CS. cbn [fst]. eapply conn_shrinks; eauto.
  - unfold in_tsys in S. cbn [sys_step] in S. destruct (sy_pending (td_sys d)) as [p|] eqn:P; [|discriminate]. cbn [obind] in S. injection S as <-.
    unfold load, weight, turn_left. cbn [td_sys td_taken td_waits td_out td_turn sy_conn sy_in sy_delegate sy_pending opt_list length]. rewrite P. cbn [opt_list length].
    apply right_slex, right_slex, right_slex, right_slex. lia.
  - unfold in_tsys in S. cbn [sys_step in_step] in S. destruct (nth_error (in_flight _) i) as [f|] eqn:F; [|discriminate].
    cbn [obind] in S. destruct (nth_error (sy_subs _) _) as [[h b]|]; [|discriminate]. cbn [obind] in S. injection S as <-.
    unfold load, weight, turn_left. cbn [td_sys td_taken td_waits td_out td_turn sy_conn sy_in sy_delegate sy_pending in_flight in_timers].
    apply drop_length in F. apply right_slex, right_slex, right_slex, right_slex. lia.
  - unfold in_tsys in S. cbn [sys_step in_step] in S. destruct (nth_error (in_timers _) i) as [[id k]|] eqn:F; [|discriminate].
    destruct (rb_cancel _ _) as [b rm]. cbn [obind] in S. injection S as <-. unfold load. cbn [td_sys sy_conn sy_in in_timers].
    apply drop_length in F. apply right_slex, left_slex. lia.
  - destruct (existsb _ _) eqn:T; [discriminate S|]. destruct (nth_error _ _) as [m|] eqn:N; [|discriminate S]. cbn [obind] in S.
    destruct (blocked d _); [discriminate S|].
    assert (L : (untaken (i :: td_taken d) (length (sy_delegate (td_sys d))) < untaken (td_taken d) (length (sy_delegate (td_sys d))))%nat).
    { apply taken_less; [exact T|]. apply nth_error_Some. congruence. }
    destruct (hid_front (td_srv d) _) as [s|lock s ps|ch s ctap reply m'|]; try discriminate S;
      try (injection S as <-; unfold load; cbn [td_sys td_taken]; now apply right_slex, right_slex, left_slex).
    destruct (begin E _ _) as [w [[o|pp]|]]; try discriminate S; injection S as <-; unfold load; cbn [td_sys td_taken]; now apply right_slex, right_slex, left_slex.
  - destruct (nth_error (td_waits d) k) as [x|] eqn:N; [|discriminate S]. cbn [obind] in S.
    destruct (resume E (th_state x) (td_world d)) as [w [r|]]; [|discriminate S]. injection S as <-.
    unfold load. cbn [td_sys td_taken td_waits]. rewrite refresh_length. apply remove_length in N.
    apply right_slex, right_slex, right_slex, left_slex. lia.
  - destruct W as [[]|[]].
  - destruct (td_turn d) eqn:T; [discriminate S|]. destruct (nth_error (td_out d) k) as [g|] eqn:N; [|discriminate S]. cbn [obind] in S.
    injection S as <-. unfold load, weight, turn_left. rewrite T. cbn [td_sys td_taken td_waits td_out td_turn length].
    apply remove_weight in N. rewrite N. apply right_slex, right_slex, right_slex, right_slex. unfold group_weight.
    destruct (gr_packets g) eqn:G; cbn [length]; [lia|]. rewrite G. cbn [length]. lia.
  - destruct (td_turn d) as [[lock [|p0 rest]]|] eqn:T; try discriminate S. destruct (respond_idle _) eqn:RI; [|discriminate S].
    cbn [sys_step in_step] in S. destruct (rb_respond _ _ _) as [[bf cb]|]; [|discriminate S]. cbn [obind] in S. injection S as <-.
    unfold load, weight, turn_left. rewrite T. cbn [td_sys td_taken td_waits td_out td_turn sy_conn sy_in sy_delegate sy_pending in_flight in_timers gr_packets length].
    apply right_slex, right_slex, right_slex, right_slex. rewrite app_length.
    destruct cb; destruct rest; cbn [length gr_packets]; lia.
  - destruct W as [[]|[]].
  - destruct W as [[]|[]].
Qed.

Lemma all_settle E d : settles E d.
Proof.
  remember (load d) as x eqn:X. revert d X. induction x as [x IH] using (well_founded_induction lt5_wf). intros d ->.
  constructor. intros l d' W S. apply (IH (load d')); [|reflexivity]. eapply step_lighter; eauto.
Qed.

(* ------------------------------------------------------------------ *)
(* Whether something can be done                                       *)

Definition something_to_read (d : tdev) : bool :=
  match cn_phase (sy_conn (td_sys d)) with Closed => false | _ => true end &&
  match concat (cn_stream (sy_conn (td_sys d))) with [] => false | _ => true end.

Lemma readsb d : something_to_read d = true <-> works d TRead.
Proof.
  unfold something_to_read. cbn [works]. rewrite Bool.andb_true_iff.
  destruct (cn_phase _), (concat _); split; intros (A & B); split; congruence || discriminate || auto.
Qed.

Definition tries (d : tdev) : list tlabel :=
  (if something_to_read d then [TRead] else []) ++ [TWrite] ++
  map TRun (seq 0 (length (in_flight (sy_in (td_sys d))))) ++ map THandle (seq 0 (length (sy_delegate (td_sys d)))) ++
  map TAnswer (seq 0 (length (td_waits d))) ++ map TGrab (seq 0 (length (td_out d))) ++
  map TPut (seq 0 (S (length (rb_waiting (in_buf (sy_in (td_sys d))))))).

Lemma tries_works d l : In l (tries d) -> works d l.
Proof.
  unfold tries. intro I. apply in_app_or in I as [I|I].
  { destruct (something_to_read d) eqn:R; [|destruct I]. destruct I as [<-|[]]. now apply readsb. }
  apply in_app_or in I as [[<-|[]]|I]; [exact Logic.I|].
  repeat (apply in_app_or in I as [I|I]; [apply in_map_iff in I as (x & <- & _); exact Logic.I|]).
  apply in_map_iff in I as (x & <- & _). exact Logic.I.
Qed.

Lemma nth_in_seq {A} (l : list A) k x : nth_error l k = Some x -> In k (seq 0 (length l)).
Proof. intro N. apply in_seq. assert (k < length l)%nat by (apply nth_error_Some; congruence). lia. Qed.

(* An enabled step other than TPut is among those tried; for TPut one with another choice may be. *)
Lemma tries_all E d l r : works d l -> tdev_step E d l = Some r -> exists l' r', In l' (tries d) /\ tdev_step E d l' = Some r'.
Proof.
  intros W S. unfold tries. destruct l as [| |i|i|i|k|k|k|choice|i|s]; cbn [works] in W; try destruct W.
  - exists TRead, r. split; [|exact S]. rewrite (proj2 (readsb d)) by (split; assumption). apply in_or_app. left. now left.
  - exists TWrite, r. split; [|exact S]. rewrite !in_app_iff. right. left. now left.
  - exists (TRun i), r. split; [|exact S]. rewrite !in_app_iff. do 2 right. left. apply in_map.
    cbn [tdev_step] in S. unfold in_tsys in S. cbn [sys_step] in S. destruct (nth_error (in_flight _) i) as [f|] eqn:F; [|discriminate S]. eapply nth_in_seq; eauto.
  - exists (THandle i), r. split; [|exact S]. rewrite !in_app_iff. do 3 right. left. apply in_map.
    cbn [tdev_step] in S. destruct (existsb _ _); [discriminate S|]. destruct (nth_error _ _) as [m|] eqn:N; [|discriminate S]. eapply nth_in_seq; eauto.
  - exists (TAnswer k), r. split; [|exact S]. rewrite !in_app_iff. do 4 right. left. apply in_map.
    cbn [tdev_step] in S. destruct (nth_error _ _) as [m|] eqn:N; [|discriminate S]. eapply nth_in_seq; eauto.
  - exists (TGrab k), r. split; [|exact S]. rewrite !in_app_iff. do 5 right. left. apply in_map.
    cbn [tdev_step] in S. destruct (td_turn d); [discriminate S|]. destruct (nth_error _ _) as [m|] eqn:N; [|discriminate S]. eapply nth_in_seq; eauto.
  - assert (Q : exists r', tdev_step E d (TPut 0) = Some r').
    { cbn [tdev_step] in *. destruct (td_turn d) as [[lock [|p0 rest]]|]; try discriminate S. destruct (respond_idle _); [|discriminate S].
      cbn [sys_step in_step] in *. unfold rb_respond. destruct (rb_waiting _) as [|[id k] wt]; cbn [nth_error obind]; eauto. }
    destruct Q as (r' & Q). exists (TPut 0), r'. split; [|exact Q]. rewrite !in_app_iff. do 6 right. apply in_map. apply in_seq. lia.
Qed.

Definition restb (E : Env) (d : tdev) : bool :=
  forallb (fun l => match tdev_step E d l with None => true | Some _ => false end) (tries d).

Lemma restb_rest E d : restb E d = true -> at_rest E d.
Proof.
  unfold restb, at_rest. rewrite forallb_forall. intros H l W. destruct (tdev_step E d l) as [r|] eqn:S; [|reflexivity].
  destruct (tries_all E d l r W S) as (l' & r' & I & S'). specialize (H l' I). now rewrite S' in H.
Qed.

Lemma some_not {A} (f : A -> bool) l : forallb f l = false -> exists x, In x l /\ f x = false.
Proof.
  induction l as [|x l IH]; cbn; [discriminate|]. destruct (f x) eqn:F; [|eauto]. intro H. destruct (IH H) as (y & I & Y). eauto.
Qed.

Lemma reaches_rest E d : exists ls r, tdev_run E d ls = Some r /\ working E d ls /\
  match r with TRunning d' => at_rest E d' | TDead _ => True end.
Proof.
  induction (all_settle E d) as [d _ IH]. destruct (restb E d) eqn:R.
  - exists [], (TRunning d). split; [reflexivity|]. split; [exact Logic.I|]. now apply restb_rest.
  - apply some_not in R. destruct R as (l & I & S). apply tries_works in I. destruct (tdev_step E d l) as [[d'|w]|] eqn:T; [| |discriminate S].
    + destruct (IH l d' (or_introl I) T) as (ls & r & Rn & Wk & Q). exists (l :: ls), r. cbn [tdev_run working]. rewrite T. cbn [obind]. auto.
    + exists [l], (TDead w). cbn [tdev_run working]. rewrite T. cbn [obind]. auto.
Qed.

Lemma works_ok d l : works d l -> tlabel_ok l.
Proof. destruct l; intros W; try exact Logic.I; destruct W. Qed.

Lemma working_life E ps ls : forall d d', tlife E ps (TUp d) -> working E d ls -> tdev_run E d ls = Some (TRunning d') -> tlife E ps (TUp d').
Proof.
  induction ls as [|l ls IH]; intros d d' L W R; cbn [tdev_run working] in *; [now injection R as <-|].
  destruct W as (W & Wk). destruct (tdev_step E d l) as [[d1|w]|] eqn:S; cbn [obind] in R; [|destruct ls; discriminate R|discriminate R].
  apply (IH d1); [|exact Wk|exact R]. eapply T_step; eauto. eapply works_ok; eauto.
Qed.

(* ------------------------------------------------------------------ *)
(* At rest                                                             *)

Lemma rest_empty E ps d : tlife E ps (TUp d) -> at_rest E d ->
  td_waits d = [] /\ td_out d = [] /\ td_turn d = None /\ in_flight (sy_in (td_sys d)) = [] /\ sy_pending (td_sys d) = None /\
  (rb_responses (in_buf (sy_in (td_sys d))) = [] \/ rb_waiting (in_buf (sy_in (td_sys d))) = []) /\
  (cn_phase (sy_conn (td_sys d)) = Closed \/ concat (cn_stream (sy_conn (td_sys d))) = []) /\
  (forall i, (i < length (sy_delegate (td_sys d)))%nat -> In i (td_taken d)).
Proof.
  intros L R. pose proof (tfree_life _ _ _ L) as F. cbn in F. destruct F as ((K1 & K2 & K3) & (F1 & F2 & F3) & FT).
  assert (Fl : in_flight (sy_in (td_sys d)) = []).
  { specialize (R (TRun 0) Logic.I). cbn [tdev_step] in R. unfold in_tsys in R. cbn [sys_step in_step] in R.
    destruct (in_flight (sy_in (td_sys d))) as [|f fs]; [reflexivity|]. exfalso. cbn [nth_error obind] in R. apply Forall_inv in K2.
    destruct (nth_error (sy_subs (td_sys d)) (fl_key f)) as [[h b]|] eqn:Nt; [discriminate R|]. apply nth_error_None in Nt. lia. }
  assert (T : td_turn d = None).
  { specialize (R (TPut 0) Logic.I). cbn [tdev_step] in R. unfold full_turn in FT. destruct (td_turn d) as [[lock [|p rest]]|]; [now elim FT| |reflexivity].
    exfalso. unfold respond_idle in R. rewrite Fl in R. cbn [forallb sys_step in_step] in R. unfold rb_respond in R.
    destruct (rb_waiting _) as [|[i k] wt]; discriminate R. }
  assert (O : td_out d = []).
  { specialize (R (TGrab 0) Logic.I). cbn [tdev_step] in R. rewrite T in R. destruct (td_out d) as [|g o]; [reflexivity|discriminate R]. }
  assert (Wt : td_waits d = []).
  { specialize (R (TAnswer 0) Logic.I). cbn [tdev_step] in R. destruct (td_waits d) as [|x l]; [reflexivity|]. exfalso. cbn [nth_error obind] in R.
    destruct (resume _ _ _) as [w [r|]]; discriminate R. }
  assert (P : sy_pending (td_sys d) = None).
  { specialize (R TWrite Logic.I). cbn [tdev_step] in R. unfold in_tsys in R. cbn [sys_step] in R. destruct (sy_pending (td_sys d)); [discriminate R|reflexivity]. }
  do 5 (split; [assumption|]). split; [destruct F2 as [H|[H _]]; auto|]. split.
  - destruct (something_to_read d) eqn:Q.
    + exfalso. apply readsb in Q. specialize (R TRead Q). cbn [tdev_step] in R. unfold in_tsys in R.
      destruct (sys_step (td_sys d) SRead) as [s'|] eqn:S; [discriminate R|]. cbn [sys_step] in S. rewrite P in S.
      destruct (conn_step _ _) as [c a]. destruct a as [|r|dd h st b|dd h t]; try discriminate S.
      * destruct (_ =? 0); [destruct (handle_control_message _); discriminate S|].
        destruct (_ =? 1); [|destruct (_ =? 2); discriminate S]. cbn [in_step] in S. destruct (rb_request _ _ _). discriminate S.
      * cbn [in_step] in S. destruct (rb_cancel _ _). discriminate S.
    + unfold something_to_read in Q. destruct (cn_phase _); auto; destruct (concat _); auto; discriminate Q.
  - intros i Hi. destruct (in_dec Nat.eq_dec i (td_taken d)) as [I|NI]; [exact I|]. exfalso.
    destruct (nth_error (sy_delegate (td_sys d)) i) as [m|] eqn:Nt; [|apply nth_error_None in Nt; lia].
    destruct (tlife_history _ _ _ L) as (h & lo & _ & _ & l & g & p & _ & K). pose proof (ti_wire _ _ _ _ _ K) as I.
    destruct (threads_takes E d i m O T Nt NI) as (r & S).
    + pose proof (wi_wfb _ I) as W. rewrite Forall_forall in W. apply W. eapply nth_error_In; eauto.
    + rewrite Wt. intros x [].
    + rewrite (R (THandle i) Logic.I) in S. discriminate S.
Qed.

(* Every request that began waits or has been answered. *)
Lemma begun E h lo w : ohistory E h lo w -> forall l, lo = Some l -> existsb is_ostart h = true /\
  forall n i, In (OBegin n i) (osince_start h) ->
    (exists o, In (ODone n i o) (osince_start h)) \/ exists x, In x l /\ wt_no x = n /\ wt_input x = i.
Proof.
  intro H. induction H as [|h w p w' H IH S| |h l w i w' p H IH G B|h l w i w' o H IH G B|h l1 x l2 w w' r H IH S| | | | |]; intros l0 Q; try discriminate Q; injection Q as <-.
  - split; [rewrite existsb_app; cbn; apply orb_true_r|]. rewrite osince_new. intros n i [].
  - destruct (IH l eq_refl) as (A & C). split; [rewrite existsb_app, A; reflexivity|]. rewrite osince_more by (auto || reflexivity).
    intros n j I. apply in_app_or in I as [I|[I|[]]].
    + destruct (C n j I) as [(o & D)|(x & D1 & D2 & D3)]; [left; exists o; apply in_or_app; auto|]. right.
      exists (mk_waiting (wt_no x) (wt_input x) (refresh (cl_vault (w_client w')) (wt_state x))). split; [|auto].
      apply in_or_app. left. unfold refreshed. apply in_map_iff. eauto.
    + injection I as <- <-. right. exists (mk_waiting (length h) i p). split; [|auto]. apply in_or_app. right. now left.
  - destruct (IH l eq_refl) as (A & C). split; [rewrite existsb_app, A; reflexivity|]. rewrite osince_more by (auto || reflexivity).
    intros n j I. apply in_app_or in I as [I|[I|[I|[]]]]; [| |discriminate I].
    + destruct (C n j I) as [(o' & D)|(x & D1 & D2 & D3)]; [left; exists o'; apply in_or_app; auto|]. right.
      exists (mk_waiting (wt_no x) (wt_input x) (refresh (cl_vault (w_client w')) (wt_state x))). split; [|auto].
      unfold refreshed. apply in_map_iff. eauto.
    + injection I as <- <-. left. exists o. apply in_or_app. right. right. now left.
  - destruct (IH _ eq_refl) as (A & C). split; [rewrite existsb_app, A; reflexivity|]. rewrite osince_more by (auto || reflexivity).
    intros n j I. apply in_app_or in I as [I|[I|[]]]; [|discriminate I].
    destruct (C n j I) as [(o' & D)|(y & D1 & D2 & D3)]; [left; exists o'; apply in_or_app; auto|].
    apply in_app_or in D1 as [D1|[<-|D1]].
    + right. exists (mk_waiting (wt_no y) (wt_input y) (refresh (cl_vault (w_client w')) (wt_state y))). split; [|auto].
      unfold refreshed. apply in_map_iff. exists y. split; [reflexivity|]. apply in_or_app. auto.
    + left. exists (OBytes r). apply in_or_app. right. left. congruence.
    + right. exists (mk_waiting (wt_no y) (wt_input y) (refresh (cl_vault (w_client w')) (wt_state y))). split; [|auto].
      unfold refreshed. apply in_map_iff. exists y. split; [reflexivity|]. apply in_or_app. auto.
Qed.

Lemma done_once h n i o i' o' : NoDup (answered_numbers h) -> In (ODone n i o) h -> In (ODone n i' o') h -> i = i' /\ o = o'.
Proof.
  intros N A B. unfold answered_numbers in N. induction h as [|e h IH]; [destruct A|]. cbn [flat_map] in N.
  destruct A as [->|A], B as [B|B].
  - injection B as -> ->. auto.
  - exfalso. cbn [app] in N. inversion_clear N as [|? ? N1 N2]. apply N1. apply in_flat_map. exists (ODone n i' o'). split; [exact B|now left].
  - subst e. exfalso. cbn [app] in N. inversion_clear N as [|? ? N1 N2]. apply N1. apply in_flat_map. exists (ODone n i o). split; [exact A|now left].
  - apply IH; auto. destruct e; cbn [app] in N; auto. now inversion N.
Qed.

Lemma answered_in h n i o : In (ODone n i o) h -> from_host i = true -> In n (answered_requests h).
Proof. intros I F. unfold answered_requests. apply in_flat_map. exists (ODone n i o). split; [exact I|]. rewrite F. now left. Qed.

Lemma rest_answered E ps d : tlife E ps (TUp d) -> at_rest E d ->
  exists h turns, ohistory E h (Some []) (td_world d) /\ ostarts_of h = ps /\
  let log := sy_log (td_sys d) in let now := osince_start h in
  Forall (reason (written_of log) now) turns /\ NoDup (numbers_of turns) /\
  (forall n i, In (OBegin n i) now -> from_host i = true -> exists ch r, In (Answer n ch i r) turns) /\
  (host_waits d -> NoDup (submit_seqs log) -> reads_64 log -> forall ch, 0 < ch < 4294967296 ->
     packets_read ch log (sy_out (td_sys d)) = concat (map out_packets (filter (sent_on ch) turns))).
Proof.
  intros L R. destruct (rest_empty _ _ _ L R) as (Wt & O & T & Fl & P & RB & _).
  destruct (threads_deliver_all _ _ _ L) as (h & l & turns & H & St & Wl & Re & ND & Pm & _ & Rd).
  rewrite Wt in Wl. destruct l; [|discriminate Wl]. exists h, turns. split; [exact H|]. split; [exact St|]. cbv zeta.
  split; [exact Re|]. split; [exact ND|]. split.
  - intros n i B F. destruct (begun _ _ _ _ H [] eq_refl) as (_ & C). destruct (C n i B) as [(o & D)|(x & [] & _)].
    pose proof (answered_in _ _ _ _ D F) as A. apply (Permutation_in _ (Permutation_sym Pm)) in A.
    unfold numbers_of in A. apply in_flat_map in A as (t & A1 & A2). destruct t as [| | | |m ch j r]; [destruct A2..|destruct A2 as [->|[]]].
    rewrite Forall_forall in Re. destruct (Re _ A1) as (_ & D' & _).
    destruct (onumbers_inv _ _ _ _ H) as (N & _). cbn [map] in N. rewrite app_nil_r in N.
    destruct (done_once h n i o j (OBytes r) N) as (<- & _); [now apply since_incl|now apply since_incl|]. eauto.
  - intros HW N64 R64 ch Hc. destruct (Rd N64 R64 ch Hc) as (later & A & B).
    rewrite <- A. destruct RB as [RB|RB]; [|now elim HW]. rewrite (B O T RB Fl). now rewrite app_nil_r.
Qed.

Lemma rest_nothing E ps d : tlife E ps (TUp d) -> at_rest E d ->
  td_waits d = [] /\ td_out d = [] /\ td_turn d = None /\ in_flight (sy_in (td_sys d)) = [] /\ sy_pending (td_sys d) = None /\
  (cn_phase (sy_conn (td_sys d)) = Closed \/ concat (cn_stream (sy_conn (td_sys d))) = []) /\
  (forall i, (i < length (written_of (sy_log (td_sys d))))%nat -> In i (td_taken d)).
Proof.
  intros L R. destruct (rest_empty _ _ _ L R) as (A & B & C & D & F & _ & G & H).
  destruct (tlife_history _ _ _ L) as (h & lo & _ & _ & l & g & p & _ & K). pose proof (ti_wire _ _ _ _ _ K) as I.
  rewrite <- (wi_delegate _ I). auto 9.
Qed.
