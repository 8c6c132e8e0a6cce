(* Property C128: goroutines that share the map of channels. *)
From Verif Require Import Base M_Util M_Hid M_Threads M_MapRace S_MapRace P_MapRace.
From Coq Require Import Lia.

(* ---- a schedule used in the examples: two INITs, of which the second waits for the first, and a
   packet for a channel that does not exist, which is looked up before the first write. *)
Definition nonceA : bytes := [1; 2; 3; 4; 5; 6; 7; 8].
Definition nonceB : bytes := [9; 2; 3; 4; 5; 6; 7; 8].
Definition strayM : bytes := [9; 0; 0; 0; 0x81; 0; 0].
Definition sched1 : list mlabel :=
  [MNew (an_init nonceA); MNew (an_init nonceB); MNew strayM; MLookB 1; MLookB 2; MLookB 0; MLookE 0; MLookE 1; MLock 1].
Definition sched2 : list mlabel := [MLookE 2; MWriteB 1; MWriteE 1; MDone 1; MLock 0; MWriteB 0].
Definition sched3 : list mlabel := [MWriteE 0; MDone 0].
Definition mstate_of (ls : list mlabel) : mstate := match ms_run ms_init ls with Some (MRun s) => s | _ => ms_init end.

(* ---- what one would like: nobody uses the map during a write *)
Definition C128_full : Prop := forall ls r, ms_run ms_init ls = Some r -> undisturbed r.

(* From every state in which nothing is going on an INIT and any other message of four bytes or
   more can be scheduled so that the runtime ends the process. *)
Theorem C128_race : forall ls s nonce m, ms_run ms_init ls = Some (MRun s) -> quiet s -> length nonce = 8%nat -> 4 <= len m ->
  exists ls', ms_run s (MNew (an_init nonce) :: MNew m :: ls') = Some MFatal.
Proof.
  intros ls s nonce m R Q L Lm. pose proof (race s nonce m (run_good ls ms_init s good_init R) Q L Lm) as H.
  unfold race_labels in H. eexists. exact H.
Qed.
Theorem C128_race_refuted : ~ C128_full.
Proof.
  intro F. destruct (C128_race [] ms_init nonceA strayM eq_refl) as (ls & H).
  - split; [|reflexivity]. intros k B. inversion B.
  - reflexivity.
  - vm_compute. discriminate.
  - exact (F _ _ H).
Qed.
(* after the three messages of the schedule have been handled the state is quiet again *)
Example C128_race_case : let ls := sched1 ++ sched2 ++ sched3 ++ [MDone 2] in
  ms_run ms_init ls = Some (MRun (mstate_of ls)) /\ quiet (mstate_of ls) /\ srv_max (ms_srv (mstate_of ls)) = 2 /\
  ms_run (mstate_of ls) [MNew (an_init nonceA); MNew [1; 0; 0; 0]; MLookB 3; MLookE 3; MLock 3; MWriteB 3; MLookB 4] = Some MFatal.
Proof.
  cbv zeta. split; [vm_compute; reflexivity|]. split; [|split; vm_compute; reflexivity]. split; [|vm_compute; reflexivity].
  intros k B. change (k < 3)%nat in B. destruct k as [|[|[|k]]]; [vm_compute; reflexivity..|lia].
Qed.

(* Two writes never overlap: both are under messageLock of the broadcast channel. *)
Theorem C128_one_writer : forall ls s, ms_run ms_init ls = Some (MRun s) ->
  (forall i j, writing s i -> writing s j -> i = j) /\ (forall k, ms_step s (MWriteB k) <> Some MFatal).
Proof.
  intros ls s R. pose proof (run_good ls ms_init s good_init R) as G. split.
  - intros i j (c & X) (d & Y). apply (one_writer s i j c d G X). auto.
  - intro k. now apply write_safe.
Qed.
(* one INIT writes, the other waits for the lock *)
Example C128_one_writer_case : let s := mstate_of (sched1 ++ [MWriteB 1]) in
  ms_run ms_init (sched1 ++ [MWriteB 1]) = Some (MRun s) /\ writing s 1 /\ pc_of s 0 = Some (PAtLock hid_broadcast) /\ ms_step s (MLock 0) = None.
Proof. cbv zeta. split; [vm_compute; reflexivity|]. split; [exists hid_broadcast; vm_compute; reflexivity|]. split; vm_compute; reflexivity. Qed.

(* However the goroutines are scheduled, what they have done to the server and go on to do is what
   the messages do one after another, in the order of the log; a message is in the log once, and no
   message is handled without being in it. *)
Theorem C128_linear : forall ls s, ms_run ms_init ls = Some (MRun s) ->
  one_by_one new_server (map (fun k => nth k (map g_msg (ms_gs s)) []) (map fst (ms_log s))) = (map snd (ms_log s), ms_srv s) /\
  NoDup (map fst (ms_log s)) /\
  (forall k, In k (map fst (ms_log s)) <-> over s k \/ exists lock, pc_of s k = Some (PBusy lock)).
Proof.
  intros ls s R. pose proof (run_good ls ms_init s good_init R) as G. split; [apply (go_seq _ G)|]. split; [apply (go_nodup _ G)|].
  intro k. rewrite (log_member s k G). unfold over. split.
  - intros ([] & X & E); try discriminate E; eauto.
  - intros [X|(lock & X)]; rewrite X; eexists; split; reflexivity.
Qed.
(* the second INIT comes first and gets channel 1 *)
Example C128_linear_case : let s := mstate_of (sched1 ++ sched2 ++ sched3) in
  ms_run ms_init (sched1 ++ sched2 ++ sched3) = Some (MRun s) /\ map fst (ms_log s) = [2; 1; 0]%nat /\ srv_max (ms_srv s) = 2 /\
  match ms_log s with [(_, FSend None _ _); (_, FSend (Some c) s1 _); (_, FSend (Some d) s2 _)] => srv_max s1 = 1 /\ srv_max s2 = 2 | _ => False end.
Proof. vm_compute. repeat split. Qed.

(* The order respects time: what has ended comes before what has not begun. *)
Theorem C128_order : forall ls s ls' s', ms_run ms_init ls = Some (MRun s) -> ms_run s ls' = Some (MRun s') ->
  exists later, ms_log s' = ms_log s ++ later /\
    (forall k, over s k -> In k (map fst (ms_log s))) /\
    (forall k, (length (ms_gs s) <= k)%nat -> ~ In k (map fst (ms_log s))).
Proof.
  intros ls s ls' s' R R'. pose proof (run_good ls ms_init s good_init R) as G. destruct (run_log ls' s s' R') as ((x & X) & _).
  exists x. split; [exact X|]. split.
  - intros k O. apply (log_member s k G). exists PDone. auto.
  - intros k L I. apply (log_member s k G) in I. destruct I as (pc & P & _). unfold pc_of in P. apply nth_error_None in L. now rewrite L in P.
Qed.
Example C128_order_case : let s := mstate_of (sched1 ++ sched2) in let s' := mstate_of (sched1 ++ sched2 ++ sched3) in
  ms_run ms_init (sched1 ++ sched2) = Some (MRun s) /\ ms_run s sched3 = Some (MRun s') /\ over s 1 /\ length (ms_log s) = 2%nat /\ length (ms_log s') = 3%nat.
Proof. cbv zeta. repeat split; vm_compute; reflexivity. Qed.

(* The same for panics: a goroutine panics where the message, handled next, would. *)
Theorem C128_panic : forall ls, ms_run ms_init ls = Some MDead -> exists ls' s k m, ms_run ms_init ls' = Some (MRun s) /\
  nth_error (map g_msg (ms_gs s)) k = Some m /\ ~ In k (map fst (ms_log s)) /\
  hid_front (snd (one_by_one new_server (map (fun k => nth k (map g_msg (ms_gs s)) []) (map fst (ms_log s))))) m = FPanic.
Proof.
  intros ls R. destruct (run_dead ls ms_init good_init R) as (a & l & s & -> & Ra & S). pose proof (run_good a ms_init s good_init Ra) as G.
  destruct (dead_step s l G S) as (k & m & N & I & F). exists a, s, k, m. split; [assumption|]. split; [assumption|]. split; [assumption|].
  now rewrite (go_seq _ G).
Qed.
(* a broadcast message that is neither INIT nor PING, after the INITs *)
Example C128_panic_case : ms_run ms_init (sched1 ++ sched2 ++ sched3 ++ [MNew [255; 255; 255; 255; 0x90; 0; 0]; MLookB 3; MLookE 3; MLock 3]) = Some MDead.
Proof. vm_compute. reflexivity. Qed.

(* If the host starts nothing while a broadcast message is handled, and no broadcast message
   while an earlier packet is looked up, nobody uses the map during a write.  What is missing is
   that hosts need not behave so. *)
Theorem C128_patient_partial : forall ls r, patient ms_init ls -> ms_run ms_init ls = Some r -> undisturbed r.
Proof. intros ls r P R. exact (patient_undisturbed ls ms_init r good_init calm_init P R). Qed.
(* an INIT from beginning to end, then two messages on the new channel at the same time *)
Definition polite : list mlabel :=
  [MNew (an_init nonceA); MLookB 0; MLookE 0; MLock 0; MWriteB 0; MWriteE 0; MDone 0;
   MNew [1; 0; 0; 0; 0x81; 0; 0]; MNew [1; 0; 0; 0; 0x81; 0; 0]; MLookB 1; MLookB 2; MLookE 2; MLock 2; MLookE 1].
Definition starts (l : mlabel) : bool := match l with MNew _ => true | _ => false end.
Lemma patient_run a : forall s b s', existsb starts a = false -> ms_run s a = Some (MRun s') -> patient s' b -> patient s (a ++ b).
Proof.
  induction a as [|l a IH]; intros s b s' N R P; cbn [existsb ms_run app patient] in *; [now injection R as <-|].
  apply Bool.orb_false_iff in N. destruct N as (N1 & N2). destruct (ms_step s l) as [[s1| |]|]; [|destruct a; discriminate..|discriminate].
  split; [now destruct l|eauto].
Qed.
Lemma patient_new s m b : patient_in s (MNew m) ->
  patient (mk_ms (ms_srv s) (ms_writing s) (ms_gs s ++ [mk_gor m PStart]) (ms_log s)) b -> patient s (MNew m :: b).
Proof. intros P Q. split; [exact P|exact Q]. Qed.
Example C128_patient_case : patient ms_init polite /\ ms_run ms_init polite = Some (MRun (mstate_of polite)) /\
  ms_step (mstate_of polite) (MLock 1) = None /\ ms_step (mstate_of polite) (MDone 2) <> None.
Proof.
  split; [|split; [vm_compute; reflexivity|split; [vm_compute; reflexivity|vm_compute; discriminate]]].
  apply patient_new.
  { split; [intros [|k] g N; discriminate|]. intros _ k B. inversion B. }
  refine (patient_run [MLookB 0; MLookE 0; MLock 0; MWriteB 0; MWriteE 0; MDone 0] _ _ _ eq_refl _ _); [vm_compute; reflexivity|].
  apply patient_new.
  { split; [|intros (r & H); vm_compute in H; discriminate]. intros [|[|k]] g N B; [reflexivity|discriminate..]. }
  apply patient_new.
  { split; [|intros (r & H); vm_compute in H; discriminate]. intros [|[|[|k]]] g N B; [reflexivity| |discriminate..].
    cbn in N. injection N as <-. destruct B as (r & H). vm_compute in H. discriminate. }
  refine (patient_run [MLookB 1; MLookB 2; MLookE 2; MLock 2; MLookE 1] _ [] _ eq_refl _ Logic.I). vm_compute. reflexivity.
Qed.

Print Assumptions C128_race.
Print Assumptions C128_race_refuted.
Print Assumptions C128_one_writer.
Print Assumptions C128_linear.
Print Assumptions C128_order.
Print Assumptions C128_panic.
Print Assumptions C128_patient_partial.
