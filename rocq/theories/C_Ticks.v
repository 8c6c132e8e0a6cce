(* The goroutines that send keepalives for a CBOR request (C158). *)
From Verif Require Import Base M_Hid M_HidConc S_Ticks P_Ticks.

(* ------------------------------------------------- C158 *)
(* In every schedule: at most two goroutines, a waiter never blocks at the trigger, the handler
   never blocks at stop, one keepalive at most for each expiration, one answer, and no more moves
   than expirations account for: the loop never spins. *)
Theorem C158_goroutines : forall ls s, tick_run tick_init ls = Some s ->
  (tick_goroutines s <= 2)%nat /\
  ((0 < tk_sending s)%nat -> exists s', tick_step s TSend = Some s') /\
  (tk_handler s = HRunning -> exists s', tick_step s THandlerDone = Some s') /\
  (keepalives (tk_trace s) <= wakes ls)%nat /\ (responses (tk_trace s) <= 1)%nat /\
  (length ls <= 3 + 4 * wakes ls)%nat.
Proof. exact ticks_hold. Qed.
Print Assumptions C158_goroutines.

(* When nothing can move, every goroutine has returned and the request has been answered: none is
   stuck at a channel. *)
Theorem C158_rest : forall ls s, tick_run tick_init ls = Some s -> tick_quiet s ->
  tick_gone s /\ responses (tk_trace s) = 1%nat.
Proof. exact ticks_rest. Qed.
Print Assumptions C158_rest.

(* And from wherever it is, that is six moves away, with at most one expiration. *)
Theorem C158_end_partial : forall ls s, tick_run tick_init ls = Some s ->
  exists ls' s', tick_run s ls' = Some s' /\ (length ls' <= 6)%nat /\ (wakes ls' <= 1)%nat /\ tick_gone s'.
Proof. exact ticks_end. Qed.
Print Assumptions C158_end_partial.

(* That the loop ends promptly in every schedule (C158_prompt) is false: select may pass over stop
   at any number of expirations. *)
Theorem C158_prompt_refuted : (forall n, exists ls1 ls2 s1 s2, tick_run tick_init ls1 = Some s1 /\
  tk_handler s1 = HAnswered /\ tick_run s1 ls2 = Some s2 /\ wakes ls2 = n) /\ ~ C158_prompt.
Proof.
  split; [exact ticks_prompt_refuted|]. intros H.
  destruct (ticks_prompt_refuted 2) as [ls1 [ls2 [s1 [s2 [R1 [A [R2 W]]]]]]].
  specialize (H ls1 ls2 s1 s2 R1 A R2). rewrite W in H. inversion H as [|? H1]; inversion H1.
Qed.
Print Assumptions C158_prompt_refuted.

(* Two keepalives, then the answer while a third expiration is under way. *)
Definition two_laps : list tick_label :=
  [TWake; TSend; TSelTrigger; TFunction; TWake; TSend; TSelTrigger; THandlerDone; TFunction; TWake; TRespond].

Example C158_ex_run : exists s, tick_run tick_init two_laps = Some s /\
  tk_trace s = [EvKeepalive; EvKeepalive; EvResponse] /\ tick_goroutines s = 2%nat /\ tk_sending s = 1%nat.
Proof. eexists. repeat split. Qed.

Example C158_ex_rest : exists s, tick_run tick_init (two_laps ++ [TSelStop; TSend]) = Some s /\ tick_quiet s /\
  tk_trace s = [EvKeepalive; EvKeepalive; EvResponse].
Proof. eexists. split; [reflexivity|]. split; [|reflexivity]. intros l; destruct l; reflexivity. Qed.

(* While the command is being processed the handler is running. *)
Example C158_ex_running : exists s, tick_run tick_init (firstn 7 two_laps) = Some s /\ tk_handler s = HRunning /\ tk_main s = InFunction.
Proof. eexists. repeat split. Qed.
