(* C158: what the goroutines of a CBOR request may do, stated over the labels and the fields that say
   where each goroutine is. *)
From Verif Require Import Base M_Hid M_HidConc.

(* Nothing can move any more. *)
Definition tick_quiet (s : tick_state) : Prop := forall l, tick_step s l = None.

(* Every goroutine has returned: the loop, every wait() and the handler. *)
Definition tick_gone (s : tick_state) : Prop :=
  tk_main s = Exited /\ tk_sleeping s = 0%nat /\ tk_sending s = 0%nat /\ tk_handler s = HAnswered.

(* How many goroutines there are beside the handler. *)
Definition tick_goroutines (s : tick_state) : nat :=
  (match tk_main s with Exited => 0 | _ => 1 end + tk_sleeping s + tk_sending s)%nat.

Fixpoint wakes (ls : list tick_label) : nat :=
  match ls with [] => 0 | TWake :: r => S (wakes r) | _ :: r => wakes r end%nat.

Fixpoint keepalives (e : list tick_event) : nat :=
  match e with [] => 0 | EvKeepalive :: r => S (keepalives r) | EvResponse :: r => keepalives r end%nat.

Fixpoint responses (e : list tick_event) : nat :=
  match e with [] => 0 | EvResponse :: r => S (responses r) | EvKeepalive :: r => responses r end%nat.

(* The claim one would want of the end: once the handler has answered, the loop moves at most as long
   as what was on its way when stop was sent, that is through at most one more expiration. *)
Definition C158_prompt : Prop :=
  forall ls1 ls2 s1 s2, tick_run tick_init ls1 = Some s1 -> tk_handler s1 = HAnswered ->
    tick_run s1 ls2 = Some s2 -> (wakes ls2 <= 1)%nat.
