(* Concurrency around package ctap_hid: the response lock, the goroutine per
   packet, and the keepalive ticker.  Each is a transition system; a schedule is
   a list of labels, and a label that is not enabled makes the run undefined. *)
From Verif Require Import Base M_Util M_Hid.

(* ------------------------------------------------------------------ *)
(* ctap_hid/ctap_hid.go:42-52, sendResponsePackets under responsesLock.
   A sender is a goroutine inside sendResponsePackets: it waits for the lock,
   hands its packets to the response handler one by one, and unlocks.  Any number
   of senders may arrive at any time. *)
Inductive sender_status := Waiting | Holding | Finished.

Record sender := mk_sender {
  sn_all : list bytes;       (* its packets *)
  sn_left : list bytes;      (* those not yet handed over *)
  sn_status : sender_status
}.

Record lock_state := mk_lock {
  lk_holder : option nat;
  lk_senders : list sender;
  lk_out : list bytes        (* what the response handler has received *)
}.

Inductive lock_label :=
| LArrive (packets : list bytes)
| LAcquire (t : nat)
| LEmit (t : nat)
| LRelease (t : nat).

Fixpoint list_set {A} (n : nat) (x : A) (l : list A) : list A :=
  match l, n with
  | [], _ => []
  | _ :: r, O => x :: r
  | y :: r, S n' => y :: list_set n' x r
  end.

Definition lock_step (s : lock_state) (l : lock_label) : option lock_state :=
  match l with
  | LArrive ps =>
    Some (mk_lock (lk_holder s) (lk_senders s ++ [mk_sender ps ps Waiting]) (lk_out s))
  | LAcquire t =>
    match lk_holder s, nth_error (lk_senders s) t with
    | None, Some (mk_sender all lft Waiting) =>
      Some (mk_lock (Some t) (list_set t (mk_sender all lft Holding) (lk_senders s)) (lk_out s))
    | _, _ => None
    end
  | LEmit t =>
    match nth_error (lk_senders s) t with
    | Some (mk_sender all (p :: lft) Holding) =>
      Some (mk_lock (lk_holder s) (list_set t (mk_sender all lft Holding) (lk_senders s))
              (lk_out s ++ [p]))
    | _ => None
    end
  | LRelease t =>
    match nth_error (lk_senders s) t with
    | Some (mk_sender all [] Holding) =>
      Some (mk_lock None (list_set t (mk_sender all [] Finished) (lk_senders s)) (lk_out s))
    | _ => None
    end
  end.

Fixpoint lock_run (s : lock_state) (ls : list lock_label) : option lock_state :=
  match ls with
  | [] => Some s
  | l :: r => match lock_step s l with Some s' => lock_run s' r | None => None end
  end.

Definition lock_init : lock_state := mk_lock None [] [].

(* ------------------------------------------------------------------ *)
(* usb/usb_device.go:86-89: every packet written to the OUT endpoint is handled
   by a goroutine of its own (go delegate.HandleMessage).  The schedule picks,
   among the packets written and not yet handled, which goroutine runs next.
   Simplification: HandleMessage is atomic (per channel it is, by messageLock). *)
Fixpoint remove_nth {A} (n : nat) (l : list A) : list A :=
  match l, n with
  | [], _ => []
  | _ :: r, O => r
  | x :: r, S n' => x :: remove_nth n' r
  end.

Fixpoint sched_order {A} (pending : list A) (choices : list nat) : list A :=
  match choices with
  | [] => []
  | c :: r =>
    match nth_error pending c with
    | Some m => m :: sched_order (remove_nth c pending) r
    | None => []
    end
  end.

Definition sched_run {A} (h : apps A) (s : server) (a : A) (pending : list (nat * bytes))
  (choices : list nat) : outcome A :=
  hid_run h s a (sched_order pending choices).

(* ------------------------------------------------------------------ *)
(* util/util.go:131-150, StartRecurringFunction, with the handler that started it
   (ctap_hid/channel.go:92-97).  Both channels are buffered with capacity 1. *)
Inductive main_pc := AtSelect | InFunction | Exited.
Inductive handler_pc := HRunning | HStopped | HAnswered.
Inductive tick_event := EvKeepalive | EvResponse.

Record tick_state := mk_tick {
  tk_main : main_pc;
  tk_sleeping : nat;     (* wait() goroutines in time.Sleep *)
  tk_sending : nat;      (* wait() goroutines at trigger <- nil *)
  tk_trigger : bool;     (* trigger buffer is full *)
  tk_stop : bool;        (* stopSignal buffer is full *)
  tk_handler : handler_pc;
  tk_trace : list tick_event
}.

Inductive tick_label :=
| TWake          (* a sleeper's 50 ms are over *)
| TSend          (* trigger <- nil succeeds *)
| TSelTrigger    (* select takes <-trigger *)
| TFunction      (* f() sends the keepalive; loop around: go wait(); select *)
| TSelStop       (* select takes <-stopSignal: return *)
| THandlerDone   (* the command handler returns; stop <- 0 *)
| TRespond.      (* sendResponse *)

Definition tick_step (s : tick_state) (l : tick_label) : option tick_state :=
  match s with
  | mk_tick m sl sd tr st h e =>
    match l with
    | TWake => match sl with S k => Some (mk_tick m k (S sd) tr st h e) | O => None end
    | TSend => match sd, tr with
               | S k, false => Some (mk_tick m sl k true st h e)
               | _, _ => None
               end
    | TSelTrigger => match m, tr with
                     | AtSelect, true => Some (mk_tick InFunction sl sd false st h e)
                     | _, _ => None
                     end
    | TFunction => match m with
                   | InFunction => Some (mk_tick AtSelect (S sl) sd tr st h (e ++ [EvKeepalive]))
                   | _ => None
                   end
    | TSelStop => match m, st with
                  | AtSelect, true => Some (mk_tick Exited sl sd tr false h e)
                  | _, _ => None
                  end
    | THandlerDone => match h, st with
                      | HRunning, false => Some (mk_tick m sl sd tr true HStopped e)
                      | _, _ => None
                      end
    | TRespond => match h with
                  | HStopped => Some (mk_tick m sl sd tr st HAnswered (e ++ [EvResponse]))
                  | _ => None
                  end
    end
  end.

Fixpoint tick_run (s : tick_state) (ls : list tick_label) : option tick_state :=
  match ls with
  | [] => Some s
  | l :: r => match tick_step s l with Some s' => tick_run s' r | None => None end
  end.

(* The first iteration has spawned one waiter and is at the select. *)
Definition tick_init : tick_state := mk_tick AtSelect 1 0 false false HRunning [].
