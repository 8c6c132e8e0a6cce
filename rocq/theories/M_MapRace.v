(* The goroutines of package ctap_hid and their use of the map of channels
   (ctap_hid/ctap_hid.go:54-70), which has no lock of its own.  Every OUT packet is handled by a
   goroutine (usb/usb_device.go:88), which looks its channel up, waits for messageLock of the
   channel (ctap_hid/channel.go:27), and goes on as in M_Threads.hid_front; an INIT writes the map.
   A lookup and a write take time, and the Go runtime (runtime/map.go, mapaccess2 and mapassign:
   the flag hashWriting) ends the process, whatever recovers, when one begins during a write.
   Simplified: only the runtime's check is modelled, not what a lookup returns that began before
   a write and ends during it (it returns the entry as it was before the write). *)
From Verif Require Import Base M_Util M_Hid M_Threads.

Inductive mpc :=
| PStart                 (* not yet at ctap_hid.go:57 *)
| PReading               (* in server.channels[channelId] *)
| PAtLock (ch : N)       (* waits for messageLock, channel.go:27 *)
| PReady (ch : N)        (* has it and is about to write the map, ctap_hid.go:68 *)
| PWriting (ch : N)      (* in server.channels[..] = channel *)
| PBusy (lock : option N) (* calls an authenticator or sends; the lock it has *)
| PDone.

Record gor := mk_gor { g_msg : bytes; g_pc : mpc }.

(* ms_log: for each message whose effect on the server is done, the goroutine and what it does
   next, in the order of these effects. *)
Record mstate := mk_ms { ms_srv : server; ms_writing : bool; ms_gs : list gor; ms_log : list (nat * front) }.

Definition ms_init : mstate := mk_ms new_server false [] [].

Inductive mlabel :=
| MNew (m : bytes)       (* go delegate.HandleMessage(m) *)
| MLookB (k : nat) | MLookE (k : nat) | MLock (k : nat) | MWriteB (k : nat) | MWriteE (k : nat) | MDone (k : nat).

(* Running, ended by the runtime's check, or ended by a panic. *)
Inductive mmoved := MRun (s : mstate) | MFatal | MDead.

Definition has (ch : N) (g : gor) : bool :=
  match g_pc g with PReady c | PWriting c | PBusy (Some c) => c =? ch | _ => false end.

Fixpoint set_gor (l : list gor) (k : nat) (pc : mpc) : list gor :=
  match l, k with
  | [], _ => []
  | g :: r, O => mk_gor (g_msg g) pc :: r
  | g :: r, S k => g :: set_gor r k pc
  end.

Definition after (s : server) (f : front) : server :=
  match f with FKeep s' | FSend _ s' _ | FCall _ s' _ _ _ => s' | FPanic => s end.

(* newChannel is called: maxChannelID changes. *)
Definition allocates (s : server) (m : bytes) : bool := negb (srv_max (after s (hid_front s m)) =? srv_max s).

Definition goto (s : mstate) (k : nat) (pc : mpc) : mmoved :=
  MRun (mk_ms (ms_srv s) (ms_writing s) (set_gor (ms_gs s) k pc) (ms_log s)).

(* The effect of the message on the server, and what follows. *)
Definition commit (s : mstate) (k : nat) (m : bytes) : mmoved :=
  let f := hid_front (ms_srv s) m in
  match f with
  | FPanic => MDead
  | _ =>
    let pc := match f with FKeep _ => PDone | FSend lock _ _ => PBusy lock | FCall ch _ _ _ _ => PBusy (Some ch) | FPanic => PDone end in
    MRun (mk_ms (after (ms_srv s) f) false (set_gor (ms_gs s) k pc) (ms_log s ++ [(k, f)]))
  end.

Definition ms_step (s : mstate) (l : mlabel) : option mmoved :=
  match l with
  | MNew m => Some (MRun (mk_ms (ms_srv s) (ms_writing s) (ms_gs s ++ [mk_gor m PStart]) (ms_log s)))
  | MLookB k =>
    match nth_error (ms_gs s) k with
    | Some (mk_gor m PStart) =>
      match read_le 4 m with
      | Panic => Some MDead
      | Ok _ => if ms_writing s then Some MFatal else Some (goto s k PReading)
      end
    | _ => None
    end
  | MLookE k =>
    match nth_error (ms_gs s) k with
    | Some (mk_gor m PReading) =>
      match read_le 4 m with
      | Panic => None
      | Ok (ch, _) =>
        match chan_lookup ch (srv_channels (ms_srv s)) with
        | None =>
          (* ctap_hid.go:58-61 *)
          Some (MRun (mk_ms (ms_srv s) (ms_writing s) (set_gor (ms_gs s) k (PBusy None))
                       (ms_log s ++ [(k, hid_front (ms_srv s) m)])))
        | Some _ => Some (goto s k (PAtLock ch))
        end
      end
    | _ => None
    end
  | MLock k =>
    match nth_error (ms_gs s) k with
    | Some (mk_gor m (PAtLock ch)) =>
      if existsb (has ch) (ms_gs s) then None
      else if allocates (ms_srv s) m then Some (goto s k (PReady ch))
      else match commit s k m with
           | MRun s' => Some (MRun (mk_ms (ms_srv s') (ms_writing s) (ms_gs s') (ms_log s')))
           | r => Some r
           end
    | _ => None
    end
  | MWriteB k =>
    match nth_error (ms_gs s) k with
    | Some (mk_gor m (PReady ch)) =>
      if ms_writing s then Some MFatal
      else Some (MRun (mk_ms (ms_srv s) true (set_gor (ms_gs s) k (PWriting ch)) (ms_log s)))
    | _ => None
    end
  | MWriteE k =>
    match nth_error (ms_gs s) k with
    | Some (mk_gor m (PWriting ch)) => Some (commit s k m)
    | _ => None
    end
  | MDone k =>
    match nth_error (ms_gs s) k with
    | Some (mk_gor m (PBusy _)) => Some (goto s k PDone)
    | _ => None
    end
  end.

Fixpoint ms_run (s : mstate) (ls : list mlabel) : option mmoved :=
  match ls with
  | [] => Some (MRun s)
  | l :: r =>
    match ms_step s l with
    | Some (MRun s') => ms_run s' r
    | Some x => match r with [] => Some x | _ => None end
    | None => None
    end
  end.
