(* The whole device: the USB/IP connection and the USB device (M_Usbip), the CTAPHID server
   (M_Hid) and the authenticators (M_Ctap, M_U2f) put together as virtual_fido.go and
   client_usbip.go do, and its life over any number of processes.
   Simplified: a CTAPHID message is handled in one step (its goroutine is not interleaved
   with those of other messages, M_HidConc and M_Race); writes to the connection succeed. *)
From Verif Require Import Base M_Usb M_ReqBuf M_Usbip M_Hid M_Crypto M_Cose M_State M_Client M_Ctap M_U2f M_History.

(* virtual_fido.go:16-19 Start and client_usbip.go:13-20 startClient: the CTAPHID server
   gets the two authenticators. *)
Definition device_apps (E : Env) : apps world :=
  mk_apps (fun w m => ctap_handle E m w) (fun w m => u2f_handle E m w).

(* de_taken: which of the messages in sy_delegate their goroutines have handled.
   de_queue: packets given to sendResponsePackets (ctap_hid/ctap_hid.go:42-52) and not yet to
   handleResponse (usb/usb_device.go:95). *)
Record dev := mk_dev {
  de_sys : sys; de_taken : list nat; de_srv : server; de_world : world; de_queue : list bytes }.

Definition dev_init (s : stream) (w : world) : dev := mk_dev (sys_init s) [] new_server w [].

Inductive dev_label :=
| DRead | DWrite | DRun (i : nat) | DTimeout (i : nat)   (* as in M_Usbip *)
| DHandle (i ka : nat)       (* the goroutine of the i-th OUT message; ka keepalives are sent *)
| DSend (choice : nat)       (* the next packet goes to handleResponse *)
| DLocal (i : input)         (* the program around the device calls the client *)
| DAccept (s : stream).      (* handle returned: the server accepts another connection *)

(* Dead: a goroutine panicked, which ends the process. *)
Inductive moved := Running (d : dev) | Dead (w : world).

Definition local_input (i : input) : bool :=
  match i with ICtap _ | IU2f _ => false | _ => true end.

Definition in_sys (d : dev) (l : sys_label) : option moved :=
  let! s := sys_step (de_sys d) l in
  Some (Running (mk_dev s (de_taken d) (de_srv d) (de_world d) (de_queue d))).

Definition dev_step (E : Env) (d : dev) (l : dev_label) : option moved :=
  match l with
  | DRead => in_sys d SRead
  | DWrite => in_sys d SWrite
  | DRun i => in_sys d (SRun i)
  | DTimeout i => in_sys d (STimeout i)
  | DHandle i ka =>
    if existsb (Nat.eqb i) (de_taken d) then None else
    let! m := nth_error (sy_delegate (de_sys d)) i in
    let o := hid_handle (device_apps E) (de_srv d) (de_world d) ka m in
    match o_res o with
    | Ok _ => Some (Running (mk_dev (de_sys d) (i :: de_taken d) (o_srv o) (o_app o)
                               (de_queue d ++ o_packets o)))
    | Panic => Some (Dead (o_app o))
    end
  | DSend choice =>
    (* under responsesLock: the callback of the previous packet has run *)
    match de_queue d with
    | [] => None
    | p :: rest =>
      if respond_idle (sy_in (de_sys d)) then
        let! s := sys_step (de_sys d) (SRespond choice p) in
        Some (Running (mk_dev s (de_taken d) (de_srv d) (de_world d) rest))
      else None
    end
  | DLocal i =>
    if local_input i then
      match handle E i (de_world d) with
      | (w, Ok _) => Some (Running (mk_dev (de_sys d) (de_taken d) (de_srv d) w (de_queue d)))
      | (w, Panic) => Some (Dead w)
      end
    else None
  | DAccept s =>
    (* usbip/usbip_server.go:29-46: only a connection in the control phase ends, the
       device is untouched by it; its input and output are those of the new one *)
    match cn_phase (sy_conn (de_sys d)) with
    | Closed =>
      Some (Running (mk_dev (mk_sys (mk_conn Control s) (sy_in (de_sys d)) (sy_subs (de_sys d)) None
                               (sy_delegate (de_sys d)) [] []) (de_taken d) (de_srv d) (de_world d) (de_queue d)))
    | _ => None
    end
  end.

Fixpoint dev_run (E : Env) (d : dev) (ls : list dev_label) : option moved :=
  match ls with
  | [] => Some (Running d)
  | l :: r => let! m := dev_step E d l in
              match m with Running d' => dev_run E d' r | Dead w => match r with [] => Some m | _ => None end end
  end.

(* What can be sent and typed: bytes. *)
Definition label_ok (l : dev_label) : Prop :=
  match l with
  | DAccept s => Forall wfb s
  | DLocal i => good_input i
  | _ => True
  end.

Inductive status := Down (w : world) | Up (d : dev).
Definition world_of (s : status) : world := match s with Down w => w | Up d => de_world d end.
Definition is_up (s : status) : bool := match s with Down _ => false | Up _ => true end.
Definition world_after (m : moved) : world := match m with Running d => de_world d | Dead w => w end.

(* The life of a device; [ps] are the parameters its processes were started with.  A process
   can be killed at any moment, also between two effects of a step. *)
Inductive life (E : Env) : list params -> status -> Prop :=
| L_new c t : life E [] (Down {| w_client := c; w_tick := t; w_trace := [] |})
| L_start ps w p w' s : life E ps (Down w) -> Forall wfb s ->
    start E p (saved_in (w_trace w)) w = (w', Ok tt) -> life E (ps ++ [p]) (Up (dev_init s w'))
| L_start_failed ps w p w' : life E ps (Down w) ->
    start E p (saved_in (w_trace w)) w = (w', Panic) -> life E (ps ++ [p]) (Down w')
| L_step ps d l d' : life E ps (Up d) -> label_ok l -> dev_step E d l = Some (Running d') -> life E ps (Up d')
| L_panic ps d l w : life E ps (Up d) -> label_ok l -> dev_step E d l = Some (Dead w) -> life E ps (Down w)
| L_kill ps d l m es rest : life E ps (Up d) -> label_ok l -> dev_step E d l = Some m ->
    w_trace (world_after m) = w_trace (de_world d) ++ es ++ rest ->
    life E ps (Down {| w_client := w_client (world_after m); w_tick := w_tick (world_after m);
                       w_trace := w_trace (de_world d) ++ es |}).

(* The messages handled by a run and the number of keepalives sent for each. *)
Definition handled_of (ls : list dev_label) : list nat :=
  flat_map (fun l => match l with DHandle i _ => [i] | _ => [] end) ls.
Definition keepalives_of (ls : list dev_label) : list nat :=
  flat_map (fun l => match l with DHandle _ ka => [ka] | _ => [] end) ls.
Definition no_local (l : dev_label) : Prop := match l with DLocal _ => False | _ => True end.
