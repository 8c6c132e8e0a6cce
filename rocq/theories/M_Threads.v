(* The whole device as in M_Device, but with its goroutines: one for every OUT packet
   (usb/usb_device.go:88), which may wait for its channel (ctap_hid/channel.go:27), for the user
   (fido_client/fido_client.go:121-134, 209-217) or for its turn to send
   (ctap_hid/ctap_hid.go:42-52), and the keepalive tickers (ctap_hid/channel.go:92).
   Simplified: what a goroutine does between two such points is one step; a ticker may send at
   any moment after it was started (C14 says when it stops); writes to the connection succeed;
   the Go runtime's own check for concurrent use of the map of channels is in M_MapRace only. *)
From Verif Require Import Base M_Util M_Usb M_ReqBuf M_Usbip M_Hid M_HidConc M_Crypto M_Cose M_State M_Client M_Ctap M_U2f M_History
  M_Overlap M_Device.

(* ---- ctap_hid/ctap_hid.go:54-63 HandleMessage and ctap_hid/channel.go:26-103 up to the call of
   an authenticator, or up to the packets to send, or to the end. *)
Inductive front :=
| FKeep (s : server)                                              (* nothing to send *)
| FSend (lock : option N) (s : server) (packets : list bytes)     (* sendResponse or sendError, and the end *)
| FCall (ch : N) (s : server) (ctap : bool) (reply : N) (m : bytes)
| FPanic.

(* ctap_hid/channel.go:44-103.  In FCall the server is the one after channel.go:40, as the
   transaction of a locked channel is not looked at. *)
Definition front_finalized (s : server) (ch : N) (r : tresult) : front :=
  if ch =? hid_broadcast then
    let o := handle_broadcast s tt r in
    match o_res o with
    | Ok _ => FSend (Some ch) (srv_set (o_srv o) ch None) (o_packets o)
    | Panic => FPanic
    end
  else if tr_cmd r =? cmd_msg then FCall ch (srv_set s ch None) false (tr_chan r) (tr_payload r)
  else if tr_cmd r =? cmd_cbor then FCall ch (srv_set s ch None) true (tr_chan r) (tr_payload r)
  else if tr_cmd r =? cmd_ping then
    FSend (Some ch) (srv_set s ch None) (create_response_packets (tr_chan r) cmd_ping (tr_payload r))
  else FPanic.

Definition hid_front (s : server) (message : bytes) : front :=
  match read_le 4 message with
  | Panic => FPanic
  | Ok (ch, _) =>
    match chan_lookup ch (srv_channels s) with
    | None => FSend None s (hid_error ch err_invalid_channel)
    | Some cur =>
      match (match cur with None => new_transaction message | Some t => add_message t message end) with
      | Panic => FPanic
      | Ok t =>
        if t_done t then
          if negb (t_error t =? 0) then FSend (Some ch) (srv_set s ch None) (hid_error ch (t_error t))
          else if t_cancelled t then FKeep (srv_set s ch None)
          else match t_result t with
               | Some r => front_finalized s ch r
               | None => FPanic
               end
        else FKeep (srv_set s ch (Some t))
      end
    end
  end.

(* A goroutine that waits for the user: the channel it has locked, the one it will reply to,
   the request and its local variables. *)
Record thread := mk_thread { th_ch : N; th_reply : N; th_input : input; th_state : pending }.

(* A goroutine that waits for responsesLock or holds it: its channel, if it has locked one, and
   the packets it still has to send. *)
Record group := mk_group { gr_lock : option N; gr_packets : list bytes }.

(* td_out: those that wait for responsesLock; td_turn: the one that has it;
   td_tickers: the channels of the keepalive tickers started. *)
Record tdev := mk_tdev {
  td_sys : sys; td_taken : list nat; td_srv : server; td_world : world;
  td_waits : list thread; td_out : list group; td_turn : option group; td_tickers : list N }.

Definition tdev_init (s : stream) (w : world) : tdev := mk_tdev (sys_init s) [] new_server w [] [] None [].

Inductive tlabel :=
| TRead | TWrite | TRun (i : nat) | TTimeout (i : nat)   (* as in M_Usbip *)
| THandle (i : nat)          (* the goroutine of the i-th OUT message starts *)
| TAnswer (k : nat)          (* the user answers the k-th waiting request *)
| TTick (k : nat)            (* a ticker sends a keepalive *)
| TGrab (k : nat)            (* a goroutine gets responsesLock *)
| TPut (choice : nat)        (* it gives a packet to handleResponse *)
| TLocal (i : input)         (* the program around the device calls the client *)
| TAccept (s : stream).      (* handle returned: the server accepts another connection *)

Inductive tmoved := TRunning (d : tdev) | TDead (w : world).

(* messageLock of channel [ch] is taken (ctap_hid/channel.go:27-28) *)
Definition has_lock (ch : N) (g : group) : bool :=
  match gr_lock g with Some c => c =? ch | None => false end.
Definition locked (d : tdev) (ch : N) : bool :=
  existsb (fun x => th_ch x =? ch) (td_waits d) || existsb (has_lock ch) (td_out d) ||
  match td_turn d with Some g => has_lock ch g | None => false end.
Definition blocked (d : tdev) (m : bytes) : bool :=
  match read_le 4 m with Ok (ch, _) => locked d ch | Panic => false end.

Definition refresh_threads (w : world) (l : list thread) : list thread :=
  map (fun x => mk_thread (th_ch x) (th_reply x) (th_input x) (refresh (cl_vault (w_client w)) (th_state x))) l.

Definition input_of (ctap : bool) (m : bytes) : input := if ctap then ICtap m else IU2f m.
Definition command_of (i : input) : N := match i with ICtap _ => cmd_cbor | _ => cmd_msg end.
Definition bytes_of (o : output) : bytes := match o with OBytes r => r | _ => [] end.

Definition in_tsys (d : tdev) (l : sys_label) : option tmoved :=
  let! s := sys_step (td_sys d) l in
  Some (TRunning (mk_tdev s (td_taken d) (td_srv d) (td_world d) (td_waits d) (td_out d) (td_turn d) (td_tickers d))).

Definition tdev_step (E : Env) (d : tdev) (l : tlabel) : option tmoved :=
  match l with
  | TRead => in_tsys d SRead
  | TWrite => in_tsys d SWrite
  | TRun i => in_tsys d (SRun i)
  | TTimeout i => in_tsys d (STimeout i)
  | THandle i =>
    if existsb (Nat.eqb i) (td_taken d) then None else
    let! m := nth_error (sy_delegate (td_sys d)) i in
    if blocked d m then None else
    match hid_front (td_srv d) m with
    | FPanic => Some (TDead (td_world d))
    | FKeep s =>
      Some (TRunning (mk_tdev (td_sys d) (i :: td_taken d) s (td_world d) (td_waits d) (td_out d) (td_turn d) (td_tickers d)))
    | FSend lock s ps =>
      Some (TRunning (mk_tdev (td_sys d) (i :: td_taken d) s (td_world d) (td_waits d)
                        (td_out d ++ [mk_group lock ps]) (td_turn d) (td_tickers d)))
    | FCall ch s ctap reply q =>
      (* ctap_hid/channel.go:88-97; the ticker is only started for CTAP *)
      let ticks := if ctap then td_tickers d ++ [ch] else td_tickers d in
      let inp := input_of ctap q in
      match begin E inp (td_world d) with
      | (w, Ok (inl o)) =>
        Some (TRunning (mk_tdev (td_sys d) (i :: td_taken d) s w (refresh_threads w (td_waits d))
          (td_out d ++ [mk_group (Some ch) (create_response_packets reply (command_of inp) (bytes_of o))])
          (td_turn d) ticks))
      | (w, Ok (inr p)) =>
        Some (TRunning (mk_tdev (td_sys d) (i :: td_taken d) s w
          (refresh_threads w (td_waits d) ++ [mk_thread ch reply inp p]) (td_out d) (td_turn d) ticks))
      | (w, Panic) => Some (TDead w)
      end
    end
  | TAnswer k =>
    let! x := nth_error (td_waits d) k in
    match resume E (th_state x) (td_world d) with
    | (w, Ok r) =>
      Some (TRunning (mk_tdev (td_sys d) (td_taken d) (td_srv d) w (refresh_threads w (remove_nth k (td_waits d)))
        (td_out d ++ [mk_group (Some (th_ch x)) (create_response_packets (th_reply x) (command_of (th_input x)) r)])
        (td_turn d) (td_tickers d)))
    | (w, Panic) => Some (TDead w)
    end
  | TTick k =>
    let! ch := nth_error (td_tickers d) k in
    Some (TRunning (mk_tdev (td_sys d) (td_taken d) (td_srv d) (td_world d) (td_waits d)
      (td_out d ++ [mk_group None (keepalive ch)]) (td_turn d) (td_tickers d)))
  | TGrab k =>
    match td_turn d with
    | Some _ => None
    | None =>
      let! g := nth_error (td_out d) k in
      Some (TRunning (mk_tdev (td_sys d) (td_taken d) (td_srv d) (td_world d) (td_waits d)
        (remove_nth k (td_out d)) (match gr_packets g with [] => None | _ => Some g end) (td_tickers d)))
    end
  | TPut choice =>
    match td_turn d with
    | Some (mk_group lock (p :: rest)) =>
      (* the callback of the previous packet has run *)
      if respond_idle (sy_in (td_sys d)) then
        let! s := sys_step (td_sys d) (SRespond choice p) in
        Some (TRunning (mk_tdev s (td_taken d) (td_srv d) (td_world d) (td_waits d) (td_out d)
          (match rest with [] => None | _ => Some (mk_group lock rest) end) (td_tickers d)))
      else None
    | _ => None
    end
  | TLocal i =>
    if local_input i then
      match handle E i (td_world d) with
      | (w, Ok _) => Some (TRunning (mk_tdev (td_sys d) (td_taken d) (td_srv d) w (refresh_threads w (td_waits d))
                                       (td_out d) (td_turn d) (td_tickers d)))
      | (w, Panic) => Some (TDead w)
      end
    else None
  | TAccept s =>
    match cn_phase (sy_conn (td_sys d)) with
    | Closed =>
      Some (TRunning (mk_tdev (mk_sys (mk_conn Control s) (sy_in (td_sys d)) (sy_subs (td_sys d)) None
                                 (sy_delegate (td_sys d)) [] []) (td_taken d) (td_srv d) (td_world d) (td_waits d)
                                 (td_out d) (td_turn d) (td_tickers d)))
    | _ => None
    end
  end.

Fixpoint tdev_run (E : Env) (d : tdev) (ls : list tlabel) : option tmoved :=
  match ls with
  | [] => Some (TRunning d)
  | l :: r => let! m := tdev_step E d l in
              match m with TRunning d' => tdev_run E d' r | TDead w => match r with [] => Some m | _ => None end end
  end.

Definition tlabel_ok (l : tlabel) : Prop :=
  match l with
  | TAccept s => Forall wfb s
  | TLocal i => good_input i
  | _ => True
  end.

Inductive tstatus := TDown (w : world) | TUp (d : tdev).
Definition tworld_after (m : tmoved) : world := match m with TRunning d => td_world d | TDead w => w end.

(* As M_Device.life. *)
Inductive tlife (E : Env) : list params -> tstatus -> Prop :=
| T_new c t : tlife E [] (TDown {| w_client := c; w_tick := t; w_trace := [] |})
| T_start ps w p w' s : tlife E ps (TDown w) -> Forall wfb s ->
    start E p (saved_in (w_trace w)) w = (w', Ok tt) -> tlife E (ps ++ [p]) (TUp (tdev_init s w'))
| T_start_failed ps w p w' : tlife E ps (TDown w) ->
    start E p (saved_in (w_trace w)) w = (w', Panic) -> tlife E (ps ++ [p]) (TDown w')
| T_step ps d l d' : tlife E ps (TUp d) -> tlabel_ok l -> tdev_step E d l = Some (TRunning d') -> tlife E ps (TUp d')
| T_panic ps d l w : tlife E ps (TUp d) -> tlabel_ok l -> tdev_step E d l = Some (TDead w) -> tlife E ps (TDown w)
| T_kill ps d l m es rest : tlife E ps (TUp d) -> tlabel_ok l -> tdev_step E d l = Some m ->
    w_trace (tworld_after m) = w_trace (td_world d) ++ es ++ rest ->
    tlife E ps (TDown {| w_client := w_client (tworld_after m); w_tick := w_tick (tworld_after m);
                         w_trace := w_trace (td_world d) ++ es |}).
