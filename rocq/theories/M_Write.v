(* The USB/IP server with the two locks its replies are written under, with writes that fail, and
   over any number of connections; and the device of M_Threads behind it.
   Simplified: what was written counts as sent although the host may never read it; a timer
   (util/util.go:191-196) may expire at any time; Read fails only at the end of the input. *)
From Verif Require Import Base M_Usb M_ReqBuf M_Usbip M_State M_Client M_History M_Overlap M_Device M_Threads.

(* usbip/usbip_server.go:60-72 usbipConnection and newUSBIPConnection.  lk_input: what the host
   sends on it; lk_locked: responseMutex; lk_sent: the bytes written to it. *)
Record link := mk_link { lk_input : stream; lk_locked : bool; lk_sent : bytes }.

(* The goroutine of Start (usbip/usbip_server.go:25-47) on its way through writeResponse.
   jb_inner: inside the Try of handleCommands (104-116), not only that of Start (41-45);
   jb_request: inside Request (util/request_buffer.go:20-32), which holds the lock of the request
   buffer, and after which the timer is set (usb/usb_device.go:78-84);
   jb_writing: it has responseMutex. *)
Record job := mk_job { jb_frame : bytes; jb_inner : bool; jb_request : option (N * nat); jb_writing : bool }.

(* ne_links: the connections so far, the last is being served.  ne_conn, ne_buf, ne_next,
   ne_timers, ne_delegate: as in M_Usbip and M_ReqBuf.  ne_subs: the IN transfers with the number
   of the connection in their callback.  ne_calls: the callbacks other goroutines run, with
   whether they have responseMutex. *)
Record net := mk_net {
  ne_links : list link; ne_conn : conn; ne_job : option job;
  ne_buf : reqbuf; ne_next : nat; ne_timers : list (N * nat);
  ne_subs : list (nat * header * bytes); ne_calls : list (inflight * bool); ne_delegate : list bytes }.

Definition net_init (s : stream) : net :=
  mk_net [mk_link s false []] (mk_conn Control s) None make_request_buffer 0 [] [] [] [].

Inductive net_label :=
| NRead                                  (* the server goes on up to its next reply *)
| NLock | NDone | NFail (k : N)          (* its reply: locked, written, failed after k bytes *)
| NCall (i : nat) | NCallDone (i : nat) | NCallFail (i : nat) (k : N)   (* the i-th callback, likewise *)
| NRespond (choice : nat) (data : bytes) (* handleResponse (usb/usb_device.go:95-97) *)
| NTimeout (i : nat)                     (* the i-th timer *)
| NAccept (s : stream).                  (* the next connection *)

(* NGone: a goroutine panicked outside Try, which ends the process. *)
Inductive nmoved := NUp (n : net) | NGone (links : list link).

Fixpoint upd_nth {A} (i : nat) (f : A -> A) (l : list A) : list A :=
  match l, i with
  | [], _ => []
  | x :: r, O => f x :: r
  | x :: r, S j => x :: upd_nth j f r
  end.

Definition with_links (n : net) (l : list link) : net :=
  mk_net l (ne_conn n) (ne_job n) (ne_buf n) (ne_next n) (ne_timers n) (ne_subs n) (ne_calls n) (ne_delegate n).
Definition with_job (n : net) (j : option job) : net :=
  mk_net (ne_links n) (ne_conn n) j (ne_buf n) (ne_next n) (ne_timers n) (ne_subs n) (ne_calls n) (ne_delegate n).
Definition with_conn (n : net) (c : conn) : net :=
  mk_net (ne_links n) c (ne_job n) (ne_buf n) (ne_next n) (ne_timers n) (ne_subs n) (ne_calls n) (ne_delegate n).
Definition with_calls (n : net) (c : list (inflight * bool)) : net :=
  mk_net (ne_links n) (ne_conn n) (ne_job n) (ne_buf n) (ne_next n) (ne_timers n) (ne_subs n) c (ne_delegate n).
Definition with_buf (n : net) (b : reqbuf) : net :=
  mk_net (ne_links n) (ne_conn n) (ne_job n) b (ne_next n) (ne_timers n) (ne_subs n) (ne_calls n) (ne_delegate n).
Definition with_timers (n : net) (t : list (N * nat)) : net :=
  mk_net (ne_links n) (ne_conn n) (ne_job n) (ne_buf n) (ne_next n) t (ne_subs n) (ne_calls n) (ne_delegate n).
Definition with_delegate (n : net) (d : list bytes) : net :=
  mk_net (ne_links n) (ne_conn n) (ne_job n) (ne_buf n) (ne_next n) (ne_timers n) (ne_subs n) (ne_calls n) d.

(* the connection being served *)
Definition current (n : net) : nat := pred (length (ne_links n)).

(* usbip/usbip_server.go:174-178 writeResponse, in three parts *)
Definition is_free (n : net) (c : nat) : bool :=
  match nth_error (ne_links n) c with Some l => negb (lk_locked l) | None => false end.
Definition lock (c : nat) (n : net) : net :=
  with_links n (upd_nth c (fun l => mk_link (lk_input l) true (lk_sent l)) (ne_links n)).
Definition wrote (c : nat) (b : bytes) (n : net) : net :=
  with_links n (upd_nth c (fun l => mk_link (lk_input l) (lk_locked l) (lk_sent l ++ b)) (ne_links n)).
Definition unlock (c : nat) (n : net) : net :=
  with_links n (upd_nth c (fun l => mk_link (lk_input l) false (lk_sent l)) (ne_links n)).

(* net.Conn.Write returns an error after k bytes: not after all of them, unless there are none *)
Definition can_fail (k : N) (b : bytes) : bool := (k =? 0) || (k <? len b).

(* the lock of the request buffer *)
Definition buf_free (n : net) : bool :=
  match ne_job n with Some j => match jb_request j with Some _ => false | None => true end | None => true end.

(* the reply a callback writes and the connection it writes it to (usbip/usbip_server.go:128-149) *)
Definition call_reply (n : net) (f : inflight) : option (nat * bytes) :=
  let! (c, h, b) := nth_error (ne_subs n) (fl_key f) in Some (c, return_submit h b (fl_value f)).

Definition net_step (n : net) (l : net_label) : option nmoved :=
  match l with
  | NRead =>
    match ne_job n with
    | Some _ => None
    | None =>
      let inner := match cn_phase (ne_conn n) with Commands _ => true | _ => false end in
      let (c, a) := conn_step [usb_device] (ne_conn n) in
      let n1 := with_conn n c in
      let reply f := Some (mk_job f inner None false) in
      Some (NUp match a with
        | ANone => n1
        | AWrite r => with_job n1 (reply r)
        | ASubmit d h setup buffer =>
          (* usb/usb_device.go:70-93 HandleMessage *)
          if hd_ep h =? 0 then
            match handle_control_message (read_setup setup) with
            | Ok r => with_job n1 (reply (return_submit h buffer r))
            | Panic => n1
            end
          else if hd_ep h =? 1 then
            let k := ne_next n in
            let (b, now) := rb_request (ne_buf n) (hd_seq h) k in
            let subs := ne_subs n ++ [(current n, h, buffer)] in
            match now with
            | Some data =>
              mk_net (ne_links n) c (Some (mk_job (return_submit h buffer (Some data)) inner (Some (hd_seq h, k)) false))
                b (S k) (ne_timers n) subs (ne_calls n) (ne_delegate n)
            | None =>
              mk_net (ne_links n) c None b (S k) (ne_timers n ++ [(hd_seq h, k)]) subs (ne_calls n) (ne_delegate n)
            end
          else if hd_ep h =? 2 then
            with_job (with_delegate n1 (ne_delegate n ++ [buffer])) (reply (return_submit h buffer None))
          else n1
        | AUnlink d h target =>
          let (b, removed) := rb_cancel (ne_buf n) target in
          with_job (with_buf n1 b) (reply (return_unlink h removed))
        end)
    end
  | NLock =>
    let! j := ne_job n in
    if negb (jb_writing j) && is_free n (current n) then
      Some (NUp (with_job (lock (current n) n) (Some (mk_job (jb_frame j) (jb_inner j) (jb_request j) true))))
    else None
  | NDone =>
    let! j := ne_job n in
    if jb_writing j then
      Some (NUp (with_timers (with_job (unlock (current n) (wrote (current n) (jb_frame j) n)) None)
                   (ne_timers n ++ opt_list (jb_request j))))
    else None
  | NFail k =>
    (* util/util.go:88-92 Write panics with responseMutex locked; Request, if it is on the way,
       unlocks the request buffer by its defer *)
    let! j := ne_job n in
    if jb_writing j && can_fail k (jb_frame j) then
      let n1 := with_job (wrote (current n) (takeN k (jb_frame j)) n) None in
      Some (NUp (if jb_inner j then n1 else with_conn n1 (mk_conn Closed [])))
    else None
  | NCall i =>
    match nth_error (ne_calls n) i with
    | Some (f, false) =>
      let! (c, _) := call_reply n f in
      if is_free n c then Some (NUp (with_calls (lock c n) (upd_nth i (fun x => (fst x, true)) (ne_calls n)))) else None
    | _ => None
    end
  | NCallDone i =>
    match nth_error (ne_calls n) i with
    | Some (f, true) =>
      let! (c, b) := call_reply n f in
      Some (NUp (with_calls (unlock c (wrote c b n)) (drop_nth i (ne_calls n))))
    | _ => None
    end
  | NCallFail i k =>
    (* neither the goroutine of a packet (usb/usb_device.go:88) nor a ticker (util/util.go:138)
       nor a timer (util/util.go:192) is inside a Try *)
    match nth_error (ne_calls n) i with
    | Some (f, true) =>
      let! (c, b) := call_reply n f in
      if can_fail k b then Some (NGone (ne_links (wrote c (takeN k b) n))) else None
    | _ => None
    end
  | NRespond choice data =>
    if buf_free n then
      let! (b, cb) := rb_respond (ne_buf n) choice data in
      Some (NUp (with_calls (with_buf n b)
        (ne_calls n ++ match cb with Some k => [(mk_inflight FromRespond k (Some data), false)] | None => [] end)))
    else None
  | NTimeout i =>
    if buf_free n then
      let! (id, k) := nth_error (ne_timers n) i in
      let (b, removed) := rb_cancel (ne_buf n) id in
      Some (NUp (with_calls (with_timers (with_buf n b) (drop_nth i (ne_timers n)))
        (ne_calls n ++ if removed then [(mk_inflight FromTimer k None, false)] else [])))
    else None
  | NAccept s =>
    match cn_phase (ne_conn n), ne_job n with
    | Closed, None => Some (NUp (with_conn (with_links n (ne_links n ++ [mk_link s false []])) (mk_conn Control s)))
    | _, _ => None
    end
  end.

Fixpoint net_run (n : net) (ls : list net_label) : option nmoved :=
  match ls with
  | [] => Some (NUp n)
  | l :: r => let! m := net_step n l in
              match m with NUp n' => net_run n' r | NGone k => match r with [] => Some m | _ => None end end
  end.

(* ------------------------------------------------------- the whole device *)
(* M_Threads with this server.  What the goroutines of the device look at is the messages the host
   wrote and whether a callback runs; wd_rest is M_Threads.tdev, of which td_sys is not used. *)
Record ndev := mk_ndev { nd_net : net; nd_rest : tdev }.

Definition net_view (n : net) : sys :=
  mk_sys (ne_conn n) (mk_in (ne_buf n) (map fst (ne_calls n)) [] 0 []) [] None (ne_delegate n) [] [].
Definition with_sys (s : sys) (d : tdev) : tdev :=
  mk_tdev s (td_taken d) (td_srv d) (td_world d) (td_waits d) (td_out d) (td_turn d) (td_tickers d).
Definition with_turn (g : option group) (d : tdev) : tdev :=
  mk_tdev (td_sys d) (td_taken d) (td_srv d) (td_world d) (td_waits d) (td_out d) g (td_tickers d).
Definition ndev_init (s : stream) (w : world) : ndev := mk_ndev (net_init s) (tdev_init [] w).

Inductive ndev_label :=
| ENet (l : net_label)       (* the server; not NRespond *)
| EDev (l : tlabel)          (* THandle, TAnswer, TTick, TGrab, TLocal *)
| EPut (choice : nat).       (* the goroutine that has responsesLock gives a packet to handleResponse *)

Inductive ndev_moved := EUp (d : ndev) | EGone (w : world).

Definition device_label (l : tlabel) : bool :=
  match l with THandle _ | TAnswer _ | TTick _ | TGrab _ | TLocal _ => true | _ => false end.

Definition ndev_step (E : Env) (d : ndev) (l : ndev_label) : option ndev_moved :=
  match l with
  | ENet (NRespond _ _) => None
  | ENet l' =>
    let! m := net_step (nd_net d) l' in
    Some match m with NUp n => EUp (mk_ndev n (nd_rest d)) | NGone _ => EGone (td_world (nd_rest d)) end
  | EDev l' =>
    if device_label l' then
      let! m := tdev_step E (with_sys (net_view (nd_net d)) (nd_rest d)) l' in
      Some match m with TRunning r => EUp (mk_ndev (nd_net d) r) | TDead w => EGone w end
    else None
  | EPut choice =>
    match td_turn (nd_rest d) with
    | Some (mk_group lk (p :: rest)) =>
      (* the callback of the previous packet has run *)
      if respond_idle (sy_in (net_view (nd_net d))) then
        let! m := net_step (nd_net d) (NRespond choice p) in
        match m with
        | NUp n => Some (EUp (mk_ndev n (with_turn (match rest with [] => None | _ => Some (mk_group lk rest) end) (nd_rest d))))
        | NGone _ => None
        end
      else None
    | _ => None
    end
  end.

Definition ndev_label_ok (l : ndev_label) : Prop :=
  match l with
  | ENet (NAccept s) => Forall wfb s
  | EDev l' => tlabel_ok l'
  | _ => True
  end.

Inductive nstatus := EDown (w : world) | ERuns (d : ndev).
Definition nworld_after (m : ndev_moved) : world := match m with EUp d => td_world (nd_rest d) | EGone w => w end.

(* As M_Device.life. *)
Inductive nlife (E : Env) : list params -> nstatus -> Prop :=
| E_new c t : nlife E [] (EDown {| w_client := c; w_tick := t; w_trace := [] |})
| E_start ps w p w' s : nlife E ps (EDown w) -> Forall wfb s ->
    start E p (saved_in (w_trace w)) w = (w', Ok tt) -> nlife E (ps ++ [p]) (ERuns (ndev_init s w'))
| E_start_failed ps w p w' : nlife E ps (EDown w) ->
    start E p (saved_in (w_trace w)) w = (w', Panic) -> nlife E (ps ++ [p]) (EDown w')
| E_step ps d l d' : nlife E ps (ERuns d) -> ndev_label_ok l -> ndev_step E d l = Some (EUp d') -> nlife E ps (ERuns d')
| E_panic ps d l w : nlife E ps (ERuns d) -> ndev_label_ok l -> ndev_step E d l = Some (EGone w) -> nlife E ps (EDown w)
| E_kill ps d l m es rest : nlife E ps (ERuns d) -> ndev_label_ok l -> ndev_step E d l = Some m ->
    w_trace (nworld_after m) = w_trace (td_world (nd_rest d)) ++ es ++ rest ->
    nlife E ps (EDown {| w_client := w_client (nworld_after m); w_tick := w_tick (nworld_after m);
                         w_trace := w_trace (td_world (nd_rest d)) ++ es |}).
