(* util/request_buffer.go, and the way usb/usb_device.go uses it for the interrupt
   IN endpoint, with goroutines as explicit steps. *)
From Verif Require Import Base.

(* util/request_buffer.go:5-9 type RequestBuffer.  A callback is represented by the
   number of the submission it belongs to; the map is an association list, whose
   order means nothing. *)
Record reqbuf := mk_reqbuf { rb_waiting : list (N * nat); rb_responses : list bytes }.

(* util/request_buffer.go:11-18 MakeRequestBuffer *)
Definition make_request_buffer : reqbuf := mk_reqbuf [] [].

Definition map_delete (id : N) (m : list (N * nat)) : list (N * nat) :=
  filter (fun x => negb (fst x =? id)) m.

Definition map_has (id : N) (m : list (N * nat)) : bool :=
  existsb (fun x => fst x =? id) m.

(* util/request_buffer.go:20-32 Request.  [Some data]: the callback is run at once,
   with the lock held, on data. *)
Definition rb_request (b : reqbuf) (id : N) (k : nat) : reqbuf * option bytes :=
  match rb_responses b with
  | data :: rest => (mk_reqbuf (rb_waiting b) rest, Some data)
  | [] => (mk_reqbuf ((id, k) :: map_delete id (rb_waiting b)) [], None)
  end.

(* util/request_buffer.go:34-43 CancelRequest *)
Definition rb_cancel (b : reqbuf) (id : N) : reqbuf * bool :=
  if map_has id (rb_waiting b)
  then (mk_reqbuf (map_delete id (rb_waiting b)) (rb_responses b), true)
  else (b, false).

(* util/request_buffer.go:45-61 Respond, up to the unlocking.  Go's map iteration
   starts anywhere: choice says at which entry.  [Some k]: callback k is to be run,
   after the lock was released.  None: choice is not a possible one. *)
Definition rb_respond (b : reqbuf) (choice : nat) (data : bytes)
    : option (reqbuf * option nat) :=
  match rb_waiting b with
  | [] => Some (mk_reqbuf [] (rb_responses b ++ [data]), None)
  | _ =>
    match nth_error (rb_waiting b) choice with
    | Some (id, k) => Some (mk_reqbuf (map_delete id (rb_waiting b)) (rb_responses b), Some k)
    | None => None
    end
  end.

(* What can be observed. *)
Inductive in_event :=
| EvSubmit (k : nat) (id : N)                       (* IN transfer number k submitted *)
| EvProduced (data : bytes)                         (* the device produced a packet *)
| EvCallback (k : nat) (v : option bytes)           (* completion callback of k ran; None is nil *)
| EvUnlink (id : N) (removed : bool)
| EvTimeout (k : nat) (removed : bool).

(* A callback that will run although the lock is not held any more. *)
Inductive origin := FromRespond | FromTimer.
Record inflight := mk_inflight { fl_origin : origin; fl_key : nat; fl_value : option bytes }.

(* in_timers: the goroutines of util.SetTimeout that still sleep (id, callback). *)
Record in_state := mk_in {
  in_buf : reqbuf; in_flight : list inflight; in_timers : list (N * nat);
  in_next : nat; in_trace : list in_event }.

Definition in_init : in_state := mk_in make_request_buffer [] [] 0 [].

Inductive in_label :=
| ISubmit (id : N)
| IRespond (choice : nat) (data : bytes)
| IRun (i : nat)            (* the i-th callback in flight runs *)
| ITimeout (i : nat)        (* the i-th sleeping timer expires and cancels *)
| IUnlink (id : N).

Fixpoint drop_nth {A} (i : nat) (l : list A) : list A :=
  match l, i with
  | [], _ => []
  | _ :: r, O => r
  | x :: r, S j => x :: drop_nth j r
  end.

Definition in_step (s : in_state) (l : in_label) : option in_state :=
  match l with
  | ISubmit id =>
    (* usb/usb_device.go:77-85: Request, then SetTimeout (util.go:191-196).  The timer
       is registered in the same step; it can only be too early, not too late. *)
    let k := in_next s in
    let (b, now) := rb_request (in_buf s) id k in
    Some (mk_in b (in_flight s) (in_timers s ++ [(id, k)]) (S k)
      (in_trace s ++ EvSubmit k id ::
       match now with Some data => [EvCallback k (Some data)] | None => [] end))
  | IRespond choice data =>
    (* usb/usb_device.go:95-97 handleResponse *)
    match rb_respond (in_buf s) choice data with
    | Some (b, cb) =>
      Some (mk_in b
        (in_flight s ++ match cb with Some k => [mk_inflight FromRespond k (Some data)] | None => [] end)
        (in_timers s) (in_next s) (in_trace s ++ [EvProduced data]))
    | None => None
    end
  | IRun i =>
    match nth_error (in_flight s) i with
    | Some f => Some (mk_in (in_buf s) (drop_nth i (in_flight s)) (in_timers s) (in_next s)
                        (in_trace s ++ [EvCallback (fl_key f) (fl_value f)]))
    | None => None
    end
  | ITimeout i =>
    (* usb/usb_device.go:79-84 *)
    match nth_error (in_timers s) i with
    | Some (id, k) =>
      let (b, removed) := rb_cancel (in_buf s) id in
      Some (mk_in b
        (in_flight s ++ if removed then [mk_inflight FromTimer k None] else [])
        (drop_nth i (in_timers s)) (in_next s) (in_trace s ++ [EvTimeout k removed]))
    | None => None
    end
  | IUnlink id =>
    (* usb/usb_device.go:66-68 RemoveWaitingRequest *)
    let (b, removed) := rb_cancel (in_buf s) id in
    Some (mk_in b (in_flight s) (in_timers s) (in_next s) (in_trace s ++ [EvUnlink id removed]))
  end.

Fixpoint in_run (s : in_state) (ls : list in_label) : option in_state :=
  match ls with
  | [] => Some s
  | l :: r => let! s' := in_step s l in in_run s' r
  end.

(* The device's packets come from sendResponsePackets (ctap_hid/ctap_hid.go:42-52),
   which holds responsesLock while handleResponse, including the callback, runs: a
   Respond starts only when the previous one has run its callback. *)
Definition respond_idle (s : in_state) : bool :=
  forallb (fun f => match fl_origin f with FromRespond => false | FromTimer => true end)
    (in_flight s).

Fixpoint serialised (s : in_state) (ls : list in_label) : bool :=
  match ls with
  | [] => true
  | l :: r =>
    match l with IRespond _ _ => respond_idle s | _ => true end &&
    match in_step s l with Some s' => serialised s' r | None => true end
  end.
