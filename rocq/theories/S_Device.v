(* What can be seen of the device on the wire, told with the host's vocabulary. *)
From Verif Require Import Base M_State M_Client M_History S_Hid M_ReqBuf M_Usbip M_Device S_Usbip S_UsbipSys.

(* A complete request the host wrote on channel [ch]: an initialisation packet with the
   command and the length, and as many continuation packets 0, 1, 2, ... as needed. *)
Definition requested (written : list bytes) (ch cmd : N) (m : bytes) : Prop :=
  exists first rest,
    In first written /\ incl rest written /\
    Forall (fun p => takeN 4 p = le 4 ch) (first :: rest) /\
    nth 4 first 0 = cmd /\
    map (fun p => nth 4 p 0) rest = map N.of_nat (seq 0 (length rest)) /\
    len m = 256 * nth 5 first 0 + nth 6 first 0 /\
    m = takeN (len m) (dropN 7 first ++ concat (map (dropN 5) rest)).

(* A packet for which there is a reason: keepalive, error, INIT reply, echo of data the host
   wrote, or part of the answer the history [h] gave to a request. *)
Inductive explained (written : list bytes) (h : list entry) (p : bytes) : Prop :=
| X_keepalive ch m : requested written ch 0x90 m -> In p (spec_packets ch 0xBB [2]) -> explained written h p
| X_error ch first code : In first written -> takeN 4 first = le 4 ch ->
    In p (spec_packets ch 0xBF [code]) -> explained written h p
| X_init nonce m id : requested written 0xFFFFFFFF 0x86 m -> len nonce = 8 ->
    In p (spec_packets 0xFFFFFFFF 0x86 (nonce ++ le 4 id ++ [2; 0; 0; 1; 4])) -> explained written h p
| X_ping ch d : requested written ch 0x81 d -> In p (spec_packets ch 0x81 d) -> explained written h p
| X_ctap ch m r : requested written ch 0x90 m -> In (HDone (ICtap m) (OBytes r)) h ->
    In p (spec_packets ch 0x90 r) -> explained written h p
| X_u2f ch m r : requested written ch 0x83 m -> In (HDone (IU2f m) (OBytes r)) h ->
    In p (spec_packets ch 0x83 r) -> explained written h p.

(* What the host wrote to the OUT endpoint (2), in order. *)
Definition written_of (log : list action) : list bytes :=
  flat_map (fun x => let '(h, _, b) := x in if hd_ep h =? 2 then [b] else []) (submits_of log).

(* The entries of a history since its last start. *)
Definition is_start (e : entry) : bool := match e with HStart _ => true | _ => false end.
Fixpoint since_start (h : list entry) : list entry :=
  match h with
  | [] => []
  | e :: r => if existsb is_start r then since_start r else if is_start e then r else since_start r
  end.

(* the requests among the entries, and where they came from *)
Definition is_request (e : entry) : bool :=
  match e with HDone (ICtap _) _ | HDone (IU2f _) _ => true | _ => false end.
Definition came_from (written : list bytes) (e : entry) : Prop :=
  match e with
  | HDone (ICtap m) _ => exists ch, requested written ch 0x90 m
  | HDone (IU2f m) _ => exists ch, requested written ch 0x83 m
  | _ => True
  end.

(* Why a frame is on the wire: a reply of the control phase, an answer to an unlink, to a
   submit on another endpoint than IN, or to an IN transfer.  The data of an IN transfer
   (direction 1 on endpoint 1) is a packet P speaks for, or zeros (no packet in time). *)
Inductive on_wire (log : list action) (P : bytes -> Prop) (f : bytes) : Prop :=
| W_control : control_reply f -> on_wire log P f
| W_unlink h removed : In h (unlinks_of log) -> f = spec_ret_unlink (hd_seq h) removed -> on_wire log P f
| W_other h st b payload : In (h, st, b) (submits_of log) -> hd_ep h <> 1 \/ hd_dir h <> 1 /\ payload = [] ->
    f = spec_ret_submit (hd_seq h) (len b) payload -> on_wire log P f
| W_in h st b p : In (h, st, b) (submits_of log) -> hd_ep h = 1 -> hd_dir h = 1 -> P p ->
    f = spec_ret_submit (hd_seq h) (len b) (spec_transfer (len b) p) -> on_wire log P f
| W_timeout h st b : In (h, st, b) (submits_of log) -> hd_ep h = 1 -> hd_dir h = 1 ->
    f = spec_ret_submit (hd_seq h) (len b) (zeros (length b)) -> on_wire log P f.

(* the parameters of all starts, successful or not *)
Definition starts_of (h : list entry) : list params :=
  flat_map (fun e => match e with HStart p | HStartFailed p => [p] | _ => [] end) h.

(* ---- what the host reads: the data of the answered IN transfers, in order, as far as it
   is for channel [ch] *)
Definition answers_in (log : list action) (f : bytes) : bool :=
  existsb (fun x => let '(h, _, _) := x in (hd_ep h =? 1) && answers (hd_seq h) f) (submits_of log).
Definition packets_read (ch : N) (log : list action) (out : list bytes) : list bytes :=
  filter (on_channel ch) (map (dropN 48) (filter (answers_in log) out)).

(* every transfer on the IN endpoint is a proper one of 64 bytes *)
Definition reads_64 (log : list action) : Prop :=
  forall h st b, In (h, st, b) (submits_of log) -> hd_ep h = 1 -> hd_dir h = 1 /\ len b = 64.

(* Nothing is on its way to the host. *)
Definition drained (d : dev) : Prop :=
  de_queue d = [] /\ rb_responses (in_buf (sy_in (de_sys d))) = [] /\ in_flight (sy_in (de_sys d)) = [].

(* The steps of the device's own goroutines that only deliver what is there. *)
Definition delivers (l : dev_label) : Prop :=
  match l with DRun _ | DSend _ | DWrite => True | _ => False end.
