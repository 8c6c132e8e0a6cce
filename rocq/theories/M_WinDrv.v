(* The driver of the Windows client, cmd/demo/usbip/usbip-win/driver/vhci: the requests
   (urb_req) of one virtual device (vpdo), and together with it the forwarder (M_WinFwd)
   that reads from and writes to the driver.  Each function that the driver is called
   with is one step here: what happens while it has released lock_urbr is not interleaved
   with other calls.  Memory that was freed is not given out again.  Left out:
   isochronous transfers, SYNC_RESET_PIPE_AND_CLEAR_STALL,
   IOCTL_USB_GET_DESCRIPTOR_FROM_NODE_CONNECTION, cancelling of reads, plugging out, and
   what the driver keeps of descriptors and of the selected configuration. *)
From Coq Require Import ZArith.
From Verif Require Import Base M_Util M_WinFwd.
Open Scope N_scope.

(* ------------------------------------------------------- request blocks *)
(* vhci/usbreq.h:9-12: a pipe handle *)
Definition pipe_in (h : N) : bool := N.testbit h 7.
Definition pipe_addr (h : N) : N := h mod 128.
Definition pipe_interval (h : N) : N := h / 256 mod 256.
Definition pipe_type (h : N) : N := h / 65536 mod 256.

(* A USB request block (URB) of the kinds in vhci/vhci_internal_ioctl.c:93-118, and the
   reset of the port (172-174).  buf: the transfer buffer, of TransferBufferLength bytes;
   it exists.  recip: 0 device, 1 interface, 2 endpoint, 3 other. *)
Inductive urb :=
| Bulk (pipe flags : N) (buf : bytes)                   (* or interrupt *)
| GetDescriptor (interface : bool) (typ index lang : N) (buf : bytes)
| GetStatus (recip index : N) (buf : bytes)
| ClassVendor (vendor : bool) (recip flags request value index : N) (buf : bytes)
| SelectConfiguration (value : N)
| SelectInterface (number alternate : N)
| Control (pipe flags : N) (setup buf : bytes)
| ControlEx (pipe flags : N) (setup buf : bytes)
| ResetPort.

Definition buffer (u : urb) : bytes :=
  match u with
  | Bulk _ _ b | GetDescriptor _ _ _ _ b | GetStatus _ _ b | ClassVendor _ _ _ _ _ _ b
  | Control _ _ _ b | ControlEx _ _ _ b => b
  | _ => []
  end.

(* vhci/vhci_proto.c:12-21 transflag *)
Definition transflag (f : N) : N :=
  (if N.testbit f 1 then 0 else 1) + (if N.testbit f 2 then 2 else 0).

(* vhci/usbreq.c:24-33 build_setup_packet, and the rest of the packet *)
Definition setup_packet (dir_in : bool) (typ recip request value index n : N) : bytes :=
  [(if dir_in then 128 else 0) + 32 * typ + recip; request] ++ le 2 value ++ le 2 index ++ le 2 n.

(* vhci/vhci_proto.c:23-37 set_cmd_submit_usbip_header, and the setup packet *)
Definition submit_header (seq devid : N) (dir_in : bool) (pipe flags n : N) (setup : bytes) : bytes :=
  le 4 1 ++ le 4 seq ++ le 4 devid ++ le 4 (if dir_in then 1 else 0) ++ le 4 (pipe_addr pipe) ++
  le 4 (transflag flags) ++ le 4 n ++ le 4 0 ++ le 4 0 ++ le 4 (pipe_interval pipe) ++ setup.

(* vhci/vhci_read.c: the header that store_urbr makes (743-805 and 845-862): None is a
   status other than STATUS_SUCCESS.  junk: what is in the buffer of the read before.
   store_urb_bulk 454-492, store_urb_get_dev_desc 167-205, store_urb_get_intf_desc
   258-281, store_urb_get_status 208-255, store_urb_class_vendor 309-380 (recip 3 of a
   vendor request is not in the switch of store_urbr_submit), store_urb_select_config
   383-405, store_urb_select_interface 408-430, store_urb_control_transfer 628-660,
   store_urb_control_transfer_ex 688-721, store_urb_reset_dev 57-79. *)
Definition urb_header (junk : bytes) (seq devid : N) (u : urb) : option bytes :=
  let n := len (buffer u) in
  match u with
  | Bulk pipe flags _ =>
    if (pipe_type pipe =? 2) || (pipe_type pipe =? 3)
    then Some (submit_header seq devid (pipe_in pipe) pipe flags n (zeros 8)) else None
  | GetDescriptor false typ index lang _ =>
    let! wIndex := if (typ =? 1) || (typ =? 2) then Some 0
                   else if typ =? 4 then Some index
                   else if typ =? 3 then Some lang else None in
    Some (submit_header seq devid true 0 2 n (setup_packet true 0 0 6 (256 * typ + index) wIndex n))
  | GetDescriptor true typ index lang _ =>
    Some (submit_header seq devid true 0 2 n (setup_packet true 0 1 6 (256 * typ + index) lang n))
  | GetStatus recip index _ =>
    Some (submit_header seq devid true 0 2 n (setup_packet true 0 recip 0 0 index n))
  | ClassVendor vendor recip flags request value index _ =>
    if vendor && (recip =? 3) then None else
    Some (submit_header seq devid (N.testbit flags 0) 0 (N.lor flags 2) n
            (setup_packet (N.testbit flags 0) (if vendor then 2 else 1) recip request value index n))
  | SelectConfiguration value =>
    Some (submit_header seq devid false 0 0 0 (setup_packet false 0 0 9 value 0 0))
  | SelectInterface number alternate =>
    Some (submit_header seq devid false 0 0 0 (setup_packet false 0 1 11 alternate number 0))
  | Control pipe flags setup _ =>
    Some (submit_header seq devid (N.testbit flags 0) pipe (N.lor flags 2) n setup)
  | ControlEx pipe flags setup _ =>
    Some (submit_header seq devid (pipe_in pipe) pipe (N.lor flags 2) n setup)
  | ResetPort =>                                (* wValue.HiByte is not set *)
    Some (submit_header seq devid false 0 0 0 ([35; 3; 4; nth 43 junk 0] ++ le 2 0 ++ le 2 0))
  end.

(* does the buffer follow the header; and is it counted when it is stored with it *)
Definition carries (u : urb) : bool :=
  match u with
  | Bulk pipe _ _ => negb (pipe_in pipe)
  | ClassVendor _ _ flags _ _ _ _ => negb (N.testbit flags 0)
  | Control _ flags _ buf => negb (N.testbit flags 0) && (0 <? len buf)
  | ControlEx pipe _ _ _ => negb (pipe_in pipe)
  | _ => false
  end.
Definition counted (u : urb) : bool := match u with ClassVendor _ _ _ _ _ _ _ => true | _ => false end.

(* store_urbr for a read of size bytes: what the read returns, and whether the buffer is
   left for the next read (len_sent_partial) *)
Definition store (junk : bytes) (size seq devid : N) (u : urb) : option (bytes * bool) :=
  if size <? 48 then None else
  let! h := urb_header junk seq devid u in
  if carries u then
    if len (buffer u) <=? size - 48 then Some (if counted u then h ++ buffer u else h, false)
    else Some (h, true)
  else Some (h, false).

(* vhci/vhci_proto.c:39-48, vhci_read.c:867-882 store_cancelled_urbr: the last 24 bytes of
   the header are not set *)
Definition store_unlink (junk : bytes) (size seq devid target : N) : option bytes :=
  if size <? 48 then None else
  Some (le 4 2 ++ le 4 seq ++ le 4 devid ++ le 4 0 ++ le 4 0 ++ le 4 target ++ pad (dropN 24 junk) 24).

(* 815-864 store_urbr_partial *)
Definition store_rest (size : N) (u : urb) : option bytes :=
  if carries u then if size <? len (buffer u) then None else Some (buffer u) else None.

(* ------------------------------------------------------- replies *)
Inductive nt_status := Success | Cancelled | InvalidParameter | Unsuccessful.
(* a request block that was completed: status, TransferBufferLength and buffer *)
Record outcome := mk_outcome { oc_status : nt_status; oc_length : N; oc_buffer : bytes }.

Definition int32 (n : N) : Z :=
  if n <? 2147483648 then Z.of_N n else (Z.of_N n - 4294967296)%Z.

(* vhci/vhci_write.c:101-117 copy_to_transfer_buffer and its callers.  b: what is written
   to the driver.  The length is compared as an int and copied as a size_t.  Panic: memory
   outside the buffers is read or written. *)
Definition copy_reply (b buf : bytes) : res outcome :=
  let n := host32 24 b in
  if (int32 (u32mod (len buf)) <? int32 n)%Z then Ok (mk_outcome InvalidParameter (len buf) buf) else
  if (2147483648 <=? n) || (len b <? 48 + n) || (len buf <? n) then Panic else
  Ok (mk_outcome Success n (takeN n (dropN 48 b) ++ dropN n buf)).

(* 120-330: store_urb_data and process_urb_res_submit; 361-383 process_urb_res *)
Definition take_reply (u : urb) (b : bytes) : res outcome :=
  let n := host32 24 b in
  let same := len (buffer u) in
  match u with
  | ResetPort => Ok (mk_outcome Success 0 [])
  | _ =>
    if negb (host32 20 b =? 0)
    then Ok (mk_outcome Unsuccessful (match u with Bulk _ _ _ => n | _ => same end) (buffer u)) else
    match u with
    | Bulk pipe _ buf => if pipe_in pipe then copy_reply b buf else Ok (mk_outcome Success same buf)
    | ClassVendor _ _ flags _ _ _ buf =>
      if N.testbit flags 0 then copy_reply b buf else Ok (mk_outcome Success n buf)
    | GetDescriptor _ _ _ _ buf | GetStatus _ _ buf => copy_reply b buf
    | Control _ _ _ buf => if len buf =? 0 then Ok (mk_outcome Success 0 []) else copy_reply b buf
    | ControlEx _ _ _ buf => copy_reply b buf
    | _ => Ok (mk_outcome Success 0 [])
    end
  end.

(* ------------------------------------------------------- the driver *)
(* vhci/usbreq.h:14-21 urb_req; ur_id stands for the IRP.  ur_what = None: an unlink of
   the request number ur_target. *)
Record urbr := mk_urbr { ur_id : nat; ur_seq : N; ur_what : option urb; ur_target : N }.

(* urbr_sent_partial: Dangling when it points to a request that was freed *)
Inductive slot := Nobody | Holds (r : urbr) | Dangling.

(* vhci/vhci_dev.h:175-190.  head_urbr holds the requests of the other lists and of the
   slot.  dr_read: pending_read_irp, its size, what is in its buffer, and whether it has
   its cancel routine.  For the specifications: dr_done, the IRPs completed; dr_taken, the requests that got a number,
   in this order, each with what was in the buffer; dr_out, what reads returned. *)
Record drv := mk_drv {
  dr_devid : N; dr_seq : N;
  dr_pending : list urbr; dr_sent : list urbr; dr_partial : slot; dr_read : option (N * bytes * bool);
  dr_done : list (nat * outcome); dr_taken : list (urbr * bytes); dr_out : list bytes }.

Definition drv0 (devid : N) : drv := mk_drv devid 0 [] [] Nobody None [] [] [].

Definition numbered (r : urbr) (q : N) : urbr := mk_urbr (ur_id r) q (ur_what r) (ur_target r).

Definition store_urbr (d : drv) (junk : bytes) (size : N) (r : urbr) : option (bytes * bool) :=
  match ur_what r with
  | None => let! b := store_unlink junk size (ur_seq r) (dr_devid d) (ur_target r) in Some (b, false)
  | Some u => store junk size (ur_seq r) (dr_devid d) u
  end.

(* the request r was stored: it is sent, or its buffer is still to be read *)
Definition stored (d : drv) (q : N) (pending : list urbr) (r : urbr) (junk b : bytes) (rest : bool) : drv :=
  mk_drv (dr_devid d) q pending (if rest then dr_sent d else dr_sent d ++ [r])
    (if rest then Holds r else Nobody) None (dr_done d) (dr_taken d ++ [(r, junk)]) (dr_out d ++ [b]).

(* vhci/usbreq.c:198-271 submit_urbr: the driver, what the pending read returns, and
   whether the request was accepted.  When the request cannot be stored the read stays
   pending without a cancel routine (223 removed it), and is taken for a cancelled one, and
   forgotten, at the next request (225-231). *)
Definition submit_urbr (d : drv) (r : urbr) : drv * option bytes * bool :=
  match dr_partial d, dr_read d with
  | Nobody, Some (_, _, false) =>
    (mk_drv (dr_devid d) (dr_seq d) (dr_pending d) (dr_sent d) Nobody None (dr_done d) (dr_taken d) (dr_out d),
     None, false)
  | Nobody, Some (size, junk, true) =>
    let q := u32mod (dr_seq d + 1) in
    let r' := numbered r q in
    match store_urbr d junk size r' with
    | Some (b, rest) => (stored d q (dr_pending d) r' junk b rest, Some b, true)
    | None =>
      (mk_drv (dr_devid d) q (dr_pending d) (dr_sent d) Nobody (Some (size, junk, false)) (dr_done d)
         (dr_taken d) (dr_out d), None, false)
    end
  | _, _ =>
    (mk_drv (dr_devid d) (dr_seq d) (dr_pending d ++ [r]) (dr_sent d) (dr_partial d) (dr_read d)
       (dr_done d) (dr_taken d) (dr_out d), None, true)
  end.

Definition finish (d : drv) (id : nat) (o : outcome) : drv :=
  mk_drv (dr_devid d) (dr_seq d) (dr_pending d) (dr_sent d) (dr_partial d) (dr_read d)
    (dr_done d ++ [(id, o)]) (dr_taken d) (dr_out d).

Definition given_up (st : nt_status) (u : urb) : outcome := mk_outcome st (len (buffer u)) (buffer u).

(* vhci/vhci_internal_ioctl.c:70-84, 153-196: a client of the driver submits a block *)
Definition submit_block (d : drv) (id : nat) (u : urb) : drv * option bytes :=
  match submit_urbr d (mk_urbr id 0 (Some u) 0) with
  | (d', b, true) => (d', b)
  | (d', b, false) => (finish d' id (given_up InvalidParameter u), b)
  end.

Definition is_block (id : nat) (r : urbr) : bool :=
  match ur_what r with Some _ => Nat.eqb (ur_id r) id | None => false end.
Definition in_slot (s : slot) : list urbr := match s with Holds r => [r] | _ => [] end.

(* vhci/usbreq.c:71-125 cancel_urbr, remove_cancelled_urbr, submit_urbr_unlink: the IRP
   id is cancelled; None when the driver does not have it *)
Definition cancel_block (d : drv) (id : nat) : option (drv * option bytes) :=
  match find (is_block id) (dr_pending d ++ dr_sent d ++ in_slot (dr_partial d)) with
  | None => None
  | Some r =>
    let keep := filter (fun x => negb (is_block id x)) in
    let d1 := mk_drv (dr_devid d) (dr_seq d) (keep (dr_pending d)) (keep (dr_sent d))
                (match dr_partial d with
                 | Holds x => if is_block id x then Nobody else Holds x
                 | s => s
                 end) (dr_read d) (dr_done d) (dr_taken d) (dr_out d) in
    let '(d2, b, _) := submit_urbr d1 (mk_urbr id 0 None (ur_seq r)) in
    match ur_what r with
    | Some u => Some (finish d2 id (given_up Cancelled u), b)
    | None => None
    end
  end.

(* vhci/usbreq.c:168-195 is_port_urbr *)
Definition on_pipe (addr : N) (r : urbr) : bool :=
  match ur_what r with Some (Bulk pipe _ _) => pipe_addr pipe =? addr | _ => false end.

(* vhci/vhci_internal_ioctl.c:6-55 vhci_ioctl_abort_pipe *)
Definition abort_pipe (d : drv) (addr : N) : drv :=
  let all := dr_pending d ++ dr_sent d ++ in_slot (dr_partial d) in
  let keep := filter (fun x => negb (on_pipe addr x)) in
  mk_drv (dr_devid d) (dr_seq d) (keep (dr_pending d)) (keep (dr_sent d))
    (match dr_partial d with
     | Holds x => if on_pipe addr x then Dangling else Holds x
     | s => s
     end) (dr_read d)
    (dr_done d ++ flat_map (fun r => match ur_what r with
                                     | Some u => if on_pipe addr r then [(ur_id r, given_up Cancelled u)] else []
                                     | None => []
                                     end) all)
    (dr_taken d) (dr_out d).

(* vhci/vhci_read.c:935-1001 process_read_irp.  After a failure urbr_sent_partial still
   points to the request, which is freed. *)
Inductive read_result := Gave (b : bytes) | Waits | Fails.

Definition failed (d : drv) (q : N) (pending : list urbr) (r : urbr) : drv :=
  mk_drv (dr_devid d) q pending (dr_sent d) Dangling (dr_read d)
    (dr_done d ++ match ur_what r with Some u => [(ur_id r, given_up InvalidParameter u)] | None => [] end)
    (dr_taken d) (dr_out d).

Definition read_drv (d : drv) (size : N) (junk : bytes) : res (drv * read_result) :=
  match dr_read d with
  | Some _ => Ok (d, Fails)
  | None =>
    match dr_partial d with
    | Dangling => Panic
    | Holds r =>
      match (let! u := ur_what r in store_rest size u) with
      | Some b =>
        Ok (mk_drv (dr_devid d) (dr_seq d) (dr_pending d) (dr_sent d ++ [r]) Nobody None (dr_done d)
              (dr_taken d) (dr_out d ++ [b]), Gave b)
      | None => Ok (failed d (dr_seq d) (dr_pending d) r, Fails)
      end
    | Nobody =>
      match dr_pending d with
      | [] =>
        Ok (mk_drv (dr_devid d) (dr_seq d) [] (dr_sent d) Nobody (Some (size, junk, true)) (dr_done d)
              (dr_taken d) (dr_out d), Waits)
      | r :: pending =>
        let q := u32mod (dr_seq d + 1) in
        let r' := numbered r q in
        match store_urbr d junk size r' with
        | Some (b, rest) => Ok (stored d q pending r' junk b rest, Gave b)
        | None => Ok (failed d q pending r', Fails)
        end
      end
    end
  end.

(* vhci/usbreq.c:35-56 find_sent_urbr *)
Fixpoint take_sent (q : N) (l : list urbr) : option (urbr * list urbr) :=
  match l with
  | [] => None
  | r :: l' => if ur_seq r =? q then Some (r, l') else let! (x, l2) := take_sent q l' in Some (x, r :: l2)
  end.

(* vhci/vhci_write.c:386-443 process_write_irp: one reply per write *)
Definition write_drv (d : drv) (b : bytes) : res drv :=
  if len b <? 48 then Ok d else
  match take_sent (host32 4 b) (dr_sent d) with
  | None => Ok d
  | Some (r, sent) =>
    let d1 := mk_drv (dr_devid d) (dr_seq d) (dr_pending d) sent (dr_partial d) (dr_read d)
                (dr_done d) (dr_taken d) (dr_out d) in
    match ur_what r with
    | None => Ok d1
    | Some u => let? o := take_reply u b in Ok (finish d1 (ur_id r) o)
    end
  end.

(* ------------------------------------------------------- driver and forwarder *)
(* wi_ready: a read of the driver has returned and its completion routine has not run.
   wi_ended: a read failed and usbip_forward has returned.  wi_steps, for the
   specifications: the steps of the forwarder. *)
Record win := mk_win { wi_drv : drv; wi_fwd : fwd; wi_ready : option bytes; wi_ended : bool;
  wi_steps : list fwd_label }.

Definition win0 (devid : N) : win := mk_win (drv0 devid) fwd0 None false [].

(* WLoop: an iteration of the forwarder's loop; it calls the driver, which writes at once
   (so that the completion routine of a write has run when the loop has waited) and reads
   when there is something to read.  junk: the memory that the read gets for its buffer.
   WReadDone, WWritten: completion routines of the driver's reads and writes.  WGot,
   WSent: those of the socket; the routine of a write to the driver, which was queued
   before, runs before WGot. *)
Inductive win_label :=
| WSubmit (id : nat) (u : urb)
| WCancel (id : nat)
| WAbort (addr : N)
| WLoop (junk : bytes)
| WReadDone
| WWritten
| WGot (data : bytes)
| WSent (n : N).

Definition ready_or (b c : option bytes) : option bytes := match b with Some _ => b | None => c end.

Definition fwd_does (w : win) (l : fwd_label) (d : drv) (ready : option bytes) (ended : bool) : option (res win) :=
  let! r := fwd_step (wi_fwd w) l in
  Some (let? g := r in Ok (mk_win d g ready ended (wi_steps w ++ [l]))).

Definition starts {A} (before after : option A) : option A :=
  match before with None => after | Some _ => None end.

Definition win_step (w : win) (l : win_label) : option (res win) :=
  let d := wi_drv w in
  let f := wi_fwd w in
  match l with
  | WSubmit id u =>
    let (d', b) := submit_block d id u in
    Some (Ok (mk_win d' f (ready_or b (wi_ready w)) (wi_ended w) (wi_steps w)))
  | WCancel id =>
    let! (d', b) := cancel_block d id in
    Some (Ok (mk_win d' f (ready_or b (wi_ready w)) (wi_ended w) (wi_steps w)))
  | WAbort addr => Some (Ok (mk_win (abort_pipe d addr) f (wi_ready w) (wi_ended w) (wi_steps w)))
  | _ =>
    if wi_ended w then None else
    match l with
    | WLoop junk =>
      if fw_waiting f && match pi_writing (fw_rep f) with Some _ => true | None => false end then None else
      let! r := fwd_step f Iterate in
      Some (let? g := r in
            let? x := match starts (pi_reading (fw_req f)) (pi_reading (fw_req g)) with
                      | Some n => read_drv d n junk
                      | None => Ok (d, Waits)
                      end in
            let (d1, rr) := x in
            let? d2 := match starts (pi_writing (fw_rep f)) (pi_writing (fw_rep g)) with
                       | Some b => write_drv d1 b
                       | None => Ok d1
                       end in
            Ok (mk_win d2 g (match rr with Gave b => Some b | _ => wi_ready w end)
                  (match rr with Fails => true | _ => false end) (wi_steps w ++ [Iterate])))
    | WReadDone =>
      let! b := wi_ready w in fwd_does w (ReadDone true b) d None false
    | WWritten =>
      let! b := pi_writing (fw_rep f) in fwd_does w (WriteDone false (len b)) d (wi_ready w) false
    | WGot data =>
      match pi_writing (fw_rep f) with
      | Some _ => None
      | None => fwd_does w (ReadDone false data) d (wi_ready w) false
      end
    | WSent n => fwd_does w (WriteDone true n) d (wi_ready w) false
    | _ => None
    end
  end.

Fixpoint win_run (w : win) (ls : list win_label) : option (res win) :=
  match ls with
  | [] => Some (Ok w)
  | l :: r =>
    match win_step w l with
    | Some (Ok w') => win_run w' r
    | other => other
    end
  end.
