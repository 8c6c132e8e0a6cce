(* usbip/usbip.go and usbip/usbip_server.go. *)
From Coq Require Import String Ascii.
From Verif Require Import Base M_Util M_Usb M_ReqBuf.
Open Scope N_scope.

(* ------------------------------------------------------- the connection *)
(* What a TCP connection will deliver: chunks, in order, then end of file.  One call
   of Read returns bytes of one chunk. *)
Definition stream := list bytes.

(* One call of conn.Read into a slice of n > 0 bytes; None is an error (EOF).  Empty
   chunks do not occur in TCP and are skipped. *)
Fixpoint read_once (n : N) (s : stream) : option (bytes * stream) :=
  match s with
  | [] => None
  | [] :: r => read_once n r
  | c :: r => Some (takeN n c, if len c <=? n then r else dropN n c :: r)
  end.

(* binary.Read, that is io.ReadFull, of n bytes.  None is an error; then everything
   was consumed. *)
Fixpoint read_full (n : N) (s : stream) : option (bytes * stream) :=
  if n =? 0 then Some ([], s) else
  match s with
  | [] => None
  | c :: r =>
    if n <? len c then Some (takeN n c, dropN n c :: r)
    else let! (d, r') := read_full (n - len c) r in Some (c ++ d, r')
  end.

(* util/util.go:94-99 Read on a connection: a single Read into a zeroed slice *)
Definition util_read (n : N) (s : stream) : option (bytes * stream) :=
  let! (d, r) := read_once n s in Some (pad d (N.to_nat n), r).

(* util/util.go:76-80 ToBE on a struct of unsigned integers *)
Definition to_be (s : struct) : bytes := concat (map (fun f => be (fst f) (snd f)) s).

(* ------------------------------------------------------- usbip.go *)
(* usbip/usbip.go:55-59 usbipControlHeader *)
Definition control_header (command status : N) : bytes :=
  to_be [(2%nat, 0x0111); (2%nat, command); (4%nat, status)].

(* usbip/usbip.go:202-217 USBIPDeviceSummaryHeader *)
Record summary := mk_summary {
  sm_path : bytes; sm_busid : bytes;            (* [256]byte, [32]byte *)
  sm_busnum : N; sm_devnum : N; sm_speed : N;
  sm_vendor : N; sm_product : N; sm_bcd : N;
  sm_class : N; sm_subclass : N; sm_protocol : N;
  sm_config : N; sm_nconfig : N; sm_ninterfaces : N }.

Definition summary_bytes (s : summary) : bytes :=
  sm_path s ++ sm_busid s ++
  to_be [(4%nat, sm_busnum s); (4%nat, sm_devnum s); (4%nat, sm_speed s);
         (2%nat, sm_vendor s); (2%nat, sm_product s); (2%nat, sm_bcd s);
         (1%nat, sm_class s); (1%nat, sm_subclass s); (1%nat, sm_protocol s);
         (1%nat, sm_config s); (1%nat, sm_nconfig s); (1%nat, sm_ninterfaces s)].

(* usbip/usbip.go:244-249 USBIPDevice: the parts the server uses before import *)
Record device := mk_device { dv_busid : bytes; dv_summary : summary }.

(* usbip/usbip.go:69-89 newOpRepDevlist under util.ToBE.  The struct has a slice
   field, for which binary.Write returns an error (encoding/binary needs fixed-size
   values); ToBE ignores the error, the buffer is empty. *)
Definition to_be_devlist (devices : list device) : bytes := [].

(* usbip/usbip.go:91-109 newOpRepImport *)
Definition op_rep_import (d : device) : bytes :=
  control_header 0x0003 0 ++ summary_bytes (dv_summary d).

(* usbip/usbip.go:111-117 opRepImportError *)
Definition op_rep_import_error (status : N) : bytes := control_header 0x0003 status.

(* usbip/usbip.go:119-125 usbipMessageHeader *)
Record header := mk_header { hd_command : N; hd_seq : N; hd_devid : N; hd_dir : N; hd_ep : N }.

Definition parse_header (b : bytes) : header :=
  let f i := be_dec (takeN 4 (dropN i b)) in mk_header (f 0) (f 4) (f 8) (f 12) (f 16).

(* usbip/usbip.go:138-153 replyHeader; the map from commands *)
Definition reply_header (h : header) : bytes :=
  to_be [(4%nat, if hd_command h =? 1 then 3 else if hd_command h =? 2 then 4 else 0);
         (4%nat, hd_seq h); (4%nat, 0); (4%nat, 0); (4%nat, 0)].

(* usbip/usbip.go:155-162 usbipCommandSubmitBody: the two fields that are used *)
Record submit_body := mk_body { sb_length : N; sb_setup : bytes }.
Definition parse_body (b : bytes) : submit_body :=
  mk_body (be_dec (takeN 4 (dropN 4 b))) (takeN 8 (dropN 20 b)).

(* ------------------------------------------------------- usbip_server.go *)
(* usbip/usbip_server.go:49-58 getDevice: the first device with the bus id *)
Fixpoint get_device (devices : list device) (busid : bytes) (i : nat) : option (nat * device) :=
  match devices with
  | [] => None
  | d :: r => if bytes_eqb (dv_busid d) busid then Some (i, d) else get_device r busid (S i)
  end.

(* Control: in handle (lines 74-100).  Commands d: in handleCommands (102-118) for
   device number d.  Closed: handle panicked, Start (25-47) went on to Accept. *)
Inductive phase := Control | Commands (d : nat) | Closed.
Record conn := mk_conn { cn_phase : phase; cn_stream : stream }.

Inductive action :=
| ANone
| AWrite (reply : bytes)
| ASubmit (d : nat) (h : header) (setup : bytes) (buffer : bytes)
| AUnlink (d : nat) (h : header) (target : N).

(* usbip/usbip_server.go:120-126: reading a submit.  The buffer is zeroed and filled
   by one Read when the direction is OUT. *)
Definition read_submit (h : header) (s : stream) : option (submit_body * bytes * stream) :=
  let! (b, s1) := read_full 28 s in
  let body := parse_body b in
  if (hd_dir h =? 0) && (0 <? sb_length body) then
    let! (data, s2) := read_once (sb_length body) s1 in
    Some (body, pad data (N.to_nat (sb_length body)), s2)
  else Some (body, zeros (N.to_nat (sb_length body)), s1).

(* usbip/usbip_server.go:74-118: one iteration of the loop of handle or of handleCommands.  A failed read in
   handle panics out of it (caught by Try in Start); in handleCommands it is caught
   inside the loop, with all input consumed. *)
Definition conn_step (devices : list device) (c : conn) : conn * action :=
  match cn_phase c with
  | Control =>
    match read_full 8 (cn_stream c) with
    | None => (mk_conn Closed [], ANone)
    | Some (h, s1) =>
      let command := be_dec (takeN 2 (dropN 2 h)) in
      if command =? 0x8005 then (mk_conn Control s1, AWrite (to_be_devlist devices))
      else if command =? 0x8003 then
        match util_read 32 s1 with
        | None => (mk_conn Closed [], ANone)
        | Some (data, s2) =>
          match cstring data with
          | Panic => (mk_conn Closed [], ANone)
          | Ok busid =>
            match get_device devices busid 0 with
            | None => (mk_conn Control s2, AWrite (op_rep_import_error 1))
            | Some (i, d) => (mk_conn (Commands i) s2, AWrite (op_rep_import d))
            end
          end
        end
      else (mk_conn Control s1, ANone)
    end
  | Commands d =>
    match read_full 20 (cn_stream c) with
    | None => (mk_conn (Commands d) [], ANone)
    | Some (b, s1) =>
      let h := parse_header b in
      if hd_command h =? 1 then
        match read_submit h s1 with
        | None => (mk_conn (Commands d) [], ANone)
        | Some (body, buffer, s2) =>
          (mk_conn (Commands d) s2, ASubmit d h (sb_setup body) buffer)
        end
      else if hd_command h =? 2 then
        match read_full 28 s1 with
        | None => (mk_conn (Commands d) [], ANone)
        | Some (u, s2) => (mk_conn (Commands d) s2, AUnlink d h (be_dec (takeN 4 u)))
        end
      else (mk_conn (Commands d) s1, ANone)
    end
  | Closed => (c, ANone)
  end.

(* The first n iterations, with what they did. *)
Fixpoint conn_run (devices : list device) (n : nat) (c : conn) : conn * list action :=
  match n with
  | O => (c, [])
  | S m => let (c1, a) := conn_step devices c in
           let (c2, l) := conn_run devices m c1 in (c2, a :: l)
  end.

(* usbip/usbip_server.go:128-149 onReturnSubmit (copy overwrites a prefix) *)
Definition return_submit (h : header) (buffer : bytes) (response : option bytes) : bytes :=
  let tb := match response with
            | Some r => takeN (len buffer) r ++ dropN (len r) buffer
            | None => buffer
            end in
  reply_header h ++
  to_be [(4%nat, 0); (4%nat, len tb mod 4294967296); (4%nat, 0); (4%nat, 0); (4%nat, 0); (8%nat, 0)]
  ++ (if hd_dir h =? 1 then tb else []).

(* usbip/usbip_server.go:153-172 handleCommandUnlink; syscall.ECONNRESET = 104 and
   syscall.ENOENT = 2 (Linux), as int32 *)
Definition return_unlink (h : header) (removed : bool) : bytes :=
  reply_header h ++
  to_be [(4%nat, if removed then 4294967296 - 104 else 4294967296 - 2)] ++ zeros 24.

(* usb/usb_device.go:35-64 BusID, DeviceSummary *)
Definition ascii_bytes (s : string) : bytes := map N_of_ascii (list_ascii_of_string s).
Definition usb_device : device :=
  mk_device (ascii_bytes "2-2")
    (mk_summary (pad (ascii_bytes "/device/0") 256) (pad (ascii_bytes "2-2") 32)
       2 2 2 0 0 0 0 0 0 0 1 1).

(* ------------------------------------------------------- the accept test *)
(* usbip/usbip_server.go:35: strings.HasPrefix of the textual remote address, which
   net.TCPAddr.String formats as a.b.c.d:port for IPv4 (also when mapped into IPv6)
   and in brackets for IPv6. *)
Fixpoint decimal (fuel : nat) (n : N) : bytes :=
  match fuel with
  | O => []
  | S f => if n <? 10 then [48 + n] else decimal f (n / 10) ++ [48 + n mod 10]
  end.
Definition dec (n : N) : bytes := decimal 20 n.

Inductive address := IPv4 (a b c d : N) (port : N) | IPv6 (text : bytes) (port : N).

Definition address_string (a : address) : bytes :=
  match a with
  | IPv4 a b c d p => dec a ++ [46] ++ dec b ++ [46] ++ dec c ++ [46] ++ dec d ++ [58] ++ dec p
  | IPv6 t p => [91] ++ t ++ [93; 58] ++ dec p
  end.

Fixpoint has_prefix (p s : bytes) : bool :=
  match p, s with
  | [], _ => true
  | x :: p', y :: s' => (x =? y) && has_prefix p' s'
  | _, _ => false
  end.

Definition accepted (a : address) : bool :=
  has_prefix (ascii_bytes "127.0.0.1") (address_string a).

(* ------------------------------------------------------- the whole device *)
(* One connection to a server with the one USB device (client_usbip.go), with the
   goroutines: the reader (handle), the timers, and whatever calls handleResponse.
   sy_subs: the IN transfers in the order of their submission (header, buffer).
   sy_pending: the reader's next write.  sy_out: the writes made, each under
   responseMutex (lines 174-178).  sy_delegate: the messages handed to goroutines
   for the CTAPHID server.  sy_log: what the reader did (for the specifications). *)
Record sys := mk_sys {
  sy_conn : conn; sy_in : in_state; sy_subs : list (header * bytes);
  sy_pending : option bytes; sy_delegate : list bytes; sy_out : list bytes;
  sy_log : list action }.

Definition sys_init (s : stream) : sys :=
  mk_sys (mk_conn Control s) in_init [] None [] [] [].

Inductive sys_label :=
| SRead                                 (* the reader makes one iteration, up to its write *)
| SWrite                                (* the reader writes *)
| SRespond (choice : nat) (data : bytes)
| SRun (i : nat)
| STimeout (i : nat).

Definition opt_list {A} (o : option A) : list A := match o with Some a => [a] | None => [] end.

Definition sys_step (s : sys) (l : sys_label) : option sys :=
  match l with
  | SRead =>
    match sy_pending s with
    | Some _ => None
    | None =>
      let (c, a) := conn_step [usb_device] (sy_conn s) in
      let log := sy_log s ++ [a] in
      match a with
      | ANone => Some (mk_sys c (sy_in s) (sy_subs s) None (sy_delegate s) (sy_out s) log)
      | AWrite r => Some (mk_sys c (sy_in s) (sy_subs s) (Some r) (sy_delegate s) (sy_out s) log)
      | ASubmit d h setup buffer =>
        (* usb/usb_device.go:70-93 HandleMessage *)
        if hd_ep h =? 0 then
          match handle_control_message (read_setup setup) with
          | Ok r => Some (mk_sys c (sy_in s) (sy_subs s) (Some (return_submit h buffer r))
                            (sy_delegate s) (sy_out s) log)
          | Panic => (* caught by Try in handleCommands *)
            Some (mk_sys c (sy_in s) (sy_subs s) None (sy_delegate s) (sy_out s) log)
          end
        else if hd_ep h =? 1 then
          (* the callback, when it runs at once, runs in this step *)
          let now := snd (rb_request (in_buf (sy_in s)) (hd_seq h) (in_next (sy_in s))) in
          let! i := in_step (sy_in s) (ISubmit (hd_seq h)) in
          Some (mk_sys c i (sy_subs s ++ [(h, buffer)]) None (sy_delegate s)
            (sy_out s ++ match now with
                         | Some data => [return_submit h buffer (Some data)]
                         | None => []
                         end) log)
        else if hd_ep h =? 2 then
          Some (mk_sys c (sy_in s) (sy_subs s) (Some (return_submit h buffer None))
                  (sy_delegate s ++ [buffer]) (sy_out s) log)
        else Some (mk_sys c (sy_in s) (sy_subs s) None (sy_delegate s) (sy_out s) log)
      | AUnlink d h target =>
        let removed := snd (rb_cancel (in_buf (sy_in s)) target) in
        let! i := in_step (sy_in s) (IUnlink target) in
        Some (mk_sys c i (sy_subs s) (Some (return_unlink h removed)) (sy_delegate s) (sy_out s) log)
      end
    end
  | SWrite =>
    match sy_pending s with
    | Some f => Some (mk_sys (sy_conn s) (sy_in s) (sy_subs s) None (sy_delegate s)
                        (sy_out s ++ [f]) (sy_log s))
    | None => None
    end
  | SRespond choice data =>
    let! i := in_step (sy_in s) (IRespond choice data) in
    Some (mk_sys (sy_conn s) i (sy_subs s) (sy_pending s) (sy_delegate s) (sy_out s) (sy_log s))
  | SRun j =>
    let! f := nth_error (in_flight (sy_in s)) j in
    let! (h, buffer) := nth_error (sy_subs s) (fl_key f) in
    let! i := in_step (sy_in s) (IRun j) in
    Some (mk_sys (sy_conn s) i (sy_subs s) (sy_pending s) (sy_delegate s)
            (sy_out s ++ [return_submit h buffer (fl_value f)]) (sy_log s))
  | STimeout j =>
    let! i := in_step (sy_in s) (ITimeout j) in
    Some (mk_sys (sy_conn s) i (sy_subs s) (sy_pending s) (sy_delegate s) (sy_out s) (sy_log s))
  end.

Fixpoint sys_run (s : sys) (ls : list sys_label) : option sys :=
  match ls with
  | [] => Some s
  | l :: r => let! s' := sys_step s l in sys_run s' r
  end.
