(* The USB/IP client for Windows that the repository carries (cmd/demo/usbip/usbip-win)
   and that the demo starts there (cmd/demo/exec_windows.go): `usbip.exe attach` up to the
   handing over of the device to the driver, and `usbip.exe list -r`.  All integers in
   memory are little endian (Windows on x86 and ARM). *)
From Coq Require Import ZArith.
From Verif Require Import Base M_Util M_Usb M_ReqBuf M_Usbip.
Open Scope N_scope.

(* ------------------------------------------------------- a socket's user *)
(* What a program does with a connected socket.  Recv n is usbip_net_recv
   (userspace/lib/usbip_network.c:84-113), which loops over recv until n bytes have come;
   None is an error or the end of the connection.  Send is usbip_net_send (115-118); it is
   assumed to succeed. *)
Inductive prog (A : Type) :=
| Ret (a : A)
| Send (b : bytes) (k : prog A)
| Recv (n : N) (k : option bytes -> prog A).
Arguments Ret {A} a.
Arguments Send {A} b k.
Arguments Recv {A} n k.

(* A program talking to a server.  serve s sent: the server takes what the program has
   sent since (one chunk per send) and goes on as far as it can; it returns what it wrote
   and whether it has closed the connection.  A program that waits for bytes that do not
   come waits for ever: None. *)
Fixpoint talk {A S} (serve : S -> list bytes -> S * bytes * bool) (p : prog A)
    (sent : list bytes) (s : S) (got : bytes) : option A :=
  match p with
  | Ret a => Some a
  | Send b k => talk serve k (sent ++ [b]) s got
  | Recv n k =>
    if n =? 0 then talk serve (k (Some [])) sent s got else
    let '(s', out, closed) := serve s sent in
    let got' := got ++ out in
    if n <=? len got' then talk serve (k (Some (takeN n got'))) [] s' (dropN n got')
    else if closed then talk serve (k None) [] s' []
    else None
  end.

(* What went over the connection meanwhile, in the client's order (for the
   specifications). *)
Inductive event := Sent (b : bytes) | Got (b : bytes).

Fixpoint events {A S} (serve : S -> list bytes -> S * bytes * bool) (p : prog A)
    (sent : list bytes) (s : S) (got : bytes) : list event :=
  match p with
  | Ret a => []
  | Send b k => Sent b :: events serve k (sent ++ [b]) s got
  | Recv n k =>
    if n =? 0 then events serve (k (Some [])) sent s got else
    let '(s', out, closed) := serve s sent in
    let got' := got ++ out in
    if n <=? len got' then Got (takeN n got') :: events serve (k (Some (takeN n got'))) [] s' (dropN n got')
    else if closed then events serve (k None) [] s' []
    else []
  end.

(* ------------------------------------------------------- usbip_network.c *)
(* userspace/lib/usbip_network.h:24-32 op_common, usbip_network.c:120-140
   usbip_net_send_op_common; config.h:9 *)
Definition op_common (code status : N) : bytes := be 2 0x0111 ++ be 2 code ++ be 4 status.

(* usbip_network.c:142-181 usbip_net_recv_op_common with *code = code <> OP_UNSPEC: a
   negative number and the status, or 0.  userspace/lib/usbip_common.h:12-34. *)
Definition check_op_common (h : bytes) (code : N) : Z * N :=
  if negb (be_dec (takeN 2 h) =? 0x0111) then ((-4)%Z, 0)
  else if negb (be_dec (takeN 2 (dropN 2 h)) =? code) then ((-5)%Z, 0)
  else let status := be_dec (takeN 4 (dropN 4 h)) in
       if negb (status =? 0) then ((-6)%Z, status) else (0%Z, 0).

(* ------------------------------------------------------- usbip_dscr.c *)
(* userspace/src/usbip/usbip_dscr.c:15-28: the CMD_SUBMIT; seqnum is not brought into
   network order.  include/usbip_proto.h:23-120. *)
Definition dscr_request (seq typ devid size : N) : bytes :=
  be 4 1 ++ le 4 seq ++ be 4 devid ++ be 4 1 ++ le 4 0 ++
  le 4 0 ++ be 4 size ++ le 4 0 ++ le 4 0 ++ le 4 0 ++
  [0x80; 6; 0; typ mod 256; 0; 0] ++ le 2 size.

(* usbip_dscr.c:9-50 fetch_descriptor into a buffer of cap bytes.  recv is called with
   the length the server announces; the program ends with over when that is more than the
   buffer holds (what happens then depends on the memory behind it). *)
Definition fetch_descriptor {A} (over : N -> N -> A) (seq typ devid size cap : N)
    (k : option bytes -> prog A) : prog A :=
  Send (dscr_request seq typ devid size)
    (Recv 48 (fun r =>
       match r with
       | None => k None
       | Some h =>
         if negb (le_dec (takeN 4 (dropN 20 h)) =? 0) then k None else
         let alen := be_dec (takeN 4 (dropN 24 h)) in
         if alen <? size then k None
         else if cap <? alen then Ret (over cap alen)
         else Recv alen k
       end)).

(* usbip_dscr.c:59-78 fetch_conf_descriptor with dscr == NULL: the length in bytes 2 and 3
   (an unsigned short) of the first nine *)
Definition fetch_conf_length {A} (over : N -> N -> A) (seq devid : N)
    (k : option N -> prog A) : prog A :=
  fetch_descriptor over seq 2 devid 9 9 (fun r =>
    match r with
    | None => k None
    | Some buf => k (Some (le_dec (takeN 2 (dropN 2 buf)) mod 65536))
    end).

(* usbip_dscr.c:59-78 with a buffer of cap bytes of which the caller says it has plen *)
Definition fetch_conf {A} (over : N -> N -> A) (seq devid plen cap : N)
    (k : option bytes -> prog A) : prog A :=
  fetch_conf_length over seq devid (fun r =>
    match r with
    | None => k None
    | Some alen => if plen <? alen then k None
                   else fetch_descriptor over ((seq + 1) mod 4294967296) 2 devid alen cap k
    end).

(* ------------------------------------------------------- usbip_attach.c *)
(* include/usbip_vhci_api.h:62-72: size of vhci_pluginfo_t and offset of dscr_conf in it
   (wchar_t has two bytes, long and int four) *)
Definition sizeof_pluginfo : N := 296.
Definition offset_dscr_conf : N := 284.

Inductive attach_result :=
| Failed (code : Z)                           (* query_import_device returns it *)
| Overrun (cap n : N)                         (* n bytes received into cap *)
| Aborted                                     (* the C library's parameter check *)
| Plugged (devid : N) (dev conf : bytes).     (* the pluginfo given to the driver *)

(* usbip_attach.c:73-106 build_pluginfo.  The malloc succeeds.  After a failure of the
   fetches query_import_device returns ERR_GENERAL (173-174). *)
Definition build_pluginfo (seq devid : N) : prog attach_result :=
  let next n := (seq + n) mod 4294967296 in
  fetch_conf_length Overrun seq devid (fun r =>
    match r with
    | None => Ret (Failed (-1))
    | Some conf_len =>
      fetch_descriptor Overrun (next 1) 1 devid 18 18 (fun r =>
        match r with
        | None => Ret (Failed (-1))
        | Some dev =>
          fetch_conf Overrun (next 2) devid conf_len
            (sizeof_pluginfo + conf_len - 9 - offset_dscr_conf) (fun r =>
            match r with
            | None => Ret (Failed (-1))
            | Some conf => Ret (Plugged devid dev conf)
            end)
        end)
    end).

(* strncmp of at most n characters; both stop at a NUL *)
Fixpoint strncmp (n : nat) (a b : bytes) : bool :=
  match n with
  | O => true
  | S m =>
    let x := nth 0 a 0 in let y := nth 0 b 0 in
    if negb (x =? y) then false else if x =? 0 then true else strncmp m (tl a) (tl b)
  end.

(* usbip_attach.c:108-186 query_import_device without the driver's part (import_device).
   busid is the text of the argument without its NUL.  strncpy_s of 32 or more characters
   into 32 bytes is a parameter error, which ends the process. *)
Definition query_import (busid : bytes) (seq : N) : prog attach_result :=
  Send (op_common 0x8003 0)
    (if 32 <=? len busid then Ret Aborted else
     Send (pad busid 32)
       (Recv 8 (fun r =>
          match r with
          | None => Ret (Failed (-3))
          | Some h =>
            match check_op_common h 0x0003 with
            | (0%Z, _) =>
              Recv 312 (fun r =>
                match r with
                | None => Ret (Failed (-3))
                | Some u =>
                  if negb (strncmp 32 (takeN 32 (dropN 256 u)) busid) then Ret (Failed (-5))
                  else
                    let busnum := be_dec (takeN 4 (dropN 288 u)) in
                    let devnum := be_dec (takeN 4 (dropN 292 u)) in
                    build_pluginfo seq (N.lor (N.shiftl busnum 16 mod 4294967296) devnum)
                end)
            | ((-6)%Z, status) =>
              Ret (Failed (if status =? 4 then -8 else if status =? 2 then -7 else -6))
            | (code, _) => Ret (Failed code)
            end
          end))).

(* usbip_attach.c:280-299: what attach_device prints for a negative code *)
Inductive attach_message := NoDriver | AlreadyUsed | NonExistent | NoPort | FailedToAttach.
Definition message_for (code : Z) : attach_message :=
  match code with
  | (-9)%Z => NoDriver
  | (-7)%Z => AlreadyUsed
  | (-8)%Z => NonExistent
  | (-10)%Z => NoPort
  | _ => FailedToAttach
  end.

(* userspace/src/usbip/usbip_dscr.c:7 *)
Definition first_seqnum : N := 0x7ffffff.

(* ------------------------------------------------------- usbip_list_remote.c *)
(* userspace/lib/usbip_common.h:95-124: usbip_usb_interface (four bytes) and
   usbip_usb_device (312 bytes) in memory order; usbip_network.c:66-82 brings the integers
   into host order. *)
Definition sizeof_interface : N := 4.
Definition sizeof_udev : N := 312.

Record listed := mk_listed { li_device : bytes; li_interfaces : list bytes }.

Inductive list_result :=
| ListFailed (code : Z)
| Listed (l : list listed).

(* usbip_list_remote.c:91-108: the interfaces of a device *)
Fixpoint list_interfaces (n : nat) (acc : list bytes) (k : option (list bytes) -> prog list_result)
    : prog list_result :=
  match n with
  | O => k (Some acc)
  | S m => Recv sizeof_interface (fun r =>
             match r with
             | None => k None
             | Some i => list_interfaces m (acc ++ [i]) k
             end)
  end.

(* usbip_list_remote.c:65-111: the devices.  bNumInterfaces is the last byte of
   usbip_usb_device.  The result is what is printed, as bytes. *)
Fixpoint list_devices (n : nat) (acc : list listed) : prog list_result :=
  match n with
  | O => Ret (Listed acc)
  | S m => Recv sizeof_udev (fun r =>
             match r with
             | None => Ret (ListFailed (-3))
             | Some u =>
               list_interfaces (N.to_nat (nth 311 u 0)) [] (fun r =>
                 match r with
                 | None => Ret (ListFailed (-3))
                 | Some is => list_devices m (acc ++ [mk_listed u is])
                 end)
             end)
  end.

(* usbip_list_remote.c:27-114 get_exported_devices *)
Definition get_exported_devices : prog list_result :=
  Send (op_common 0x8005 0)
    (Recv 8 (fun r =>
       match r with
       | None => Ret (ListFailed (-3))
       | Some h =>
         match check_op_common h 0x0005 with
         | (0%Z, _) =>
           Recv 4 (fun r =>
             match r with
             | None => Ret (ListFailed (-1))
             | Some n => list_devices (N.to_nat (be_dec n)) []
             end)
         | (code, _) => Ret (ListFailed code)
         end
       end)).

(* ------------------------------------------------------- with the Go server *)
(* The Go server as the other end of a socket.  It reads when what it reads has come (a
   Read blocks until then), so it is run on what has been sent while there is any, one
   iteration of its loop and the write at a time. *)
Definition feed (s : sys) (sent : list bytes) : sys :=
  mk_sys (mk_conn (cn_phase (sy_conn s)) (cn_stream (sy_conn s) ++ sent)) (sy_in s) (sy_subs s)
    (sy_pending s) (sy_delegate s) (sy_out s) (sy_log s).

Definition closed_phase (p : phase) : bool := match p with Closed => true | _ => false end.

Fixpoint go_on (fuel : nat) (s : sys) : sys :=
  match fuel with
  | O => s
  | S f =>
    if len (concat (cn_stream (sy_conn s))) =? 0 then s else
    if closed_phase (cn_phase (sy_conn s)) then s else
    match sys_step s SRead with
    | None => s
    | Some s1 => go_on f (match sys_step s1 SWrite with Some s2 => s2 | None => s1 end)
    end
  end.

Definition go_serve (s : sys) (sent : list bytes) : sys * bytes * bool :=
  let s0 := feed s sent in
  let s' := go_on (length (concat (cn_stream (sy_conn s0)))) s0 in
  (s', concat (skipn (length (sy_out s)) (sy_out s')), closed_phase (cn_phase (sy_conn s'))).

(* usbip.exe attach -b busid, usbip.exe list -r against a server that was just started *)
Definition attach_go (busid : bytes) (seq : N) : option attach_result :=
  talk go_serve (query_import busid seq) [] (sys_init []) [].
Definition list_go : option list_result :=
  talk go_serve get_exported_devices [] (sys_init []) [].
