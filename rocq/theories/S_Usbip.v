(* Specification of the USB/IP protocol as the client sees it, on flat byte strings,
   from the protocol document (kernel Documentation/usb/usbip_protocol). *)
From Verif Require Import Base.

(* ---- what a client sends; [head] may be cut anywhere, [data] follows it *)
Inductive message :=
| MDevlist (version status : N)
| MImport (version status : N) (field : bytes)                  (* 32 bytes *)
| MSubmit (seq devid dir ep flags start packets interval : N)   (* dir 0: OUT *)
    (n : N) (setup data : bytes)
| MUnlink (seq devid dir ep target : N) (padding : bytes).

Definition head (m : message) : bytes :=
  match m with
  | MDevlist v s => be 2 v ++ be 2 0x8005 ++ be 4 s
  | MImport v s _ => be 2 v ++ be 2 0x8003 ++ be 4 s
  | MSubmit seq devid dir ep flags start packets interval n setup _ =>
    be 4 1 ++ be 4 seq ++ be 4 devid ++ be 4 dir ++ be 4 ep ++
    be 4 flags ++ be 4 n ++ be 4 start ++ be 4 packets ++ be 4 interval ++ setup
  | MUnlink seq devid dir ep target padding =>
    be 4 2 ++ be 4 seq ++ be 4 devid ++ be 4 dir ++ be 4 ep ++ be 4 target ++ padding
  end.

Definition data (m : message) : bytes :=
  match m with
  | MImport _ _ field => field
  | MSubmit _ _ _ _ _ _ _ _ _ _ d => d
  | _ => []
  end.

Definition message_bytes (m : message) : bytes := head m ++ data m.

Definition u32 (n : N) : Prop := n < 4294967296.

Definition well_formed (m : message) : Prop :=
  match m with
  | MDevlist v s => v < 65536 /\ u32 s
  | MImport v s field => v < 65536 /\ u32 s /\ len field = 32
  | MSubmit seq devid dir ep flags start packets interval n setup d =>
    u32 seq /\ u32 devid /\ u32 dir /\ u32 ep /\ u32 n /\ len setup = 8 /\
    (if dir =? 0 then len d = n else d = [])
  | MUnlink seq devid dir ep target padding =>
    u32 seq /\ u32 devid /\ u32 dir /\ u32 ep /\ u32 target /\ len padding = 24
  end.

(* ---- segmentation: where the chunks end *)
Fixpoint boundaries (off : N) (chunks : list bytes) : list N :=
  match chunks with
  | [] => []
  | c :: r => (off + len c) :: boundaries (off + len c) r
  end.

(* no chunk ends strictly inside the bytes [start, start + n) *)
Definition uncut (chunks : list bytes) (start n : N) : Prop :=
  Forall (fun b => b <= start \/ start + n <= b) (boundaries 0 chunks).

(* the positions of the data parts in the stream of messages *)
Fixpoint data_spans (off : N) (ms : list message) : list (N * N) :=
  match ms with
  | [] => []
  | m :: r => (off + len (head m), len (data m)) :: data_spans (off + len (message_bytes m)) r
  end.

(* a segmentation of the messages that cuts no data part *)
Definition data_uncut (ms : list message) (chunks : list bytes) : Prop :=
  concat chunks = concat (map message_bytes ms) /\
  Forall (fun sp => uncut chunks (fst sp) (snd sp)) (data_spans 0 ms).

(* ---- the name in a 32-byte bus id field *)
Definition named (field name : bytes) : Prop :=
  exists junk, field = name ++ 0 :: junk /\ ~ In 0 name.

(* ---- the 312-byte description of a device: path (256 bytes), bus id (32), then busnum,
   devnum, speed (4 bytes each), idVendor, idProduct, bcdDevice (2), bDeviceClass,
   bDeviceSubClass, bDeviceProtocol, bConfigurationValue, bNumConfigurations,
   bNumInterfaces (1), all big endian *)
Definition description_fields : list (N * N) :=
  [(288, 4); (292, 4); (296, 4); (300, 2); (302, 2); (304, 2);
   (306, 1); (307, 1); (308, 1); (309, 1); (310, 1); (311, 1)].
Definition fields_at (layout : list (N * N)) (b : bytes) : list N :=
  map (fun f => be_dec (takeN (snd f) (dropN (fst f) b))) layout.
Definition describes (b path busid : bytes) (fields : list N) : Prop :=
  len b = 312 /\ takeN 256 b = path /\ takeN 32 (dropN 256 b) = busid /\
  fields_at description_fields b = fields.

(* ---- the client's reader: 48 bytes, then for the answer (command 3) to an IN
   transfer actual_length bytes.  Result: (command, seq, status, payload). *)
Definition u32_at (i : N) (b : bytes) : N := be_dec (takeN 4 (dropN i b)).

Fixpoint client_read (fuel : nat) (is_in : N -> bool) (s : bytes)
    : option (list (N * N * N * bytes)) :=
  match s, fuel with
  | [], _ => Some []
  | _, O => None
  | _, S f =>
    if len s <? 48 then None else
    let command := u32_at 0 s in
    let seq := u32_at 4 s in
    let n := if (command =? 3) && is_in seq then u32_at 24 s else 0 in
    if len s <? 48 + n then None else
    match client_read f is_in (dropN (48 + n) s) with
    | Some l => Some ((command, seq, u32_at 20 s, takeN n (dropN 48 s)) :: l)
    | None => None
    end
  end.

(* ---- the exact reply to a transfer of length n with device response r *)
Definition spec_transfer (n : N) (r : bytes) : bytes :=
  takeN n r ++ zeros (N.to_nat (n - len r)).

Definition spec_ret_submit (seq n : N) (payload : bytes) : bytes :=
  be 4 3 ++ be 4 seq ++ zeros 12 ++ be 4 0 ++ be 4 n ++ zeros 20 ++ payload.

Definition spec_ret_unlink (seq : N) (removed : bool) : bytes :=
  be 4 4 ++ be 4 seq ++ zeros 12 ++
  (if removed then [0xFF; 0xFF; 0xFF; 0x98] else [0xFF; 0xFF; 0xFF; 0xFE]) ++ zeros 24.

(* a frame in the output that answers submit seq *)
Definition answers (seq : N) (frame : bytes) : bool :=
  bytes_eqb (takeN 8 frame) (be 4 3 ++ be 4 seq).
Definition answered (seq : N) (out : list bytes) : nat := length (filter (answers seq) out).

(* ---- vocabulary for whole executions *)
Definition spec_status (removed : bool) : N := if removed then 4294967192 else 4294967294.
