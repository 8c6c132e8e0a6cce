(* The Windows client after the attach: cmd/demo/usbip/usbip-win/userspace/lib/
   usbip_forward.c, the loop that carries requests from the driver (vhci) to the socket and
   replies from the socket to the driver.  Line numbers are those of that file.  Integers
   in memory are little endian; DWORD, int and long have 32 bits, size_t has 64. *)
From Verif Require Import Base.
Open Scope N_scope.

Definition u32mod (n : N) : N := n mod 4294967296.

(* ------------------------------------------------------- headers *)
(* htonl, ntohl of the four bytes at i of a header *)
Definition swap32 (h : bytes) (i : N) : bytes :=
  takeN i h ++ rev (takeN 4 (dropN i h)) ++ dropN (i + 4) h.

(* 168-176 swap_usbip_header_base_endian *)
Definition swap_base (h : bytes) : bytes := fold_left swap32 [0; 4; 8; 12; 16] h.

(* 178-231 swap_cmd_submit_endian, swap_ret_submit_endian, swap_cmd_unlink_endian,
   swap_ret_unlink_endian, swap_usbip_header_cmd *)
Definition swap_cmd (cmd : N) (h : bytes) : bytes :=
  if (cmd =? 1) || (cmd =? 3) then fold_left swap32 [20; 24; 28; 32; 36] h
  else if (cmd =? 2) || (cmd =? 4) then swap32 h 20
  else h.

Definition host32 (i : N) (h : bytes) : N := le_dec (takeN 4 (dropN i h)).

(* 233-247 swap_usbip_header_endian *)
Definition swap_header (from_swapped : bool) (h : bytes) : bytes :=
  if from_swapped then let h' := swap_base h in swap_cmd (host32 0 h') h'
  else swap_cmd (host32 0 h) (swap_base h).

(* 249-263 swap_iso_descs_endian, of n words *)
Fixpoint swap_words (n : nat) (b : bytes) : bytes :=
  match n with
  | O => b
  | S m => rev (takeN 4 b) ++ swap_words m (dropN 4 b)
  end.

(* ------------------------------------------------------- hdrs_cache *)
(* 283-291: sequence number and direction at each of the 1024 places *)
Definition cache := N -> N * N.
Definition cache0 : cache := fun _ => (0, 0).

(* 293-300 hdrs_cache_insert; seqnum is unsigned *)
Definition cache_insert (c : cache) (seq dir : N) : cache :=
  fun i => if i =? seq mod 1024 then (seq, dir) else c i.

Definition set32 (h : bytes) (i v : N) : bytes := takeN i h ++ le 4 v ++ dropN (i + 4) h.

(* 302-316 hdrs_cache_direction: the header, and the direction *)
Definition cache_direction (c : cache) (h : bytes) : bytes * N :=
  let seq := host32 4 h in
  let (s, d) := c (seq mod 1024) in
  if seq =? s then (set32 h 12 d, d) else (h, host32 12 h).

(* 318-336 get_xfer_len *)
Definition get_xfer_len (is_req : bool) (c : cache) (h : bytes) : cache * bytes * N :=
  if is_req then
    if host32 0 h =? 2 then (c, h, 0) else
    let c' := cache_insert c (host32 4 h) (host32 12 h) in
    (c', h, if host32 12 h =? 0 then host32 24 h else 0)
  else
    if host32 0 h =? 4 then (c, h, 0) else
    let (h', d) := cache_direction c h in
    (c, h', if d =? 0 then 0 else host32 24 h').

(* 338-352 get_iso_len: the product has 64 bits, the result 32; number_of_packets is an
   int, which becomes a large number when negative (all the same modulo 2^32) *)
Definition get_iso_len (is_req : bool) (h : bytes) : N :=
  if host32 0 h =? (if is_req then 2 else 4) then 0 else u32mod (16 * host32 32 h).

(* the iterations of the loop at 256: none when the number is negative *)
Definition iso_descs (h : bytes) : N := if host32 32 h <? 2147483648 then host32 32 h else 0.

(* ------------------------------------------------------- one way *)
(* A devbuf_t (16-35) that is read from, with the in_writing flag of its peer: rbuff and
   wbuff of read_write_dev.  pi_p: the offp bytes at bufp; pi_c: the bytes at bufc when the
   consumer has a buffer of its own.  pi_reading: the size of the read in progress;
   pi_writing: what is being written.  Allocations do not fail; reads and writes do not
   end with an error, nor with 0 bytes (the end of the connection). *)
Record pipe := mk_pipe {
  pi_req : bool; pi_swap_in : bool; pi_swap_out : bool;
  pi_reading : option N; pi_step : N;
  pi_same : bool;                               (* bufp == bufc *)
  pi_p : bytes; pi_offhdr : N; pi_maxp : N;
  pi_c : bytes; pi_offc : N; pi_maxc : N;
  pi_writing : option bytes;
  pi_in : bytes; pi_out : list bytes }.         (* everything read; the writes *)

(* 365-391 init_devbuf *)
Definition pipe0 (is_req swap_in swap_out : bool) : pipe :=
  mk_pipe is_req swap_in swap_out None 0 true [] 0 1024 [] 0 0 None [] [].

(* 9-11 BUFREAD_P, BUFREMAIN_C *)
Definition bufread (p : pipe) : N := len (pi_p p) - pi_offhdr p.
Definition bufremain (p : pipe) : N := pi_maxc p - pi_offc p.

(* 419-468 read_devbuf; it is called when no read is in progress.  Panic: bytes were, or
   are going to be, stored outside the allocation. *)
Definition start_read (p : pipe) (n : N) : res pipe :=
  if pi_maxp p <? len (pi_p p) + n then Panic else
  Ok (mk_pipe (pi_req p) (pi_swap_in p) (pi_swap_out p) (Some n) (pi_step p) (pi_same p)
        (pi_p p) (pi_offhdr p) (pi_maxp p) (pi_c p) (pi_offc p) (pi_maxc p) (pi_writing p)
        (pi_in p) (pi_out p)).

Definition read_devbuf (p : pipe) (nreq : N) : res pipe :=
  let room := pi_maxp p - len (pi_p p) in
  if room <? nreq then
    if negb (pi_same p) then
      start_read
        (mk_pipe (pi_req p) (pi_swap_in p) (pi_swap_out p) (pi_reading p) (pi_step p) (pi_same p)
           (pi_p p) (pi_offhdr p) (u32mod (pi_maxp p + (nreq - room))) (pi_c p) (pi_offc p)
           (pi_maxc p) (pi_writing p) (pi_in p) (pi_out p)) nreq
    else
      let nexist := bufread p in
      let size := u32mod (nreq + nexist) in
      if size <? nexist then Panic else
      start_read
        (mk_pipe (pi_req p) (pi_swap_in p) (pi_swap_out p) (pi_reading p) (pi_step p) false
           (dropN (pi_offhdr p) (pi_p p)) 0 size (pi_p p) (pi_offc p)
           (pi_maxc p) (pi_writing p) (pi_in p) (pi_out p)) nreq
  else start_read p nreq.

Definition set_header (p : pipe) (step : N) (h : bytes) (rest : bytes) : pipe :=
  mk_pipe (pi_req p) (pi_swap_in p) (pi_swap_out p) (pi_reading p) step (pi_same p)
    (takeN (pi_offhdr p) (pi_p p) ++ h ++ rest) (pi_offhdr p) (pi_maxp p)
    (pi_c p) (pi_offc p) (pi_maxc p) (pi_writing p) (pi_in p) (pi_out p).

Definition set_step (p : pipe) (step : N) : pipe :=
  mk_pipe (pi_req p) (pi_swap_in p) (pi_swap_out p) (pi_reading p) step (pi_same p)
    (pi_p p) (pi_offhdr p) (pi_maxp p)
    (pi_c p) (pi_offc p) (pi_maxc p) (pi_writing p) (pi_in p) (pi_out p).

(* 554-559: the end of read_dev *)
Definition pdu_done (p : pipe) (n : N) : pipe :=
  mk_pipe (pi_req p) (pi_swap_in p) (pi_swap_out p) (pi_reading p) 0 (pi_same p)
    (pi_p p) (pi_offhdr p + n) (pi_maxp p)
    (pi_c p) (pi_offc p) (if pi_same p then len (pi_p p) else pi_maxc p) (pi_writing p)
    (pi_in p) (pi_out p).

(* 511-560 read_dev: the cache, the devbuf and whether it returns 1 *)
Definition read_dev (c : cache) (p : pipe) : res (cache * pipe * bool) :=
  if bufread p <? 48 then
    let? p' := read_devbuf (set_step p 1) (48 - bufread p) in Ok (c, p', false)
  else
    let h := takeN 48 (dropN (pi_offhdr p) (pi_p p)) in
    let d := dropN (pi_offhdr p + 48) (pi_p p) in
    let h1 := if (pi_step p =? 1) && pi_swap_in p then swap_header true h else h in
    let step := if pi_step p =? 1 then 2 else pi_step p in
    let '(c', h2, xfer) := get_xfer_len (pi_req p) c h1 in
    let iso := get_iso_len (pi_req p) h2 in
    let len_data := u32mod (xfer + iso) in
    let p1 := set_header p step h2 d in
    if bufread p <? len_data + 48 then
      let? p' := read_devbuf p1 (u32mod (u32mod (len_data + 48) + (4294967296 - bufread p))) in
      Ok (c', p', false)
    else
      let n := iso_descs h2 in
      if (0 <? iso) && (0 <? n) && (len d <? xfer + 16 * n) then Panic else
      let d' := if (0 <? iso) && (pi_swap_in p || pi_swap_out p)
                then takeN xfer d ++ swap_words (N.to_nat (4 * n)) (dropN xfer d) else d in
      let h3 := if pi_swap_out p then swap_header false h2 else h2 in
      Ok (c', pdu_done (set_header p step h3 d') (48 + len_data), true).

(* 491-509 write_devbuf *)
Definition write_devbuf (p : pipe) : pipe :=
  let p1 := if negb (pi_same p) && (bufremain p =? 0) then
              mk_pipe (pi_req p) (pi_swap_in p) (pi_swap_out p) (pi_reading p) (pi_step p) true
                (pi_p p) (pi_offhdr p) (pi_maxp p) [] 0 (pi_offhdr p) (pi_writing p)
                (pi_in p) (pi_out p)
            else p in
  match pi_writing p1 with
  | Some _ => p1
  | None =>
    if bufremain p1 =? 0 then p1 else
    mk_pipe (pi_req p1) (pi_swap_in p1) (pi_swap_out p1) (pi_reading p1) (pi_step p1) (pi_same p1)
      (pi_p p1) (pi_offhdr p1) (pi_maxp p1) (pi_c p1) (pi_offc p1) (pi_maxc p1)
      (Some (takeN (bufremain p1) (dropN (pi_offc p1) (if pi_same p1 then pi_p p1 else pi_c p1))))
      (pi_in p1) (pi_out p1)
  end.

(* 562-574 read_write_dev *)
Definition turn (c : cache) (p : pipe) : res (cache * pipe) :=
  match pi_reading p with
  | Some _ => Ok (c, write_devbuf p)
  | None =>
    let? r := read_dev c p in
    let '(c', p', complete) := r in
    Ok (c', if complete then write_devbuf p' else p')
  end.

(* 401-417 read_completion, 470-489 write_completion *)
Definition read_done (p : pipe) (data : bytes) : option pipe :=
  match pi_reading p with
  | Some n =>
    if (len data =? 0) || (n <? len data) then None else
    Some (mk_pipe (pi_req p) (pi_swap_in p) (pi_swap_out p) None (pi_step p) (pi_same p)
            (pi_p p ++ data) (pi_offhdr p) (pi_maxp p) (pi_c p) (pi_offc p) (pi_maxc p)
            (pi_writing p) (pi_in p ++ data) (pi_out p))
  | None => None
  end.

Definition write_done (p : pipe) (n : N) : option pipe :=
  match pi_writing p with
  | Some b =>
    if (n =? 0) || (len b <? n) then None else
    Some (mk_pipe (pi_req p) (pi_swap_in p) (pi_swap_out p) (pi_reading p) (pi_step p) (pi_same p)
            (pi_p p) (pi_offhdr p) (pi_maxp p) (pi_c p) (pi_offc p + n) (pi_maxc p)
            None (pi_in p) (pi_out p ++ [takeN n b]))
  | None => None
  end.

(* ------------------------------------------------------- both ways *)
(* usbip_forward, called with inbound = FALSE.  fw_log, for the specifications: the
   headers it has seen, that is number, direction (of requests), transfer_buffer_length or
   actual_length, and number_of_packets. *)
Inductive seen := SawRequest (seq dir n packets : N) | SawReply (seq n packets : N).

Record fwd := mk_fwd {
  fw_cache : cache; fw_req : pipe; fw_rep : pipe; fw_log : list seen;
  fw_waiting : bool }.                          (* in WaitForSingleObjectEx *)

Definition fwd0 : fwd :=
  mk_fwd cache0 (pipe0 true false true) (pipe0 false true false) [] false.

(* what the turn of a pipe logs: a header it has not worked on before *)
Definition sees (p : pipe) : list seen :=
  match pi_reading p with
  | Some _ => []
  | None =>
    if negb (pi_step p =? 2) && (48 <=? bufread p) then
      let h := takeN 48 (dropN (pi_offhdr p) (pi_p p)) in
      let h1 := if (pi_step p =? 1) && pi_swap_in p then swap_header true h else h in
      if pi_req p
      then if host32 0 h1 =? 2 then [] else
           [SawRequest (host32 4 h1) (host32 12 h1) (host32 24 h1) (host32 32 h1)]
      else if host32 0 h1 =? 4 then [] else
           [SawReply (host32 4 h1) (host32 24 h1) (host32 32 h1)]
    else []
  end.

(* 639-641: the loop goes to wait when both pipes are being read and neither has anything
   to write that is not being written *)
Definition idle (p : pipe) : bool :=
  match pi_reading p with None => false | Some _ => true end &&
  match pi_writing p with Some _ => true | None => bufremain p =? 0 end.

(* Iterate: one iteration of the loop (631-645), up to the wait.  ReadDone, WriteDone: a
   completion routine; they run only while the loop waits, any number of them (the wait is
   alertable).  Here the loop may also go on without any. *)
Inductive fwd_label :=
| Iterate
| ReadDone (req : bool) (data : bytes)
| WriteDone (req : bool) (n : N).

Definition pipe_of (f : fwd) (req : bool) : pipe := if req then fw_req f else fw_rep f.
Definition with_pipe (f : fwd) (req : bool) (p : pipe) : fwd :=
  if req then mk_fwd (fw_cache f) p (fw_rep f) (fw_log f) (fw_waiting f)
  else mk_fwd (fw_cache f) (fw_req f) p (fw_log f) (fw_waiting f).

Definition iterate (f : fwd) : res fwd :=
  let? x := turn (fw_cache f) (fw_req f) in
  let (c1, q) := x in
  let? y := turn c1 (fw_rep f) in
  let (c2, r) := y in
  Ok (mk_fwd c2 q r (fw_log f ++ sees (fw_req f) ++ sees (fw_rep f)) (idle q && idle r)).

(* None: the label does not apply.  Panic: memory was corrupted. *)
Definition fwd_step (f : fwd) (l : fwd_label) : option (res fwd) :=
  match l with
  | Iterate => Some (iterate f)
  | ReadDone r data =>
    if fw_waiting f then let! p := read_done (pipe_of f r) data in Some (Ok (with_pipe f r p)) else None
  | WriteDone r n =>
    if fw_waiting f then let! p := write_done (pipe_of f r) n in Some (Ok (with_pipe f r p)) else None
  end.

Fixpoint fwd_run (f : fwd) (ls : list fwd_label) : option (res fwd) :=
  match ls with
  | [] => Some (Ok f)
  | l :: r =>
    match fwd_step f l with
    | Some (Ok f') => fwd_run f' r
    | other => other
    end
  end.
