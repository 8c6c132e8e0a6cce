(* Specification vocabulary for whole USB/IP sessions: what the reader logged, which
   control requests the device supports, how replies relate to requests. *)
From Verif Require Import Base M_Usb M_Usbip S_Usbip.

(* the submits and unlinks the reader has read, in order *)
Definition submits_of (log : list action) : list (header * bytes * bytes) :=
  flat_map (fun a => match a with ASubmit _ h st b => [(h, st, b)] | _ => [] end) log.
Definition unlinks_of (log : list action) : list header :=
  flat_map (fun a => match a with AUnlink _ h _ => [h] | _ => [] end) log.
Definition submit_seqs (log : list action) : list N :=
  map (fun x => hd_seq (fst (fst x))) (submits_of log).

(* The control requests the device supports, on the eight setup bytes:
   to the device GET_STATUS, SET_CONFIGURATION, GET_DESCRIPTOR of types 1, 2 and of
   strings 0..5; to the interface SET_IDLE, SET_PROTOCOL and the HID report. *)
Definition supported_control (st : bytes) : bool :=
  let recipient := nth 0 st 0 mod 16 in
  let request := nth 1 st 0 in
  let index := nth 2 st 0 in
  let typ := nth 3 st 0 in
  if recipient =? 0 then
    (request =? 0) || (request =? 9) ||
    (request =? 6) && ((typ =? 1) || (typ =? 2) || (typ =? 3) && (index <? 6))
  else if recipient =? 1 then
    (request =? 10) || (request =? 11) || (request =? 6) && (typ =? 34)
  else false.

(* submits the device answers unless they are unlinked *)
Definition supported (x : header * bytes * bytes) : bool :=
  let '(h, st, _) := x in
  (hd_ep h =? 1) || (hd_ep h =? 2) || (hd_ep h =? 0) && supported_control st.

(* a frame written on the connection, and how a client reads it *)
Inductive reply_to (log : list action) : bytes -> N * N * N * bytes -> Prop :=
| reply_submit h st b payload :
    In (h, st, b) (submits_of log) ->
    len payload = (if hd_dir h =? 1 then len b else 0) ->
    reply_to log (spec_ret_submit (hd_seq h) (len b) payload) (3, hd_seq h, 0, payload)
| reply_unlink h removed :
    In h (unlinks_of log) ->
    reply_to log (spec_ret_unlink (hd_seq h) removed) (4, hd_seq h, spec_status removed, []).

(* a reply of the control phase *)
Definition control_reply (f : bytes) : Prop :=
  f = [] \/ f = op_rep_import_error 1 \/ f = op_rep_import usb_device.

(* nothing is left to be done for the requests read so far *)
Definition session_quiet (s : sys) : Prop :=
  sy_pending s = None /\ M_ReqBuf.in_timers (sy_in s) = [] /\ M_ReqBuf.in_flight (sy_in s) = [].

(* the sequence numbers of the RET_UNLINKs in a list of frames *)
Definition unlink_answers (out : list bytes) : list N :=
  map (u32_at 4) (filter (fun f => bytes_eqb (takeN 4 f) (be 4 4)) out).
