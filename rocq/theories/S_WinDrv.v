(* What the Windows client's driver should make of the request blocks that it is given. *)
From Verif Require Import Base S_Usbip S_WinFwd M_WinFwd M_WinDrv.
Open Scope N_scope.

(* ---- USB: setup packets *)
Definition request8 (kind request value_low value_high index n : N) : bytes :=
  [kind; request; value_low; value_high] ++ le 2 index ++ le 2 n.

(* a handle names an endpoint: address, direction, interval and type *)
Definition handle_ep (h : N) : N := N.land h 127.
Definition handle_in (h : N) : bool := N.testbit h 7.
Definition handle_interval (h : N) : N := N.land (N.shiftr h 8) 255.
Definition handle_type (h : N) : N := N.land (N.shiftr h 16) 255.

(* the device-to-host bit of a setup packet *)
Definition setup_in (s : bytes) : bool := N.testbit (nth 0 s 0) 7.

(* does the block move data from the device to the host *)
Definition moves_in (u : urb) : bool :=
  match u with
  | Bulk pipe _ _ => handle_in pipe
  | GetDescriptor _ _ _ _ _ | GetStatus _ _ _ => true
  | ClassVendor _ _ flags _ _ _ _ => N.testbit flags 0
  | Control _ _ setup _ | ControlEx _ _ setup _ => setup_in setup
  | _ => false
  end.

(* transfer_flags of the protocol: 1 when a short transfer is an error, 2 for "as soon as
   possible" *)
Definition spec_flags (short_ok : bool) (flags : N) : N :=
  N.lor (if short_ok then 0 else 1) (if N.testbit flags 2 then 2 else 0).

(* the message for block u with number q *)
Definition spec_message (devid q : N) (u : urb) : message :=
  let dir := if moves_in u then 1 else 0 in
  let d := if moves_in u then [] else buffer u in
  let n := len (buffer u) in
  match u with
  | Bulk h flags _ =>
    MSubmit q devid dir (handle_ep h) (spec_flags (N.testbit flags 1) flags) 0 0 (handle_interval h) n (zeros 8) d
  | GetDescriptor to_interface typ index lang _ =>
    let where_ := if to_interface then lang
                  else if typ =? 3 then lang else if typ =? 4 then index else 0 in
    MSubmit q devid dir 0 0 0 0 0 n (request8 (if to_interface then 129 else 128) 6 index typ where_ n) d
  | GetStatus recip index _ => MSubmit q devid dir 0 0 0 0 0 n (request8 (128 + recip) 0 0 0 index n) d
  | ClassVendor vendor recip flags request value index _ =>
    MSubmit q devid dir 0 (spec_flags true flags) 0 0 0 n
      (request8 (128 * dir + (if vendor then 64 else 32) + recip) request (value mod 256) (value / 256 mod 256) index n) d
  | SelectConfiguration value => MSubmit q devid 0 0 1 0 0 0 0 (request8 0 9 value 0 0 0) []
  | SelectInterface number alternate => MSubmit q devid 0 0 1 0 0 0 0 (request8 1 11 alternate 0 number 0) []
  | Control h flags setup _ | ControlEx h flags setup _ =>
    MSubmit q devid dir (handle_ep h) (spec_flags true flags) 0 0 (handle_interval h) n setup d
  | ResetPort => MSubmit q devid 0 0 1 0 0 0 0 (request8 35 3 4 0 0 0) []
  end.

(* the blocks that the driver knows, made as Windows makes them.  In a control transfer
   the setup packet and the flags agree about the direction.  For the _EX kind it must
   also be that of the handle: this is not so for IN transfers on the default pipe, whose
   handle is 0. *)
Definition known (u : urb) : Prop :=
  len (buffer u) + 48 < 4294967296 /\
  match u with
  | Bulk h _ _ => handle_type h = 2 \/ handle_type h = 3
  | GetDescriptor to_interface typ index _ _ =>
    typ < 256 /\ index < 256 /\ (to_interface = true \/ typ = 1 \/ typ = 2 \/ typ = 3 \/ typ = 4)
  | ClassVendor vendor recip _ _ _ _ _ => vendor = false \/ recip <> 3
  | Control _ flags setup _ => len setup = 8 /\ setup_in setup = N.testbit flags 0
  | ControlEx h _ setup _ => len setup = 8 /\ setup_in setup = handle_in h
  | SelectConfiguration value => value < 256
  | SelectInterface _ alternate => alternate < 256
  | _ => True
  end.

(* ---- what happened: the blocks submitted and cancelled *)
Definition submitted (ls : list win_label) : list (nat * urb) :=
  flat_map (fun l => match l with WSubmit id u => [(id, u)] | _ => [] end) ls.
Definition cancelled (ls : list win_label) : list nat :=
  flat_map (fun l => match l with WCancel id => [id] | _ => [] end) ls.

(* a subsequence *)
Inductive subseq {A} : list A -> list A -> Prop :=
| sub_nil : subseq [] []
| sub_skip x l m : subseq l m -> subseq l (x :: m)
| sub_keep x l m : subseq l m -> subseq (x :: l) (x :: m).

(* what the driver gives out: a block, or the unlink of the number of a cancelled block.
   In an unlink 24 bytes are left open, in the reset of a port one. *)
Inductive entry := Block (id : nat) (u : urb) | Unlink (id : nat) (target : N).

Definition says (devid q : N) (e : entry) (m : message) : Prop :=
  match e with
  | Block _ ResetPort => exists j, m = MSubmit q devid 0 0 1 0 0 0 0 (request8 35 3 4 j 0 0) []
  | Block _ u => m = spec_message devid q u
  | Unlink _ target => exists padding, m = MUnlink q devid 0 0 target padding
  end.

(* the messages of the entries, numbered q, q + 1, ... *)
Inductive say_all (devid : N) : N -> list entry -> list message -> Prop :=
| say_nil q : say_all devid q [] []
| say_cons q e es m ms : says devid q e m -> say_all devid (q + 1) es ms -> say_all devid q (e :: es) (m :: ms).

Definition blocks (es : list entry) : list (nat * urb) :=
  flat_map (fun e => match e with Block id u => [(id, u)] | Unlink _ _ => [] end) es.

(* the number of the block with this id in the list, from q on; 0 when it is not there *)
Fixpoint number_of (q : N) (id : nat) (es : list entry) : N :=
  match es with
  | [] => 0
  | Block i _ :: r => if Nat.eqb i id then q else number_of (q + 1) id r
  | Unlink _ _ :: r => number_of (q + 1) id r
  end.

(* an unlink is for a cancelled block, and has its number: 0 when it was not given out *)
Definition unlinks_ok (cancels : list nat) (es : list entry) : Prop :=
  forall before id target after, es = before ++ Unlink id target :: after ->
    In id cancels /\ target = number_of 1 id before.

(* ---- an orderly run: no pipe is aborted, and no block is cancelled between the reading
   of its header and that of its data *)
Definition orderly (devid : N) (ls : list win_label) : Prop :=
  (forall addr, ~ In (WAbort addr) ls) /\
  forall before id after w r, ls = before ++ WCancel id :: after ->
    win_run (win0 devid) before = Some (Ok w) -> dr_partial (wi_drv w) = Holds r -> ur_id r <> id.

(* ---- replies.  What a block's client should be told: IN data goes to the buffer; a
   reply with more than the buffer takes is refused. *)
Definition spec_outcome (u : urb) (n : N) (payload : bytes) : outcome :=
  if moves_in u then
    if n <=? len (buffer u) then mk_outcome Success n (payload ++ dropN n (buffer u))
    else mk_outcome InvalidParameter (len (buffer u)) (buffer u)
  else mk_outcome Success n (buffer u).

(* OUT: as much as was sent, or less, but all of it on a bulk or interrupt pipe; and on
   control pipes nothing is said to have been moved.  IN: nothing for a control transfer
   without a buffer. *)
Definition fair_reply (u : urb) (n : N) : Prop :=
  n < 2147483648 /\ len (buffer u) < 2147483648 /\
  match u with
  | Bulk _ _ _ => moves_in u = false -> n = len (buffer u)
  | ClassVendor _ _ _ _ _ _ _ => moves_in u = false -> n <= len (buffer u)
  | Control _ _ _ _ => moves_in u = false \/ buffer u = [] -> n = 0
  | _ => moves_in u = false -> n = 0
  end.

(* what the driver gave out with number q, from its log *)
Definition numbered_block (d : drv) (q : N) (id : nat) (u : urb) : Prop :=
  exists r junk, In (r, junk) (dr_taken d) /\ ur_seq r = q /\ ur_id r = id /\ ur_what r = Some u.
Definition numbered_unlink (d : drv) (q : N) : Prop :=
  exists r junk, In (r, junk) (dr_taken d) /\ ur_seq r = q /\ ur_what r = None.

(* an honest reply to something that the driver gave out *)
Definition fair_one (d : drv) (r : reply) : Prop :=
  match r with
  | RSubmit q dir n payload => exists id u, numbered_block d q id u /\
      dir = (if moves_in u then 1 else 0) /\ fair_reply u n /\
      (if moves_in u then len payload = n else payload = [])
  | RUnlink q _ => numbered_unlink d q
  end.

(* as all_remembered, for the requests of this driver *)
Definition remembered (d : drv) (log : list seen) : Prop :=
  forall before q n packets after, log = before ++ SawReply q n packets :: after ->
    (exists id u, numbered_block d q id u /\ moves_in u = true) -> last_like q before None = Some q.

(* the server answers nothing before it could know it: when the last byte of the reply to
   a block has come, the driver has given out the message of the block whole *)
Definition in_time (devid : N) (ls : list win_label) (rs : list reply) : Prop :=
  forall before after w a q dir n payload b, ls = before ++ after -> win_run (win0 devid) before = Some (Ok w) ->
    rs = a ++ RSubmit q dir n payload :: b ->
    len (concat (map reply_wire (a ++ [RSubmit q dir n payload]))) <= len (pi_in (fw_rep (wi_fwd w))) ->
    (exists id u, numbered_block (wi_drv w) q id u) /\ forall r, dr_partial (wi_drv w) = Holds r -> ur_seq r <> q.

(* ---- the blocks that the driver holds, in its lists *)
Definition block_ids (l : list urbr) : list nat :=
  flat_map (fun r => match ur_what r with Some _ => [ur_id r] | None => [] end) l.
Definition held (d : drv) : list nat :=
  block_ids (dr_pending d) ++ block_ids (dr_sent d) ++
  match dr_partial d with Holds r => block_ids [r] | _ => [] end.
