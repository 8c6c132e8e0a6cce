(* Model of package ctap_hid: framing, transactions, channels, the server.
   Sequential part; see M_HidConc.v for goroutines and locks. *)
From Verif Require Import Base M_Util.

(* ctap_hid/data.go:7-17 *)
Definition hid_max_packet : N := 64.
Definition hid_broadcast : N := 4294967295.
Definition hid_status_upneeded : N := 2.

(* ctap_hid/data.go:21-32 *)
Definition cmd_msg : N := 131.
Definition cmd_cbor : N := 144.
Definition cmd_init : N := 134.
Definition cmd_ping : N := 129.
Definition cmd_cancel : N := 145.
Definition cmd_error : N := 191.
Definition cmd_keepalive : N := 187.

(* ctap_hid/data.go:48-58 *)
Definition err_invalid_command : N := 1.
Definition err_invalid_sequence : N := 4.
Definition err_invalid_channel : N := 11.
Definition err_other : N := 127.

(* ------------------------------------------------------------------ *)
(* ctap_hid/ctap_hid.go:82-106, createResponsePackets.  The loop runs while
   payload is non-empty; [sequence] starts at -1.  The fuel is the payload
   length, which always suffices; running out would show as an empty packet. *)
Fixpoint response_loop (fuel : nat) (ch cmd : N) (sequence : Z) (payload : bytes)
  : list bytes :=
  match payload with
  | [] => []
  | _ =>
    match fuel with
    | O => [[]]
    | S fuel' =>
      let header :=
        if (sequence <? 0)%Z
        then le 4 ch ++ le 1 cmd ++ be 2 (len payload)
        else le 4 ch ++ [Z.to_N (sequence mod 256)%Z] in
      let bytes_left := N.min (hid_max_packet - len header) (len payload) in
      let packet := pad (header ++ takeN bytes_left payload) 64 in
      packet :: response_loop fuel' ch cmd (sequence + 1)%Z (dropN bytes_left payload)
    end
  end.

Definition create_response_packets (ch cmd : N) (payload : bytes) : list bytes :=
  response_loop (length payload) ch cmd (-1)%Z payload.

(* ctap_hid/data.go:72-75, ctapHidError *)
Definition hid_error (ch code : N) : list bytes :=
  create_response_packets ch cmd_error [code].

(* ------------------------------------------------------------------ *)
(* ctap_hid/transaction.go:9-13, transactionResult; header flattened.
   [tr_spare] is not a Go field: it is the content of the slice's backing array
   behind its length, up to the capacity, which channel.go:67 can reach by
   reslicing (payload[:8]). *)
Record tresult := mk_tresult {
  tr_chan : N;
  tr_cmd : N;
  tr_plen : N;
  tr_seq : N;
  tr_payload : bytes;
  tr_spare : bytes
}.

(* ctap_hid/transaction.go:16-21, ctapHIDTransaction *)
Record txn := mk_txn {
  t_done : bool;
  t_cancelled : bool;
  t_error : N;
  t_result : option tresult
}.

(* ctap_hid/transaction.go:101-113, error and cancel on a transaction. *)
Definition txn_error (t : txn) (code : N) : txn :=
  mk_txn true (t_cancelled t) code None.
Definition txn_cancel (t : txn) : txn :=
  mk_txn true true (t_error t) None.

Definition txn_empty : txn := mk_txn false false 0 None.

(* ctap_hid/transaction.go:23-58, newCTAPHIDTransaction.  The message slice is
   taken to have capacity equal to its length (it comes from
   make([]byte, TransferBufferLength), usbip/usbip_server.go:123), so that the
   spare part of a one-packet payload is the rest of the message. *)
Definition new_transaction (message : bytes) : res txn :=
  let? (channelId, buf) := read_le 4 message in
  let? (command, buf) := read_le 1 buf in
  if N.land command 128 =? 0 then Ok (txn_error txn_empty err_invalid_command)
  else if command =? cmd_cancel then Ok (txn_cancel txn_empty)
  else
    let? (plen, buf) := read_be 2 buf in
    if plen <=? len buf then
      Ok (mk_txn true false 0
            (Some (mk_tresult channelId command plen 0 (takeN plen buf) (dropN plen buf))))
    else
      Ok (mk_txn false false 0
            (Some (mk_tresult channelId command plen 0 buf []))).

(* ctap_hid/transaction.go:60-95, addMessage.  When append has to grow the slice
   the Go runtime gives a capacity of at least 8 and clears the unused part;
   [zeros 8] stands for (a lower bound of) that part. *)
Definition add_message (t : txn) (message : bytes) : res txn :=
  if t_done t then Ok (txn_error t err_other)
  else
    let? (channelId, buf) := read_le 4 message in
    match t_result t with
    | None => Panic (* nil dereference; unreachable *)
    | Some r =>
      if negb (channelId =? tr_chan r) then Ok (txn_error t err_invalid_channel)
      else
        let? (sequence, buf) := read_le 1 buf in
        if sequence =? cmd_cancel then Ok (txn_cancel t)
        else if negb (N.land sequence 128 =? 0) then Ok (txn_error t err_invalid_sequence)
        else if negb (sequence =? tr_seq r) then Ok (txn_error t err_invalid_sequence)
        else
          let all := tr_payload r ++ buf in
          if tr_plen r <=? len all then
            Ok (mk_txn true (t_cancelled t) (t_error t)
                  (Some (mk_tresult (tr_chan r) (tr_cmd r) (tr_plen r) (tr_seq r)
                           (takeN (tr_plen r) all) (dropN (tr_plen r) all ++ zeros 8))))
          else
            Ok (mk_txn false (t_cancelled t) (t_error t)
                  (Some (mk_tresult (tr_chan r) (tr_cmd r) (tr_plen r)
                           ((tr_seq r + 1) mod 256) all [])))
    end.

(* ------------------------------------------------------------------ *)
(* ctap_hid/ctap_hid.go:16-23, CTAPHIDServer.  [srv_channels] is the Go map from
   ids to channels, a channel being just its unfinished transaction (nil is
   None; channelId is the key).  The response handler is taken to be set
   (usb/usb_device.go:29-31 does so before any message arrives). *)
Record server := mk_server {
  srv_max : N;
  srv_channels : list (N * option txn)
}.

Fixpoint chan_lookup (k : N) (l : list (N * option txn)) : option (option txn) :=
  match l with
  | [] => None
  | (k', v) :: r => if k' =? k then Some v else chan_lookup k r
  end.

(* Map assignment: replaces the entry in place or adds it at the end. *)
Fixpoint chan_set (k : N) (v : option txn) (l : list (N * option txn))
  : list (N * option txn) :=
  match l with
  | [] => [(k, v)]
  | (k', v') :: r => if k' =? k then (k', v) :: r else (k', v') :: chan_set k v r
  end.

Definition srv_set (s : server) (k : N) (v : option txn) : server :=
  mk_server (srv_max s) (chan_set k v (srv_channels s)).

(* ctap_hid/ctap_hid.go:25-36, NewCTAPHIDServer *)
Definition new_server : server := mk_server 0 [(hid_broadcast, None)].

(* ctap_hid/ctap_hid.go:65-70, newChannel; channel ids are uint32. *)
Definition new_channel (s : server) : server * N :=
  let id := (srv_max s + 1) mod 4294967296 in
  (mk_server id (chan_set id None (srv_channels s)), id).

(* The two handlers behind the server (ctap_hid/ctap_hid.go:12-14), as functions
   on an abstract state of the authenticator.  On a panic the state carries the
   effects already made. *)
Record apps (A : Type) := mk_apps {
  app_ctap : A -> bytes -> A * res bytes;
  app_u2f : A -> bytes -> A * res bytes
}.
Arguments mk_apps {A}.
Arguments app_ctap {A}.
Arguments app_u2f {A}.

(* ctap_hid/channel.go:53-61, the INIT response, serialised little endian. *)
Definition init_response (nonce : bytes) (id : N) : bytes :=
  nonce ++ le 4 id ++ [2; 0; 0; 1; 4].

(* What handling one message yields: the server, the state of the applications,
   the packets given to the response handler in order, and whether the handler
   returned or panicked. *)
Record outcome (A : Type) := mk_outcome {
  o_srv : server;
  o_app : A;
  o_packets : list bytes;
  o_res : res unit
}.
Arguments mk_outcome {A}.
Arguments o_srv {A}.
Arguments o_app {A}.
Arguments o_packets {A}.
Arguments o_res {A}.

(* ctap_hid/channel.go:63-84, handleBroadcastMessage.  payload[:8] panics when
   the capacity is below 8, after the channel was created. *)
Definition handle_broadcast {A} (s : server) (a : A) (r : tresult) : outcome A :=
  if tr_cmd r =? cmd_init then
    let (s', id) := new_channel s in
    let arr := tr_payload r ++ tr_spare r in
    if len arr <? 8 then mk_outcome s' a [] Panic
    else mk_outcome s' a
           (create_response_packets hid_broadcast cmd_init
              (init_response (takeN 8 arr) id)) (Ok tt)
  else if tr_cmd r =? cmd_ping then
    mk_outcome s a (create_response_packets hid_broadcast cmd_ping (tr_payload r)) (Ok tt)
  else mk_outcome s a [] Panic.

(* ctap_hid/channel.go:86-103 and 105-109, handleDataMessage and
   keepConnectionAlive.  [ka] is the number of keepalives the ticker sends
   before the handler is done (M_HidConc.v treats the ticker as a process). *)
Definition keepalive (ch : N) : list bytes :=
  create_response_packets ch cmd_keepalive [hid_status_upneeded].

Definition handle_data {A} (h : apps A) (s : server) (a : A) (ka : nat) (ch : N)
  (r : tresult) : outcome A :=
  if tr_cmd r =? cmd_msg then
    match app_u2f h a (tr_payload r) with
    | (a', Ok resp) => mk_outcome s a' (create_response_packets (tr_chan r) cmd_msg resp) (Ok tt)
    | (a', Panic) => mk_outcome s a' [] Panic
    end
  else if tr_cmd r =? cmd_cbor then
    let kas := concat (repeat (keepalive ch) ka) in
    match app_ctap h a (tr_payload r) with
    | (a', Ok resp) =>
      mk_outcome s a' (kas ++ create_response_packets (tr_chan r) cmd_cbor resp) (Ok tt)
    | (a', Panic) => mk_outcome s a' kas Panic
    end
  else if tr_cmd r =? cmd_ping then
    mk_outcome s a (create_response_packets (tr_chan r) cmd_ping (tr_payload r)) (Ok tt)
  else mk_outcome s a [] Panic.

(* ctap_hid/channel.go:44-51, handleFinalizedMessage *)
Definition handle_finalized {A} (h : apps A) (s : server) (a : A) (ka : nat) (ch : N)
  (r : tresult) : outcome A :=
  if ch =? hid_broadcast then handle_broadcast s a r else handle_data h s a ka ch r.

(* ctap_hid/channel.go:26-42, handleMessage on the channel [ch] whose current
   transaction is [cur]. *)
Definition channel_handle {A} (h : apps A) (s : server) (a : A) (ka : nat) (ch : N)
  (cur : option txn) (message : bytes) : outcome A :=
  match (match cur with
         | None => new_transaction message
         | Some t => add_message t message
         end) with
  | Panic => mk_outcome s a [] Panic
  | Ok t =>
    if t_done t then
      let o :=
        if negb (t_error t =? 0) then mk_outcome s a (hid_error ch (t_error t)) (Ok tt)
        else if t_cancelled t then mk_outcome s a [] (Ok tt)
        else match t_result t with
             | Some r => handle_finalized h s a ka ch r
             | None => mk_outcome s a [] Panic (* unreachable *)
             end in
      match o_res o with
      | Ok _ => mk_outcome (srv_set (o_srv o) ch None) (o_app o) (o_packets o) (Ok tt)
      | Panic => o
      end
    else mk_outcome (srv_set s ch (Some t)) a [] (Ok tt)
  end.

(* ctap_hid/ctap_hid.go:54-63, HandleMessage *)
Definition hid_handle {A} (h : apps A) (s : server) (a : A) (ka : nat) (message : bytes)
  : outcome A :=
  match read_le 4 message with
  | Panic => mk_outcome s a [] Panic
  | Ok (ch, _) =>
    match chan_lookup ch (srv_channels s) with
    | None => mk_outcome s a (hid_error ch err_invalid_channel) (Ok tt)
    | Some cur => channel_handle h s a ka ch cur message
    end
  end.

(* A sequence of messages handled one after the other, each with its number of
   keepalives; the process stops at the first panic. *)
Fixpoint hid_run {A} (h : apps A) (s : server) (a : A) (ms : list (nat * bytes))
  : outcome A :=
  match ms with
  | [] => mk_outcome s a [] (Ok tt)
  | (ka, m) :: r =>
    let o := hid_handle h s a ka m in
    match o_res o with
    | Panic => o
    | Ok _ =>
      let o' := hid_run h (o_srv o) (o_app o) r in
      mk_outcome (o_srv o') (o_app o') (o_packets o ++ o_packets o') (o_res o')
    end
  end.
