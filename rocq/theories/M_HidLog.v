(* What package ctap_hid logs (ctap_hid/ctap_hid.go:10, level debug): the functions of M_Hid
   again, with the calls of ctapHIDLogger.  As in M_Logged a value is logged by what determines
   its text. *)
From Verif Require Import Base M_Str M_Util M_Hid M_Logged.

(* ctap_hid/transaction.go:101-113, error and cancel *)
Definition txn_error_l (t : txn) (code : N) : list entry * txn :=
  ([debug (str "CTAPHID TRANSACTION ERROR: %v") [ShNumber code]], txn_error t code).
Definition txn_cancel_l (t : txn) : list entry * txn :=
  ([debug (str "CTAPHID COMMAND: CTAPHID_COMMAND_CANCEL") []], txn_cancel t).

Definition read_more_l (read need : N) : list entry :=
  [debug (str "CTAPHID: Read %d bytes, Need %d more") [ShNumber read; ShNumber need]].

Definition ok_l (p : list entry * txn) : list entry * res txn := (fst p, Ok (snd p)).
Definition before_l {A} (l : list entry) (p : list entry * A) : list entry * A := (l ++ fst p, snd p).

(* ctap_hid/transaction.go:23-58, newCTAPHIDTransaction *)
Definition new_transaction_l (message : bytes) : list entry * res txn :=
  match read_le 4 message with
  | Panic => ([], Panic)
  | Ok (channelId, buf) =>
    match read_le 1 buf with
    | Panic => ([], Panic)
    | Ok (command, buf) =>
      if N.land command 128 =? 0 then
        before_l [debug (str "INVALID COMMAND: %x") [ShNumber command]]
          (ok_l (txn_error_l txn_empty err_invalid_command))
      else if command =? cmd_cancel then ok_l (txn_cancel_l txn_empty)
      else
        match read_be 2 buf with
        | Panic => ([], Panic)
        | Ok (plen, buf) =>
          if plen <=? len buf then
            ([], Ok (mk_txn true false 0
                       (Some (mk_tresult channelId command plen 0 (takeN plen buf) (dropN plen buf)))))
          else
            (read_more_l (len buf) (plen - len buf),
             Ok (mk_txn false false 0 (Some (mk_tresult channelId command plen 0 buf []))))
        end
    end
  end.

(* ctap_hid/transaction.go:60-95, addMessage *)
Definition add_message_l (t : txn) (message : bytes) : list entry * res txn :=
  if t_done t then
    before_l [debug (str "ERROR - MESSAGE ADDED AFTER SEQUENCE COMPLETED") []] (ok_l (txn_error_l t err_other))
  else
    match read_le 4 message with
    | Panic => ([], Panic)
    | Ok (channelId, buf) =>
      match t_result t with
      | None => ([], Panic)
      | Some r =>
        if negb (channelId =? tr_chan r) then ok_l (txn_error_l t err_invalid_channel)
        else
          match read_le 1 buf with
          | Panic => ([], Panic)
          | Ok (sequence, buf) =>
            if sequence =? cmd_cancel then ok_l (txn_cancel_l t)
            else if negb (N.land sequence 128 =? 0) then ok_l (txn_error_l t err_invalid_sequence)
            else if negb (sequence =? tr_seq r) then ok_l (txn_error_l t err_invalid_sequence)
            else
              let all := tr_payload r ++ buf in
              if tr_plen r <=? len all then
                ([], Ok (mk_txn true (t_cancelled t) (t_error t)
                           (Some (mk_tresult (tr_chan r) (tr_cmd r) (tr_plen r) (tr_seq r)
                                    (takeN (tr_plen r) all) (dropN (tr_plen r) all ++ zeros 8)))))
              else
                (read_more_l (len all) (tr_plen r - len all),
                 Ok (mk_txn false (t_cancelled t) (t_error t)
                       (Some (mk_tresult (tr_chan r) (tr_cmd r) (tr_plen r) ((tr_seq r + 1) mod 256) all []))))
          end
      end
    end.

(* ctap_hid/data.go:72-75, ctapHidError *)
Definition hid_error_l (ch code : N) : list entry * list bytes :=
  ([debug (str "CTAPHID ERROR: %s") [ShNumber code]], hid_error ch code).

(* ctap_hid/channel.go:63-84, handleBroadcastMessage *)
Definition handle_broadcast_l {A} (s : server) (a : A) (r : tresult) : list entry * outcome A :=
  if tr_cmd r =? cmd_init then
    let (s', id) := new_channel s in
    let arr := tr_payload r ++ tr_spare r in
    if len arr <? 8 then ([], mk_outcome s' a [] Panic)
    else
      let nonce := takeN 8 arr in
      ([debug (str "CTAPHID INIT RESPONSE: %#v") [ShBytes nonce; ShNumber id]],
       mk_outcome s' a (create_response_packets hid_broadcast cmd_init (init_response nonce id)) (Ok tt))
  else if tr_cmd r =? cmd_ping then
    ([], mk_outcome s a (create_response_packets hid_broadcast cmd_ping (tr_payload r)) (Ok tt))
  else ([], mk_outcome s a [] Panic).

(* ctap_hid/channel.go:86-103, handleDataMessage *)
Definition handle_data_l {A} (h : apps A) (s : server) (a : A) (ka : nat) (ch : N) (r : tresult)
  : list entry * outcome A :=
  if tr_cmd r =? cmd_msg then
    match app_u2f h a (tr_payload r) with
    | (a', Ok resp) =>
      ([debug (str "CTAPHID MSG RESPONSE: %d %#v") [ShNumber (len resp); ShBytes resp]],
       mk_outcome s a' (create_response_packets (tr_chan r) cmd_msg resp) (Ok tt))
    | (a', Panic) => ([], mk_outcome s a' [] Panic)
    end
  else if tr_cmd r =? cmd_cbor then
    let kas := concat (repeat (keepalive ch) ka) in
    match app_ctap h a (tr_payload r) with
    | (a', Ok resp) =>
      ([debug (str "CTAPHID CBOR RESPONSE: %#v") [ShBytes resp]],
       mk_outcome s a' (kas ++ create_response_packets (tr_chan r) cmd_cbor resp) (Ok tt))
    | (a', Panic) => ([], mk_outcome s a' kas Panic)
    end
  else if tr_cmd r =? cmd_ping then
    ([], mk_outcome s a (create_response_packets (tr_chan r) cmd_ping (tr_payload r)) (Ok tt))
  else ([], mk_outcome s a [] Panic).

(* ctap_hid/channel.go:44-51, handleFinalizedMessage; the header's String is
   ctap_hid/data.go:91-104 *)
Definition handle_finalized_l {A} (h : apps A) (s : server) (a : A) (ka : nat) (ch : N) (r : tresult)
  : list entry * outcome A :=
  before_l [debug (str "CTAPHID FINALIZED MESSAGE: %s %#v")
              [ShNumber (tr_chan r); ShNumber (tr_cmd r); ShNumber (tr_plen r); ShBytes (tr_payload r)]]
    (if ch =? hid_broadcast then handle_broadcast_l s a r else handle_data_l h s a ka ch r).

(* ctap_hid/channel.go:26-42, handleMessage *)
Definition channel_handle_l {A} (h : apps A) (s : server) (a : A) (ka : nat) (ch : N)
  (cur : option txn) (message : bytes) : list entry * outcome A :=
  match (match cur with
         | None => new_transaction_l message
         | Some t => add_message_l t message
         end) with
  | (l, Panic) => (l, mk_outcome s a [] Panic)
  | (l, Ok t) =>
    if t_done t then
      let (l', o) :=
        if negb (t_error t =? 0) then
          let (l', ps) := hid_error_l ch (t_error t) in (l', mk_outcome s a ps (Ok tt))
        else if t_cancelled t then ([], mk_outcome s a [] (Ok tt))
        else match t_result t with
             | Some r => handle_finalized_l h s a ka ch r
             | None => ([], mk_outcome s a [] Panic)
             end in
      (l ++ l',
       match o_res o with
       | Ok _ => mk_outcome (srv_set (o_srv o) ch None) (o_app o) (o_packets o) (Ok tt)
       | Panic => o
       end)
    else (l, mk_outcome (srv_set s ch (Some t)) a [] (Ok tt))
  end.

(* ctap_hid/ctap_hid.go:54-63, HandleMessage *)
Definition hid_handle_l {A} (h : apps A) (s : server) (a : A) (ka : nat) (message : bytes)
  : list entry * outcome A :=
  match read_le 4 message with
  | Panic => ([], mk_outcome s a [] Panic)
  | Ok (ch, _) =>
    match chan_lookup ch (srv_channels s) with
    | None => let (l, ps) := hid_error_l ch err_invalid_channel in (l, mk_outcome s a ps (Ok tt))
    | Some cur => channel_handle_l h s a ka ch cur message
    end
  end.

(* One message: what came, what was sent, whether the handler returned, what was logged. *)
Record hid_event : Type := mk_event {
  ev_in : bytes; ev_out : list bytes; ev_ok : bool; ev_log : list entry }.

(* Messages one after another, each with its number of keepalives; as [hid_run]. *)
Fixpoint hid_events {A} (h : apps A) (s : server) (a : A) (ms : list (nat * bytes)) : list hid_event :=
  match ms with
  | [] => []
  | (ka, m) :: r =>
    let (l, o) := hid_handle_l h s a ka m in
    match o_res o with
    | Panic => [mk_event m (o_packets o) false l]
    | Ok _ => mk_event m (o_packets o) true l :: hid_events h (o_srv o) (o_app o) r
    end
  end.
