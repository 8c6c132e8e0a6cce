(* The device on macOS: the driver extension (mac/USBDriver/USBDriver), the library talking to
   it (mac/USBDriver/USBDrverLib), the C and Go glue (mac/client.c, mac/mac.go) and
   client_mac.go.  The CTAPHID server and the authenticators behind it are those of M_Hid,
   M_Ctap and M_U2f.
   An access outside of an object (a wild pointer, a copy beyond an array) is Panic.
   Simplified: allocation and the calls of the system (Create, Map, AsyncCompletion,
   handleReport, IOConnectCall...) succeed; opening the connection is left out. *)
From Verif Require Import Base M_Hid M_Crypto M_Cose M_State M_Client M_Ctap M_U2f M_History M_Device.

(* ------------------------------------------------------------------ *)
(* USBDriver/util.h:15-24, linked_list_node and linked_list_t.  Memory is the nodes allocated,
   by address; 0 is NULL.  num_nodes is a uint32_t. *)
Record node (D : Type) := mk_node { nd_data : D; nd_next : N }.
Arguments mk_node {D}. Arguments nd_data {D}. Arguments nd_next {D}.
Definition heap (D : Type) := list (N * node D).
Record llist := mk_ll { ll_start : N; ll_end : N; ll_num : N }.

Fixpoint load {D} (h : heap D) (a : N) : res (node D) :=
  match h with
  | [] => Panic
  | (a', n) :: r => if a' =? a then Ok n else load r a
  end.
Fixpoint store {D} (h : heap D) (a : N) (n : node D) : res (heap D) :=
  match h with
  | [] => Panic
  | (a', n') :: r => if a' =? a then Ok ((a', n) :: r) else let? r' := store r a n in Ok ((a', n') :: r')
  end.
(* IOFree *)
Fixpoint release {D} (h : heap D) (a : N) : res (heap D) :=
  match h with
  | [] => Panic
  | (a', n') :: r => if a' =? a then Ok r else let? r' := release r a in Ok ((a', n') :: r')
  end.
(* What IOMallocZero may return: an address not in use. *)
Definition allocated {D} (h : heap D) (a : N) : bool := existsb (fun x => fst x =? a) h.

(* USBDriver/util.cpp:24-30 *)
Definition ll_alloc : llist := mk_ll 0 0 0.

(* USBDriver/util.cpp:45-57; [a] is the address IOMallocZero returned. *)
Definition ll_push {D} (h : heap D) (l : llist) (a : N) (d : D) : res (heap D * llist) :=
  let h := (a, mk_node d 0) :: h in
  let num := (ll_num l + 1) mod 4294967296 in
  if ll_end l =? 0 then Ok (h, mk_ll a a num)
  else
    let? last := load h (ll_end l) in
    let? h := store h (ll_end l) (mk_node (nd_data last) a) in
    Ok (h, mk_ll (ll_start l) a num).

(* USBDriver/util.cpp:59-76 *)
Definition ll_pop {D} (h : heap D) (l : llist) : res (heap D * llist * option D) :=
  if ll_start l =? 0 then Ok (h, l, None)
  else
    let num := (ll_num l + 4294967296 - 1) mod 4294967296 in
    let? n := load h (ll_start l) in
    let l' := if ll_start l =? ll_end l then mk_ll 0 0 num else mk_ll (nd_next n) (ll_end l) num in
    let? h := release h (ll_start l) in
    Ok (h, l', Some (nd_data n)).

(* USBDriver/util.cpp:32-43, the nodes; the list itself is not in the heap.  The fuel is the
   number of nodes in memory. *)
Fixpoint ll_free_loop {D} (fuel : nat) (h : heap D) (a : N) : res (heap D) :=
  if a =? 0 then Ok h
  else match fuel with
       | O => Panic
       | S f => let? n := load h a in let? h := release h a in ll_free_loop f h (nd_next n)
       end.
Definition ll_free {D} (h : heap D) (l : llist) : res (heap D) := ll_free_loop (length h) h (ll_start l).

(* ------------------------------------------------------------------ *)
(* USBDrverLib/USBDriverShared.h:11-14, usb_driver_hid_frame_t, as the 65 bytes of the
   struct: the length, then data[64].  memcpy into data, whose old content is [old]. *)
Definition memcpy_data (old src : bytes) : res bytes :=
  if len src <=? 64 then Ok (src ++ dropN (len src) old) else Panic.

(* USBDriver/USBUserClient.cpp:62-66, USBUserClient_IVars.  [uc_lost] is not a field: it counts
   the frames dropped (and never freed). *)
Record uc := mk_uc {
  uc_device : bool; uc_notify : bool; uc_list : llist; uc_heap : heap bytes; uc_lost : N }.

(* USBDriver/USBUserClient.cpp:68-82, init; ivars are zero but for the list. *)
Definition uc_init : uc := mk_uc false false ll_alloc [] 0.

(* USBDriver/USBUserClient.cpp:179-203, newHIDFrame; whether a completion was sent. *)
Definition new_hid_frame (u : uc) (a : N) (report : bytes) : res (uc * bool) :=
  if negb (uc_notify u) then Ok (u, false)
  else
    let? u :=
      (if 16 <? ll_num (uc_list u)
       then let? (h, l, _) := ll_pop (uc_heap u) (uc_list u) in
            Ok (mk_uc (uc_device u) (uc_notify u) l h (uc_lost u + 1))
       else Ok u) in
    let? data := memcpy_data (zeros 64) report in
    let? (h, l) := ll_push (uc_heap u) (uc_list u) a ((len report mod 256) :: data) in
    Ok (mk_uc (uc_device u) (uc_notify u) l h (uc_lost u), true).

Inductive kern_return := KSuccess | KBadArgument | KNoFrames.

(* The arguments of an external method: whether there is a completion, the numbers of scalars,
   the input structure (None is a NULL pointer) and the size of the output one. *)
Record margs := mk_margs {
  ma_completion : bool; ma_scalars_in : N; ma_scalars_out : N; ma_in : option bytes; ma_out : N }.
Definition no_args : margs := mk_margs false 0 0 None 0.

(* What a method did: the return code, the output structure, and the reports given to the
   system by sendReportFromDevice (USBDriver/USBDevice.cpp:155-163). *)
Record mresult := mk_mresult { mr_uc : uc; mr_ret : kern_return; mr_out : option bytes; mr_reports : list bytes }.

(* USBDriver/USBUserClient.cpp:127-135; the device is always created. *)
Definition handle_start_device (u : uc) : res mresult :=
  Ok (mk_mresult (mk_uc true (uc_notify u) (uc_list u) (uc_heap u) (uc_lost u)) KSuccess None []).

(* USBDriver/USBUserClient.cpp:141-144 and 101-107 *)
Definition handle_stop_device (u : uc) : res mresult :=
  Ok (mk_mresult (mk_uc false (uc_notify u) (uc_list u) (uc_heap u) (uc_lost u)) KSuccess None []).

(* USBDriver/USBUserClient.cpp:150-163 *)
Definition handle_send_frame (u : uc) (a : margs) : res mresult :=
  match ma_in a with
  | None => Panic
  | Some frame =>
    match frame with
    | [] => Panic
    | l :: data =>
      if (l =? 0) || (64 <? l) then Ok (mk_mresult u KBadArgument None [])
      else Ok (mk_mresult u KSuccess None (if uc_device u then [takeN l data] else []))
    end
  end.

(* USBDriver/USBUserClient.cpp:169-177 *)
Definition handle_notify_frame (u : uc) (a : margs) : res mresult :=
  if ma_completion a
  then Ok (mk_mresult (mk_uc (uc_device u) true (uc_list u) (uc_heap u) (uc_lost u)) KSuccess None [])
  else Ok (mk_mresult u KBadArgument None []).

(* USBDriver/USBUserClient.cpp:209-220 *)
Definition handle_get_frame (u : uc) : res mresult :=
  let? (h, l, d) := ll_pop (uc_heap u) (uc_list u) in
  let u := mk_uc (uc_device u) (uc_notify u) l h (uc_lost u) in
  match d with
  | None => Ok (mk_mresult u KNoFrames None [])
  | Some frame => Ok (mk_mresult u KSuccess (Some frame) [])
  end.

(* USBDriver/USBUserClient.cpp:23-60, USBDriverMethodChecks: completion, scalars in and out,
   structure in and out; fields left out are 0.  Two selectors share HandleSendFrame: lines
   137-139, StaticHandleStopDevice. *)
Record checks := mk_checks {
  ck_completion : bool; ck_scalars_in : N; ck_scalars_out : N; ck_in : N; ck_out : N }.
Definition method (sel : N) : option (checks * (uc -> margs -> res mresult)) :=
  match sel with
  | 0 => Some (mk_checks false 0 0 65 0, handle_send_frame)
  | 1 => Some (mk_checks true 0 0 0 0, handle_notify_frame)
  | 2 => Some (mk_checks false 0 0 0 65, fun u _ => handle_get_frame u)
  | 3 => Some (mk_checks false 0 0 0 0, fun u _ => handle_start_device u)
  | 4 => Some (mk_checks false 0 0 0 0, handle_send_frame)
  | _ => None
  end.

(* The checks made by IOUserClient::ExternalMethod of the system. *)
Definition in_size (a : margs) : N := match ma_in a with Some b => len b | None => 0 end.
Definition pass (c : checks) (a : margs) : bool :=
  Bool.eqb (ck_completion c) (ma_completion a) && (ck_scalars_in c =? ma_scalars_in a) &&
  (ck_scalars_out c =? ma_scalars_out a) && (ck_in c =? in_size a) && (ck_out c =? ma_out a).

(* USBDriver/USBUserClient.cpp:109-121, ExternalMethod; other selectors go to the system, which
   knows none. *)
Definition external_method (u : uc) (sel : N) (a : margs) : res mresult :=
  match method sel with
  | Some (c, f) => if pass c a then f u a else Ok (mk_mresult u KBadArgument None [])
  | None => Ok (mk_mresult u KBadArgument None [])
  end.

(* ------------------------------------------------------------------ *)
(* USBDrverLib/USBDriverLib.c:115-148, usb_driver_start up to the run loop (and 53-86,
   register_callback): None when it gives up. *)
Definition usb_driver_start : res (option uc) :=
  let? r := external_method uc_init 1 (mk_margs true 0 0 None 0) in
  match mr_ret r with
  | KSuccess =>
    let? r := external_method (mr_uc r) 3 no_args in
    match mr_ret r with KSuccess => Ok (Some (mr_uc r)) | _ => Ok None end
  | _ => Ok None
  end.

(* USBDrverLib/USBDriverLib.c:37-51, notify_frame; client.c:7-9, receive_data; mac.go:25-30,
   receiveDataCallback up to HandleMessage: the data handed to it, if any.  GoBytes reads
   [length] bytes of the array. *)
Definition notify_frame (u : uc) : res (uc * option bytes) :=
  let? r := external_method u 2 (mk_margs false 0 0 None 65) in
  match mr_ret r, mr_out r with
  | KSuccess, Some (l :: data) => if 64 <? l then Panic else Ok (mr_uc r, Some (takeN l data))
  | _, _ => Ok (mr_uc r, None)
  end.

(* mac.go:18-23, handleResponse; client.c:11-16, send_data; USBDriverLib.c:154-164,
   usb_driver_send_frame: the reports the system gets, and the bytes of C.CBytes, which
   nothing frees.  [junk] is what the uninitialised struct on the stack held. *)
Definition handle_response (u : uc) (junk : bytes) (response : bytes) : res (uc * list bytes * N) :=
  if 0 <? len response then
    let? data := memcpy_data junk response in
    let frame := (len response mod 256) :: data in
    let? r := external_method u 0 (mk_margs false 0 0 (Some frame) 0) in
    Ok (mr_uc r, mr_reports r, len response)
  else Ok (u, [], 0).

(* ctap_hid/ctap_hid.go:42-52, sendResponsePackets with this handler. *)
Fixpoint send_all (u : uc) (junk : nat -> bytes) (i : nat) (packets : list bytes) : res (uc * list bytes * N) :=
  match packets with
  | [] => Ok (u, [], 0)
  | p :: rest =>
    let? (u, r, n) := handle_response u (junk i) p in
    let? (u, rs, m) := send_all u junk (S i) rest in
    Ok (u, r ++ rs, n + m)
  end.

(* ------------------------------------------------------------------ *)
(* The running device.  mc_notes: completions sent by the driver that the run loop has not
   handled yet; mc_current: the message HandleMessage works on (the run loop waits for it:
   mac.go:29 starts no goroutine); mc_host: the reports given to the host; mc_cbytes: memory
   of C.CBytes.  mc_written and mc_seen only record the reports the host wrote and the
   messages handed to HandleMessage. *)
Record mac := mk_mac {
  mc_uc : uc; mc_notes : nat; mc_current : option bytes; mc_srv : server; mc_world : world;
  mc_host : list bytes; mc_cbytes : N; mc_written : list bytes; mc_seen : list bytes }.

(* client_mac.go:15-20, startClient, and mac.go:32-36, Start. *)
Definition mac_init (u : uc) (w : world) : mac := mk_mac u 0 None new_server w [] 0 [] [].

Inductive mac_label :=
| MReport (a : N) (report : bytes)        (* the host writes a report: USBDevice.cpp:132-143, setReport *)
| MNotify                                 (* the run loop handles a completion *)
| MHandle (ka : nat) (junk : nat -> bytes) (* HandleMessage returns; ka keepalives were sent *)
| MLocal (i : input).                     (* the program around the device calls the client *)

(* Corrupt: the driver or the glue accessed memory it does not own. *)
Inductive mac_moved := MRunning (d : mac) | MDead (w : world) | MCorrupt (w : world).

Definition mac_step (E : Env) (d : mac) (l : mac_label) : option mac_moved :=
  match l with
  | MReport a report =>
    if (a =? 0) || allocated (uc_heap (mc_uc d)) a then None
    else match new_hid_frame (mc_uc d) a report with
         | Ok (u, note) =>
           Some (MRunning (mk_mac u (if note then S (mc_notes d) else mc_notes d) (mc_current d) (mc_srv d)
                             (mc_world d) (mc_host d) (mc_cbytes d) (mc_written d ++ [report]) (mc_seen d)))
         | Panic => Some (MCorrupt (mc_world d))
         end
  | MNotify =>
    match mc_current d, mc_notes d with
    | None, S n =>
      match notify_frame (mc_uc d) with
      | Ok (u, m) =>
        Some (MRunning (mk_mac u n m (mc_srv d) (mc_world d) (mc_host d) (mc_cbytes d) (mc_written d)
                          (mc_seen d ++ match m with Some x => [x] | None => [] end)))
      | Panic => Some (MCorrupt (mc_world d))
      end
    | _, _ => None
    end
  | MHandle ka junk =>
    let! m := mc_current d in
    let o := hid_handle (device_apps E) (mc_srv d) (mc_world d) ka m in
    match send_all (mc_uc d) junk 0 (o_packets o) with
    | Panic => Some (MCorrupt (o_app o))
    | Ok (u, reports, n) =>
      match o_res o with
      | Panic => Some (MDead (o_app o))
      | Ok _ => Some (MRunning (mk_mac u (mc_notes d) None (o_srv o) (o_app o) (mc_host d ++ reports)
                                  (mc_cbytes d + n) (mc_written d) (mc_seen d)))
      end
    end
  | MLocal i =>
    if local_input i then
      match handle E i (mc_world d) with
      | (w, Ok _) => Some (MRunning (mk_mac (mc_uc d) (mc_notes d) (mc_current d) (mc_srv d) w (mc_host d)
                                       (mc_cbytes d) (mc_written d) (mc_seen d)))
      | (w, Panic) => Some (MDead w)
      end
    else None
  end.

Fixpoint mac_run (E : Env) (d : mac) (ls : list mac_label) : option mac_moved :=
  match ls with
  | [] => Some (MRunning d)
  | l :: r => let! m := mac_step E d l in
              match m with MRunning d' => mac_run E d' r | _ => match r with [] => Some m | _ => None end end
  end.

(* What the host and the program may do: the report descriptor (USBDevice.cpp:27) announces
   reports of 64 bytes. *)
Definition mac_label_ok (l : mac_label) : Prop :=
  match l with
  | MReport _ r => wfb r /\ len r <= 64
  | MNotify => True
  | MHandle _ junk => forall i, len (junk i) = 64
  | MLocal i => good_input i
  end.

Definition mac_world_after (m : mac_moved) : world :=
  match m with MRunning d => mc_world d | MDead w | MCorrupt w => w end.

Inductive mac_status := MDown (w : world) | MUp (d : mac).
Definition mac_world_of (s : mac_status) : world := match s with MDown w => w | MUp d => mc_world d end.
Definition mac_is_up (s : mac_status) : bool := match s with MDown _ => false | MUp _ => true end.

(* The life of the device over any number of processes, as in M_Device.  The user client ends
   with the process (USBUserClient.cpp:84-99, free and Stop). *)
Inductive mac_life (E : Env) : list params -> mac_status -> Prop :=
| ML_new c t : mac_life E [] (MDown {| w_client := c; w_tick := t; w_trace := [] |})
| ML_start ps w p w' u : mac_life E ps (MDown w) -> usb_driver_start = Ok (Some u) ->
    start E p (saved_in (w_trace w)) w = (w', Ok tt) -> mac_life E (ps ++ [p]) (MUp (mac_init u w'))
| ML_start_failed ps w p w' : mac_life E ps (MDown w) ->
    start E p (saved_in (w_trace w)) w = (w', Panic) -> mac_life E (ps ++ [p]) (MDown w')
| ML_step ps d l d' : mac_life E ps (MUp d) -> mac_label_ok l -> mac_step E d l = Some (MRunning d') -> mac_life E ps (MUp d')
| ML_panic ps d l w : mac_life E ps (MUp d) -> mac_label_ok l -> mac_step E d l = Some (MDead w) -> mac_life E ps (MDown w)
| ML_kill ps d l m es rest : mac_life E ps (MUp d) -> mac_label_ok l -> mac_step E d l = Some m ->
    w_trace (mac_world_after m) = w_trace (mc_world d) ++ es ++ rest ->
    mac_life E ps (MDown {| w_client := w_client (mac_world_after m); w_tick := w_tick (mac_world_after m);
                           w_trace := w_trace (mc_world d) ++ es |}).

(* USBDriver/USBDevice.cpp:27 and 46-49, newReportDescriptor *)
Definition fido_report_descriptor : bytes :=
  [6; 208; 241; 9; 1; 161; 1; 9; 32; 20; 37; 255; 117; 8; 149; 64; 129; 2; 9; 33; 20; 37; 255;
   117; 8; 149; 64; 145; 2; 192].
