(* What the host can tell about a device that works on several requests at a time. *)
From Verif Require Import Base M_State M_Client M_History M_Overlap S_Hid M_ReqBuf M_Usbip M_Threads S_Usbip S_UsbipSys S_Device S_Overlap.
From Coq Require Import Sorted.

(* A whole message to the host. *)
Inductive message_out :=
| Keepalive (ch : N)
| Failure (ch code : N)
| Opened (nonce : bytes) (id : N)              (* reply to INIT *)
| Echo (ch : N) (data : bytes)                 (* reply to PING *)
| Answer (n : nat) (ch : N) (i : input) (r : bytes).   (* reply to request number n *)

Definition out_channel (t : message_out) : N :=
  match t with Keepalive ch | Failure ch _ | Echo ch _ | Answer _ ch _ _ => ch | Opened _ _ => 0xFFFFFFFF end.
Definition asks_by (i : input) : N := match i with ICtap _ => 0x90 | _ => 0x83 end.
Definition out_packets (t : message_out) : list bytes :=
  match t with
  | Keepalive ch => spec_packets ch 0xBB [2]
  | Failure ch code => spec_packets ch 0xBF [code]
  | Opened nonce id => spec_packets 0xFFFFFFFF 0x86 (nonce ++ le 4 id ++ [2; 0; 0; 1; 4])
  | Echo ch d => spec_packets ch 0x81 d
  | Answer _ ch i r => spec_packets ch (asks_by i) r
  end.

Definition asks (i : input) (m : bytes) : Prop := i = ICtap m \/ i = IU2f m.

(* Why a message is sent: the history [h] gave that answer to a request the host wrote, or
   there is another reason in what the host wrote. *)
Definition reason (written : list bytes) (h : list oentry) (t : message_out) : Prop :=
  out_channel t < 4294967296 /\
  match t with
  | Keepalive ch => exists m, requested written ch 0x90 m
  | Failure ch _ => exists first, In first written /\ takeN 4 first = le 4 ch
  | Opened nonce _ => len nonce = 8 /\ exists m, requested written 0xFFFFFFFF 0x86 m
  | Echo ch d => requested written ch 0x81 d
  | Answer n ch i r => In (ODone n i (OBytes r)) h /\ exists m, asks i m /\ requested written ch (asks_by i) m
  end.

(* The numbers of the requests answered by some messages, all or those of one channel. *)
Definition answer_number (t : message_out) : list nat := match t with Answer n _ _ _ => [n] | _ => [] end.
Definition sent_on (ch : N) (t : message_out) : bool := out_channel t =? ch.
Definition numbers_of (l : list message_out) : list nat := flat_map answer_number l.

(* Requests of the host, as opposed to calls of the program. *)
Definition from_host (i : input) : bool := match i with ICtap _ | IU2f _ => true | _ => false end.
Definition answered_requests (h : list oentry) : list nat :=
  flat_map (fun e => match e with ODone n i _ => if from_host i then [n] else [] | _ => [] end) h.
Definition begins_request (e : oentry) : bool :=
  match e with OBegin _ i => from_host i | _ => false end.

(* Every request the history knows was written by the host. *)
Definition ocame_from (written : list bytes) (e : oentry) : Prop :=
  match e with
  | OBegin _ i => from_host i = true -> exists m ch, asks i m /\ requested written ch (asks_by i) m
  | _ => True
  end.

Definition is_ostart (e : oentry) : bool := match e with OStart _ => true | _ => false end.
Fixpoint osince_start (h : list oentry) : list oentry :=
  match h with
  | [] => []
  | e :: r => if existsb is_ostart r then osince_start r else if is_ostart e then r else osince_start r
  end.
Definition ostarts_of (h : list oentry) : list params :=
  flat_map (fun e => match e with OStart p | OStartFailed p => [p] | _ => [] end) h.

(* What the host has read, told as the whole messages it was sent; [later] is on its way. *)
Definition reads_as (d : tdev) (turns : list message_out) : Prop :=
  let log := sy_log (td_sys d) in
  NoDup (submit_seqs log) -> reads_64 log -> forall ch, 0 < ch < 4294967296 ->
  exists later, packets_read ch log (sy_out (td_sys d)) ++ later = concat (map out_packets (filter (sent_on ch) turns)) /\
    (td_out d = [] -> td_turn d = None -> rb_responses (in_buf (sy_in (td_sys d))) = [] ->
     in_flight (sy_in (td_sys d)) = [] -> later = []).

(* Messages sent that the user must have approved. *)
Definition approved_sent (a : M_Client.action) (turns : list message_out) : nat :=
  length (filter (fun t => match t with Answer _ _ i r => S_Overlap.needs_yes a i (OBytes r) | _ => false end) turns).

(* The steps that only deliver what is there. *)
Definition tdelivers (l : tlabel) : Prop :=
  match l with TRun _ | TGrab _ | TPut _ | TWrite => True | _ => False end.
Definition no_answer (l : tlabel) : Prop := match l with TAnswer _ => False | _ => True end.

(* Only what is on its way to the host differs. *)
Definition tsame (d d' : tdev) : Prop :=
  td_world d' = td_world d /\ td_srv d' = td_srv d /\ td_taken d' = td_taken d /\ td_waits d' = td_waits d /\
  td_tickers d' = td_tickers d /\ sy_log (td_sys d') = sy_log (td_sys d) /\ sy_delegate (td_sys d') = sy_delegate (td_sys d).

(* A waiting request is still there. *)
Definition still (x : thread) (l : list thread) : Prop :=
  exists x', In x' l /\ th_ch x' = th_ch x /\ th_reply x' = th_reply x /\ th_input x' = th_input x.
