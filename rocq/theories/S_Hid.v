(* Specification of CTAPHID framing, independent of the model: what a host
   expects to see and to send (CTAP 2.0, section 8.1). *)
From Verif Require Import Base.

(* ---- device to host: closed form of every byte of every packet ---- *)

(* Number of packets for a payload of n bytes. *)
Definition spec_count (n : N) : N :=
  if n =? 0 then 0 else 1 + (n - 57 + 58) / 59.

(* Byte j of packet i of the answer with payload p. *)
Definition spec_byte (ch cmd : N) (p : bytes) (i j : nat) : N :=
  match j with
  | 0%nat => ch mod 256
  | 1%nat => ch / 256 mod 256
  | 2%nat => ch / 65536 mod 256
  | 3%nat => ch / 16777216 mod 256
  | _ =>
    match i with
    | 0%nat =>
      match j with
      | 4%nat => cmd
      | 5%nat => len p / 256 mod 256
      | 6%nat => len p mod 256
      | _ => nth (j - 7) p 0
      end
    | S i' =>
      match j with
      | 4%nat => N.of_nat i' mod 256
      | _ => nth (57 + 59 * i' + (j - 5)) p 0
      end
    end
  end.

Definition spec_packet (ch cmd : N) (p : bytes) (i : nat) : bytes :=
  map (spec_byte ch cmd p i) (seq 0 64).

Definition spec_packets (ch cmd : N) (p : bytes) : list bytes :=
  map (spec_packet ch cmd p) (seq 0 (N.to_nat (spec_count (len p)))).

(* ---- a conforming host's reassembly ---- *)

(* Continuation packets: 64 bytes, the same channel, sequence numbers i, i+1, ...
   which must stay below 128.  [acc] are the bytes so far and [n] the length
   announced.  No packet may be left over. *)
Fixpoint host_continue (ch n : N) (i : N) (acc : bytes) (packets : list bytes)
  : option bytes :=
  if n <=? len acc then
    match packets with
    | [] => Some (takeN n acc)
    | _ => None
    end
  else
    match packets with
    | [] => None
    | p :: rest =>
      if (len p =? 64) && bytes_eqb (takeN 4 p) (le 4 ch)
         && (i <? 128) && (nth 4 p 0 =? i)
      then host_continue ch n (i + 1) (acc ++ dropN 5 p) rest
      else None
    end.

Definition host_receive (ch : N) (packets : list bytes) : option (N * bytes) :=
  match packets with
  | [] => None
  | p :: rest =>
    if (len p =? 64) && bytes_eqb (takeN 4 p) (le 4 ch) && (128 <=? nth 4 p 0)
    then
      match host_continue ch (256 * nth 5 p 0 + nth 6 p 0) 0 (dropN 7 p) rest with
      | Some data => Some (nth 4 p 0, data)
      | None => None
      end
    else None
  end.

(* ---- host to device: a request split into chunks of any size ---- *)

Fixpoint host_continuations (ch i : N) (chunks : list bytes) : list bytes :=
  match chunks with
  | [] => []
  | c :: r => (le 4 ch ++ [i] ++ c) :: host_continuations ch (i + 1) r
  end.

(* The packets for a request with announced length n, the data split as
   first :: rest. *)
Definition host_request (ch cmd n : N) (first : bytes) (rest : list bytes) : list bytes :=
  (le 4 ch ++ [cmd] ++ be 2 n ++ first) :: host_continuations ch 0 rest.

(* The 64-byte packets a conforming host sends for payload p: chunks of 57 and
   then 59 bytes, the last one zero padded. *)
Fixpoint split59 (fuel : nat) (p : bytes) : list bytes :=
  match fuel, p with
  | S f, _ :: _ =>
    (firstn 59 p ++ repeat 0 (59 - length p)) :: split59 f (skipn 59 p)
  | _, _ => []
  end.

Definition host_send (ch cmd : N) (p : bytes) : list bytes :=
  host_request ch cmd (len p)
    (firstn 57 p ++ repeat 0 (57 - length p))
    (split59 (length p) (skipn 57 p)).

(* ---- what a complete request must lead to ---- *)

(* The reply to a complete request on a data channel: CBOR (0x90) and MSG (0x83)
   call the application behind the transport once, with exactly the payload;
   PING (0x81) echoes.  [ka] keepalive packets (0xBB, status 2) may precede a
   CBOR reply. *)
Definition spec_reply {A} (ctap u2f : A -> bytes -> A * res bytes)
  (a : A) (ch cmd : N) (ka : nat) (payload : bytes) : A * list bytes * res unit :=
  if cmd =? 0x81 then (a, spec_packets ch 0x81 payload, Ok tt)
  else if cmd =? 0x83 then
    match u2f a payload with
    | (a', Ok r) => (a', spec_packets ch 0x83 r, Ok tt)
    | (a', Panic) => (a', [], Panic)
    end
  else
    match ctap a payload with
    | (a', Ok r) =>
      (a', concat (repeat (spec_packets ch 0xBB [2]) ka) ++ spec_packets ch 0x90 r, Ok tt)
    | (a', Panic) => (a', concat (repeat (spec_packets ch 0xBB [2]) ka), Panic)
    end.

(* The data completes the announced length n exactly with its last part. *)
Definition completes (n : N) (first : bytes) (rest : list bytes) : Prop :=
  n <= len first + len (concat rest) /\
  (rest <> [] -> len first + len (concat (removelast rest)) < n).

(* The channel ids found in the INIT replies among the packets of a device. *)
Definition init_ids (packets : list bytes) : list N :=
  flat_map (fun p =>
    if (le_dec (takeN 4 p) =? 0xFFFFFFFF) && (nth 4 p 0 =? 0x86)
    then [le_dec (takeN 4 (dropN 15 p))] else []) packets.

(* A host waiting for the reply to a request skips keepalives (0xBB). *)
Fixpoint host_await (ch : N) (packets : list bytes) : option (N * bytes) :=
  match packets with
  | p :: rest =>
    if bytes_eqb (takeN 4 p) (le 4 ch) && (nth 4 p 0 =? 0xBB) then host_await ch rest
    else host_receive ch packets
  | [] => None
  end.

(* The channel a message or packet is for. *)
Definition on_channel (ch : N) (m : bytes) : bool := bytes_eqb (takeN 4 m) (le 4 ch).

(* A message a careful host may send: long enough, and if it starts a request
   then with a command the device knows on that kind of channel. *)
Definition careful (m : bytes) : Prop :=
  wfb m /\ 15 <= len m /\
  (nth 4 m 0 < 128 \/ nth 4 m 0 = 0x91 \/ nth 4 m 0 = 0x81 \/
   takeN 4 m = [255; 255; 255; 255] /\ nth 4 m 0 = 0x86 \/
   takeN 4 m <> [255; 255; 255; 255] /\ (nth 4 m 0 = 0x83 \/ nth 4 m 0 = 0x90)).
