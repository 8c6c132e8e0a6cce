(* What somebody who watches the HID connection sees of an exchange. *)
From Verif Require Import Base M_HidLog.

Definition seen (e : hid_event) : bytes * list bytes * bool := (ev_in e, ev_out e, ev_ok e).

(* Byte 4 of a packet is 187 in a keepalive (CTAP 2.0, 8.1.5.3).  Keepalives are not logged. *)
Definition quiet (ps : list bytes) : list bytes :=
  filter (fun p => negb (nth 4 p 0 =? 187)%N) ps.
