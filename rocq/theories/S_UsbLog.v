(* Requests to a USB/IP server, and what one may read off a log. *)
From Verif Require Import Base.
Open Scope N_scope.

(* Bytes 0 to 3 are the command.  CMD_SUBMIT (1) and CMD_UNLINK (2) have 48 bytes; of others the
   server reads the header. *)
Definition is_command (n : N) (b : bytes) : Prop := takeN 4 b = [0; 0; 0; n].
Definition request (b : bytes) : Prop :=
  wfb b /\ ((is_command 1 b \/ is_command 2 b) /\ len b = 48 \/ ~ (is_command 1 b \/ is_command 2 b) /\ len b = 20).

(* The device number (bytes 10 and 11) is below 256 and the direction (bytes 12 to 15) 0 or 1. *)
Definition usual (b : bytes) : Prop :=
  nth 10 b 0 = 0 /\ (takeN 4 (dropN 12 b) = [0; 0; 0; 0] \/ takeN 4 (dropN 12 b) = [0; 0; 0; 1]).

(* USB 2.0, 9.3: the type of a request is in bits 5 and 6 of its first byte *)
Inductive usb_type := Standard | Class | Vendor | Reserved.
Definition type_of (t : N) : usb_type :=
  match N.testbit t 6, N.testbit t 5 with
  | false, false => Standard
  | false, true => Class
  | true, false => Vendor
  | true, true => Reserved
  end.
