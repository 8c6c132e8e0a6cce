(* The PIN retry counter with several goroutines.  Package ctap_hid locks per channel
   (ctap_hid/channel.go:27) and usb/usb_device.go:88 starts a goroutine for every packet, so
   PIN requests on different channels can be inside the CTAP server at once; nothing guards
   the counter of the client.  A goroutine is inside
     ctap/ctap.go:564-586, handleGetPINToken (handleChangePIN, 536-562, goes through the
     counter in the same five steps, at 540, 548, 550 and 554):
       if server.client.PINRetries() <= 0 {...}                         (one load)
       server.client.SetPINRetries(server.client.PINRetries() - 1)      (a load and a store)
       if !bytes.Equal(pinHash, server.client.PINHash()) {return ...}   (the comparison)
       server.client.SetPINRetries(8)                                   (a store)
   with
     fido_client/fido_client.go:168-175, PINRetries and SetPINRetries:
       util.Assert(client.pinRetries > 0 && client.pinRetries <= 8, ...); return client.pinRetries
   A failed assertion panics and ends the process.
   Simplified: loads and stores are atomic and sequentially consistent; whether the guess is
   the right one is fixed when the request arrives; decrypting the guess is not shown (P_Pin
   and M_Ctap have it). *)
From Verif Require Import Base M_HidConc.

Inductive guess_thread : Type :=
| G_check                      (* about to call PINRetries, line 568 *)
| G_load                       (* about to call it again, line 572 *)
| G_store (r : nat)            (* about to store r - 1, line 572 *)
| G_compare                    (* about to compare, line 575 *)
| G_reset                      (* about to store 8, line 580 *)
| G_done (ok : bool).          (* answered *)

Record pins : Type := mk_pins {
  pn_retries : nat;
  pn_threads : list (bool * guess_thread);     (* is the guess right, and where it is *)
  pn_dead : bool                               (* an assertion failed *)
}.

Inductive pin_event : Type :=
| PArrive (hit : bool)       (* a request with a guess comes in *)
| PStep (i : nat).             (* request i takes its next step *)

(* fido_client.go:168-171. *)
Definition retries_ok (r : nat) : bool := (0 <? r)%nat && (r <=? 8)%nat.

Definition pin_goes (s : pins) (i : nat) (hit : bool) (t : guess_thread) : pins :=
  mk_pins (pn_retries s) (list_set i (hit, t) (pn_threads s)) (pn_dead s).

Definition pin_sets (s : pins) (i : nat) (hit : bool) (t : guess_thread) (r : nat) : pins :=
  mk_pins r (list_set i (hit, t) (pn_threads s)) (pn_dead s).

Definition pin_dies (s : pins) : pins := mk_pins (pn_retries s) (pn_threads s) true.

Definition pin_step (s : pins) (e : pin_event) : option pins :=
  if pn_dead s then None
  else match e with
       | PArrive hit => Some (mk_pins (pn_retries s) (pn_threads s ++ [(hit, G_check)]) false)
       | PStep i =>
         match nth_error (pn_threads s) i with
         | Some (hit, G_check) =>
           Some (if retries_ok (pn_retries s) then pin_goes s i hit G_load else pin_dies s)
         | Some (hit, G_load) =>
           Some (if retries_ok (pn_retries s) then pin_goes s i hit (G_store (pn_retries s))
                 else pin_dies s)
         | Some (hit, G_store r) => Some (pin_sets s i hit G_compare (r - 1))
         | Some (hit, G_compare) =>
           Some (pin_goes s i hit (if hit then G_reset else G_done false))
         | Some (hit, G_reset) => Some (pin_sets s i hit (G_done true) 8)
         | Some (_, G_done _) | None => None
         end
       end.

Fixpoint pin_run (l : list pin_event) (s : pins) : option pins :=
  match l with
  | [] => Some s
  | e :: r => match pin_step s e with Some s' => pin_run r s' | None => None end
  end.

(* fido_client.go:73: a new process begins with eight retries. *)
Definition pin_start : pins := mk_pins 8 [] false.
