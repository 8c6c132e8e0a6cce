(* The U2F authentication counter with several goroutines.  Package ctap_hid locks per
   channel (ctap_hid/channel.go:27) and usb/usb_device.go:88 starts a goroutine for every
   packet, so two channels can be inside the U2F server at once; nothing guards the counter.
   Each goroutine is inside
     fido_client/fido_client.go:197-201, NewAuthenticationCounterId:
       num := client.authenticationCounter      (one load)
       client.authenticationCounter++           (a load and a store)
       return num
   Simplified: loads and stores are atomic and sequentially consistent. *)
From Verif Require Import Base M_HidConc.

Inductive auth_thread : Type :=
| A_call                       (* about to load num *)
| A_num (num : N)              (* about to load the counter again *)
| A_loaded (num c : N)         (* about to store c + 1 *)
| A_done (num : N).

Record race : Type := mk_race {
  rc_ctr : N;
  rc_threads : list auth_thread;
  rc_given : list N            (* what was returned, oldest first *)
}.

Definition race_step (s : race) (i : nat) : option race :=
  match nth_error (rc_threads s) i with
  | Some A_call => Some (mk_race (rc_ctr s) (list_set i (A_num (rc_ctr s)) (rc_threads s)) (rc_given s))
  | Some (A_num n) => Some (mk_race (rc_ctr s) (list_set i (A_loaded n (rc_ctr s)) (rc_threads s)) (rc_given s))
  | Some (A_loaded n c) =>
    Some (mk_race ((c + 1) mod 4294967296) (list_set i (A_done n) (rc_threads s)) (rc_given s ++ [n]))
  | Some (A_done _) | None => None
  end.

Fixpoint race_run (l : list nat) (s : race) : option race :=
  match l with
  | [] => Some s
  | i :: r => match race_step s i with Some s' => race_run r s' | None => None end
  end.

(* [k] requests arrive when the counter is [n]. *)
Definition race_start (k : nat) (n : N) : race := mk_race n (repeat A_call k) [].
