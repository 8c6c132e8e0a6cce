(* Specification of what the USB/IP server holds for a client (C157). *)
From Verif Require Import Base M_ReqBuf M_Usbip.
Open Scope N_scope.

(* the transfer buffers of the requests that wait for the device *)
Fixpoint held_for (subs : list (header * bytes)) (waiting : list (N * nat)) : N :=
  match waiting with
  | [] => 0
  | (_, k) :: r => match nth_error subs k with Some (_, b) => len b | None => 0 end + held_for subs r
  end.
Definition held (s : sys) : N := held_for (sy_subs s) (rb_waiting (in_buf (sy_in s))).
