(* What is asked of a list of credentials that several goroutines add to. *)
From Verif Require Import Base M_HidConc M_VaultRace.

(* The credentials whose registration was asked for, and those whose registration is over, in
   the order in which they came in. *)
Definition asked (s : vaults) : list N := map fst (va_threads s).
Definition over (s : vaults) : list N :=
  map fst (filter (fun t => match snd t with V_done => true | _ => false end) (va_threads s)).

(* At no moment is more than one registration under way. *)
Definition one_by_one (l0 : list N) (spare : nat) (l : list vault_event) : Prop :=
  forall l1 l2 s, l = l1 ++ l2 -> vault_run l1 (vault_start l0 spare) = Some s ->
    (length (asked s) <= 1 + length (over s))%nat.
