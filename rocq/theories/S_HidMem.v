(* Specification of what the CTAPHID server keeps of unfinished requests (C156). *)
From Verif Require Import Base M_Hid.
Open Scope N_scope.

(* the bytes of an unfinished request *)
Definition kept_by (v : option txn) : N :=
  match v with
  | Some t => match t_result t with Some r => len (tr_payload r) | None => 0 end
  | None => 0
  end.

Fixpoint kept (l : list (N * option txn)) : N :=
  match l with
  | [] => 0
  | (_, v) :: r => kept_by v + kept r
  end.

(* two pairs of applications that do the same with messages of up to n bytes *)
Definition same_up_to {A} (n : N) (h h' : apps A) : Prop :=
  forall a m, len m <= n -> app_ctap h a m = app_ctap h' a m /\ app_u2f h a m = app_u2f h' a m.
