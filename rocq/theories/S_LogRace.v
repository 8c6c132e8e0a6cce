(* Where log texts go, and what an orderly log is. *)
From Verif Require Import Base M_LogRace.

(* Where a text written to buffer [i] ends up: in the first buffer from there on that has no
   output, or ([None]) with the writer. *)
Fixpoint stop (on : list bool) (i : nat) : option nat :=
  match on, i with
  | [], _ => None
  | true :: r, O => option_map S (stop r O)
  | false :: _, O => Some O
  | _ :: r, S j => option_map S (stop r j)
  end.

Definition onat_eqb (a b : option nat) : bool :=
  match a, b with
  | Some x, Some y => Nat.eqb x y
  | None, None => true
  | _, _ => false
  end.

(* The texts, in the order in which their calls returned, that end up at [d]. *)
Definition texts_at (on : list bool) (lev : N -> nat) (d : option nat) (tr : list (nat * lcall)) : list bytes :=
  map (fun x => snd (snd x)) (filter (fun x => onat_eqb (stop on (lev (fst (snd x)))) d) tr).

(* The calls of goroutine [j]. *)
Definition calls_of (j : nat) (tr : list (nat * lcall)) : list lcall :=
  map snd (filter (fun x => Nat.eqb (fst x) j) tr).

(* Nobody is logging. *)
Definition at_rest (w : lworld) : Prop := Forall (fun t => lt_calls t = [] /\ lt_pc t = LIdle) (lw_threads w).
