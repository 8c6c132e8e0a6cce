(* What the limit on PIN guesses amounts to when requests overlap. *)
From Verif Require Import Base M_HidConc M_PinRace.

(* Pascal's triangle: how many ways there are to choose k things out of n. *)
Fixpoint choose (n k : nat) : nat :=
  match n, k with
  | _, O => 1
  | O, S _ => 0
  | S n', S k' => choose n' k' + choose n' (S k')
  end.

(* The requests whose guess was compared with the PIN and found wrong. *)
Definition tried (s : pins) : nat :=
  length (filter (fun t => match snd t with G_done false => true | _ => false end) (pn_threads s)).

(* The requests that have come in and are not answered. *)
Definition in_flight (s : pins) : nat :=
  length (filter (fun t => match snd t with G_done _ => false | _ => true end) (pn_threads s)).

(* Nobody guesses right. *)
Definition all_wrong (l : list pin_event) : Prop := ~ In (PArrive true) l.

(* At no moment are there more than k unanswered requests. *)
Definition crowd (k : nat) (l : list pin_event) : Prop :=
  forall l1 l2 s, l = l1 ++ l2 -> pin_run l1 pin_start = Some s -> (in_flight s <= k)%nat.
