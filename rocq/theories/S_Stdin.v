(* What the properties about the demo's questions talk about. *)
From Verif Require Import Base M_Stdin.

(* All that was typed, and all that was read. *)
Definition typed (hs : list happened) : bytes := flat_map (fun h => match h with Typed s => s | _ => [] end) hs.
Definition got (hs : list happened) : bytes := flat_map (fun h => match h with Got _ s => s | _ => [] end) hs.

(* The answers, in order. *)
Definition answers (hs : list happened) : list bool := flat_map (fun h => match h with Answered _ b => [b] | _ => [] end) hs.

(* One line with its end. *)
Definition one_line (s : bytes) : Prop := exists l, s = l ++ [10] /\ ~ In 10 l.

(* [s] begins with these lines. *)
Definition begins (ls : list bytes) (s : bytes) : Prop := Forall one_line ls /\ exists r, s = concat ls ++ r.

(* These lines, or ends of lines, occur in [s] one after another. *)
Inductive pieces : list bytes -> bytes -> Prop :=
| Pc_nil s : pieces [] s
| Pc_cons gap l ls s : one_line l -> pieces ls s -> pieces (l :: ls) (gap ++ l ++ s).

(* Which questions wait. *)
Definition asked (hs : list happened) : list N :=
  fold_left (fun l h => match h with
                        | Shown k => k :: l
                        | Answered k _ => filter (fun j => negb (j =? k)) l
                        | _ => l
                        end) hs [].
(* A question is shown only when none waits. *)
Definition one_question (hs : list happened) : Prop := forall h1 k h2, hs = h1 ++ Shown k :: h2 -> asked h1 = [].
(* When a question is shown, everything typed has been read. *)
Definition nothing_ahead (hs : list happened) : Prop := forall h1 k h2, hs = h1 ++ Shown k :: h2 -> typed h1 = got h1.
(* A read stops at the end of a line, as on a terminal. *)
Definition stops_at_lines (hs : list happened) : Prop :=
  forall k s, In (Got k s) hs -> forall a b, s = a ++ 10 :: b -> b = [].

(* No question is shown. *)
Definition no_shown (hs : list happened) : Prop := forall k, ~ In (Shown k) hs.
