(* Logging while outputs are set: which lines there are, and where. *)
From Verif Require Import Base M_LogSet.
Open Scope N_scope.

(* the lines that were logged, in the order in which their writing began *)
Definition begun (ls : list ls_label) : list line :=
  flat_map (fun l => match l with LBegin x _ => [x] | _ => [] end) ls.

(* the lines kept in the buffers *)
Definition kept (s : lset) : list line := lg_buf s 0 ++ lg_buf s 1 ++ lg_buf s 2 ++ lg_buf s 3.

(* the lines of calls that have not returned *)
Definition under_way (s : lset) : list line := flat_map wt_lines (lg_writers s).
Definition in_hand (s : lset) : list line :=
  match lg_pc s with Read got => got | Pass w => wt_lines w | _ => [] end.

Definition calls (ls : list ls_label) : list set_call :=
  flat_map (fun l => match l with LCall c => [c] | _ => [] end) ls.
