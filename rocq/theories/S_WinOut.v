(* Taking out the device: the blocks that came, and those that ended. *)
From Verif Require Import Base M_WinDrv M_WinOut.

(* the blocks, in the order in which they came *)
Definition asked (ls : list out_label) : list nat :=
  flat_map (fun l => match l with OWin (WSubmit id _) => [id] | OAsk id _ => [id] | _ => [] end) ls.

(* the blocks that ended, each as often as it did *)
Definition ended_blocks (s : out) : list nat := map fst (dr_done (wi_drv (ot_win s))) ++ ot_gone s.
