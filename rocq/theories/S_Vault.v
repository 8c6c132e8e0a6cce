(* What C54 means: the operations of identities/identity_vault.go seen from outside. *)
From Verif Require Import Base M_Crypto M_Cose M_State M_Client S_Client.

Inductive vault_op : Type := OpAdd (s : source) | OpDelete (id : bytes).

(* The vault and the answers after a list of operations. *)
Inductive performs : list vault_op -> list source -> list bool -> Prop :=
| Perf_nil : performs [] [] []
| Perf_add l v bs s : performs l v bs -> performs (l ++ [OpAdd s]) (add_identity v s) bs
| Perf_delete l v bs id v' b : performs l v bs -> delete_identity v id = (v', b) ->
    performs (l ++ [OpDelete id]) v' (bs ++ [b]).

(* [s] was added and nothing later deleted its id. *)
Definition present (l : list vault_op) (s : source) : Prop :=
  exists l1 l2, l = l1 ++ OpAdd s :: l2 /\ ~ In (OpDelete (cs_id s)) l2.

Definition added (l : list vault_op) : list source :=
  flat_map (fun o => match o with OpAdd s => [s] | OpDelete _ => [] end) l.

(* [l] keeps the order of [v] and has exactly the elements with [P]. *)
Inductive selects {A} (P : A -> Prop) : list A -> list A -> Prop :=
| Sel_nil : selects P [] []
| Sel_in x v l : P x -> selects P v l -> selects P (x :: v) (x :: l)
| Sel_out x v l : ~ P x -> selects P v l -> selects P (x :: v) l.
