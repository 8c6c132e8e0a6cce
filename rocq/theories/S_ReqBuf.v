(* Specification vocabulary for the IN endpoint: everything is read off the list of
   events and labels. *)
From Verif Require Import Base M_ReqBuf.

Definition submissions (t : list in_event) : list (nat * N) :=
  flat_map (fun e => match e with EvSubmit k id => [(k, id)] | _ => [] end) t.

Definition produced (t : list in_event) : list bytes :=
  flat_map (fun e => match e with EvProduced d => [d] | _ => [] end) t.

(* packets handed to completion callbacks, in the order the callbacks ran *)
Definition delivered (t : list in_event) : list bytes :=
  flat_map (fun e => match e with EvCallback _ (Some d) => [d] | _ => [] end) t.

Definition completions (k : nat) (t : list in_event) : nat :=
  length (filter (fun e => match e with EvCallback j _ => Nat.eqb j k | _ => false end) t).

Definition unlinks (id : N) (t : list in_event) : nat :=
  length (filter (fun e => match e with EvUnlink i true => i =? id | _ => false end) t).

Definition submitted_ids (ls : list in_label) : list N :=
  flat_map (fun l => match l with ISubmit id => [id] | _ => [] end) ls.

Definition waits (k : nat) (s : in_state) : nat :=
  length (filter (fun x => Nat.eqb (snd x) k) (rb_waiting (in_buf s))).

Definition flies (k : nat) (s : in_state) : nat :=
  length (filter (fun f => Nat.eqb (fl_key f) k) (in_flight s)).

(* packets taken by a Respond whose callback has not run yet *)
Definition flying_data (s : in_state) : list bytes :=
  flat_map (fun f => match fl_value f with Some d => [d] | None => [] end) (in_flight s).
