(* What the macOS transport has to do, told without its data structures. *)
From Verif Require Import Base M_Client M_State M_History M_Mac.

(* ---- a queue: every operation of the list in util.cpp, with the address malloc gives *)
Inductive qop (D : Type) := QPush (a : N) (d : D) | QPop.
Arguments QPush {D}. Arguments QPop {D}.

(* The queue holds addresses and values; a push at an address in use (or NULL) cannot happen.
   The answers of the pops are collected. *)
Fixpoint queue_run {D} (q : list (N * D)) (ops : list (qop D)) : option (list (N * D) * list (option D)) :=
  match ops with
  | [] => Some (q, [])
  | QPush a d :: r => if (a =? 0) || existsb (fun x => fst x =? a) q then None else queue_run (q ++ [(a, d)]) r
  | QPop :: r =>
    match q with
    | [] => match queue_run [] r with Some (q', out) => Some (q', None :: out) | None => None end
    | (_, d) :: q' => match queue_run q' r with Some (q'', out) => Some (q'', Some d :: out) | None => None end
    end
  end.

(* The same operations on the list. *)
Fixpoint list_run {D} (h : heap D) (l : llist) (ops : list (qop D)) : res (heap D * llist * list (option D)) :=
  match ops with
  | [] => Ok (h, l, [])
  | QPush a d :: r => let? (h, l) := ll_push h l a d in list_run h l r
  | QPop :: r => let? (h, l, x) := ll_pop h l in let? (h, l, out) := list_run h l r in Ok (h, l, x :: out)
  end.

(* ---- the reports of a run, and the notifications the run loop has worked on *)
Definition reports_of (ls : list mac_label) : list bytes :=
  flat_map (fun l => match l with MReport _ r => [r] | _ => [] end) ls.
Definition notifies (ls : list mac_label) : nat :=
  length (filter (fun l => match l with MNotify => true | _ => false end) ls).
Definition ticks_of (ls : list mac_label) : list nat :=
  flat_map (fun l => match l with MHandle ka _ => [ka] | _ => [] end) ls.
Definition mac_no_local (l : mac_label) : Prop := match l with MLocal _ => False | _ => True end.

(* The host never gets more than 17 reports ahead. *)
Definition paced (ls : list mac_label) : Prop :=
  forall before after, ls = before ++ after -> (length (reports_of before) <= notifies before + 17)%nat.

(* [a] is [b] with some elements left out. *)
Inductive sub {A} : list A -> list A -> Prop :=
| sub_nil : sub [] []
| sub_keep x a b : sub a b -> sub (x :: a) (x :: b)
| sub_drop x a b : sub a b -> sub a (x :: b).

(* The run loop has nothing left to do. *)
Definition settled (d : mac) : Prop := mc_notes d = 0%nat /\ mc_current d = None.

(* The steps of the run loop itself. *)
Definition works (l : mac_label) : Prop :=
  match l with MNotify => True | MHandle _ junk => forall i, len (junk i) = 64 | _ => False end.

(* ---- the sizes in bits of the input and output reports a report descriptor announces (HID
   1.11, 6.2.2): short items, of which Report Size (0x74) and Report Count (0x94) set the
   fields added by Input (0x80) and Output (0x90). *)
Fixpoint report_items (fuel : nat) (size count input output : N) (d : bytes) : option (N * N) :=
  match d with
  | [] => Some (input, output)
  | p :: rest =>
    match fuel with
    | O => None
    | S f =>
      let n := match p mod 4 with 3 => 4 | k => k end in
      if len rest <? n then None
      else
        let v := le_dec (takeN n rest) in let rest := dropN n rest in let tag := p - p mod 4 in
        if tag =? 0x74 then report_items f v count input output rest
        else if tag =? 0x94 then report_items f size v input output rest
        else if tag =? 0x80 then report_items f size count (input + size * count) output rest
        else if tag =? 0x90 then report_items f size count input (output + size * count) rest
        else report_items f size count input output rest
    end
  end.
Definition report_bits (d : bytes) : option (N * N) := report_items (length d) 0 0 0 0 d.

(* The usage page (0x04) and usage (0x08) with which the descriptor opens its collection (0xA0),
   and the collection's kind: what a host goes by to tell a FIDO device, page 0xF1D0, usage 1, an
   application collection (1), from other devices (CTAP 2.0, 8.1.8.2). *)
Fixpoint usage_items (fuel : nat) (page usage : N) (d : bytes) : option (N * N * N) :=
  match d with
  | [] => None
  | p :: rest =>
    match fuel with
    | O => None
    | S f =>
      let n := match p mod 4 with 3 => 4 | k => k end in
      if len rest <? n then None
      else
        let v := le_dec (takeN n rest) in let rest := dropN n rest in let tag := p - p mod 4 in
        if tag =? 0x04 then usage_items f v usage rest
        else if tag =? 0x08 then usage_items f page v rest
        else if tag =? 0xA0 then Some (page, usage, v)
        else usage_items f page usage rest
    end
  end.
Definition report_usage (d : bytes) : option (N * N * N) := usage_items (length d) 0 0 d.
