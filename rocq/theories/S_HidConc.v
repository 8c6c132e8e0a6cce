(* Specifications for the concurrent parts of the HID transport. *)
From Verif Require Import Base M_HidConc.

(* The responses that have arrived, in order of arrival. *)
Fixpoint arrived (ls : list lock_label) : list (list bytes) :=
  match ls with
  | [] => []
  | LArrive ps :: r => ps :: arrived r
  | _ :: r => arrived r
  end.

(* [out] consists of whole responses, each of those in [all] used at most once,
   followed by a beginning of one more. *)
Definition whole_responses (all : list (list bytes)) (out : list bytes) : Prop :=
  exists (order : list nat) (current : nat) (sent rest : list bytes),
    NoDup (current :: order) /\
    Forall (fun t => (t < length all)%nat) order /\
    (sent ++ rest = nth current all []) /\
    out = concat (map (fun t => nth t all []) order) ++ sent.

(* Number of keepalives after the response. *)
Fixpoint late (answered : bool) (e : list tick_event) : nat :=
  match e with
  | [] => 0
  | EvResponse :: r => late true r
  | EvKeepalive :: r => if answered then S (late answered r) else late answered r
  end.

Definition is_wake (l : tick_label) : bool := match l with TWake => true | _ => false end.

(* Number of timer expirations after the handler has signalled stop. *)
Fixpoint wakes_after_stop (stopped : bool) (ls : list tick_label) : nat :=
  match ls with
  | [] => 0
  | THandlerDone :: r => wakes_after_stop true r
  | TWake :: r => if stopped then S (wakes_after_stop stopped r) else wakes_after_stop stopped r
  | _ :: r => wakes_after_stop stopped r
  end.
