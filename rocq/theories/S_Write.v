(* What a host can say about the bytes on its connection. *)
From Verif Require Import Base M_ReqBuf M_Usbip M_Write.

(* [b] is these frames, or these frames with the last one cut short. *)
Definition cut (b : bytes) (frames : list bytes) : Prop :=
  b = concat frames \/ exists fs f t rest, frames = fs ++ [f] /\ f = t ++ rest /\ b = concat fs ++ t.

(* The packets the device produced, in the two models. *)
Definition produced (ls : list sys_label) : list bytes :=
  flat_map (fun l => match l with SRespond _ d => [d] | _ => [] end) ls.
Definition net_produced (ls : list net_label) : list bytes :=
  flat_map (fun l => match l with NRespond _ d => [d] | _ => [] end) ls.
Definition prefix {A} (a b : list A) : Prop := exists r, b = a ++ r.

Definition links_of (m : nmoved) : list link := match m with NUp n => ne_links n | NGone l => l end.

(* Goroutines inside Write on connection [c]. *)
Definition writes_to (n : net) (c : nat) : nat :=
  match ne_job n with Some j => if jb_writing j && Nat.eqb c (current n) then 1%nat else 0%nat | None => 0%nat end +
  length (filter (fun x : inflight * bool => snd x &&
    match nth_error (ne_subs n) (fl_key (fst x)) with Some (c', _, _) => Nat.eqb c c' | None => false end) (ne_calls n)).

(* No write fails in these steps. *)
Definition no_failure (l : net_label) : Prop :=
  match l with NFail _ | NCallFail _ _ => False | _ => True end.
(* Only writes that are on their way, and they succeed. *)
Definition only_writes (l : net_label) : Prop :=
  match l with NLock | NDone | NCall _ | NCallDone _ => True | _ => False end.
(* Nobody waits for a lock or writes. *)
Definition all_written (n : net) : Prop :=
  ne_job n = None /\ ne_calls n = [] /\ Forall (fun l => lk_locked l = false) (ne_links n).

(* A server that has served nobody, with packets for the next host to import the device. *)
Definition as_new (n : net) (s : stream) : Prop :=
  exists old waiting, n = mk_net (old ++ [mk_link s false []]) (mk_conn Control s) None (mk_reqbuf [] waiting) 0 [] [] [] [].
