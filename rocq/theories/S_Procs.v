(* What the properties about several processes talk about. *)
From Verif Require Import Base M_Crypto M_Cose M_State M_Client M_History S_Client S_History M_Procs.

(* All processes are started with the passphrase of [E], and properly. *)
Definition one_passphrase (E : Env) (ns : list note) : Prop :=
  forall k pass p, In (NStart k pass p) ns -> pass = e_pass E /\ params_ok E p.

(* No process is started, or tried to be, before the earlier ones have ended. *)
Definition live (ns : list note) : list N :=
  fold_left (fun l n => match n with
                        | NStart k _ _ => k :: l
                        | NPanic k _ | NStop k _ => filter (fun j => negb (j =? k)) l
                        | _ => l
                        end) ns [].
Definition one_at_a_time (ns : list note) : Prop := forall n1 n n2, ns = n1 ++ n :: n2 ->
  match n with NStart _ _ _ | NStartFailed _ _ _ => live n1 = [] | _ => True end.

(* The history of a device that goes through the same. *)
Definition entry_of (n : note) : entry :=
  match n with
  | NStart _ _ p => HStart p
  | NStartFailed _ _ p => HStartFailed p
  | NDone _ i o => HDone i o
  | NPanic _ i => HPanic i
  | NStop _ (Some i) => HCrash i
  | NStop _ None => HCrash (ICtap [])      (* no request: an empty one does nothing *)
  end.

(* The random source has not repeated a 16-byte draw. *)
Definition fresh_until (E : Env) (t : N) : Prop :=
  forall i j, i < t -> j < t -> e_rand E i 16 = e_rand E j 16 -> i = j.

(* The file holds the state [c]. *)
Definition file_holds (E : Env) (f : option bytes) (c : client) : Prop := exists d, f = Some d /\ stored E d c.

(* The label is of the process [k]. *)
Definition label_of (l : label) : N :=
  match l with PStart k _ _ | PBegin k _ | PStep k | PAnswer k | PStop k => k end.

(* No request is under way. *)
Definition quiet (s : sys) : Prop := forall k p, sy_procs s k = Some p -> pr_task p = None.
