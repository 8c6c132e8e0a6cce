(* Logging as seen by the callers. *)
From Verif Require Import Base M_Str M_Log.

(* The four kinds of text; a logger with any other level is as secret as unsafe. *)
Inductive kind : Type := KUnsafe | KTrace | KDebug | KEnabled.
Definition kind_of (l : N) : kind :=
  match l with 1 => KTrace | 2 => KDebug | 3 => KEnabled | _ => KUnsafe end.

Definition kind_eqb (a b : kind) : bool :=
  match a, b with
  | KUnsafe, KUnsafe | KTrace, KTrace | KDebug, KDebug | KEnabled, KEnabled => true
  | _, _ => false
  end.

Definition threshold (k : kind) : N := match k with KUnsafe => 0 | KTrace => 1 | KDebug => 2 | KEnabled => 3 end.

(* SetLogLevel has enabled texts of this kind. *)
Definition enables (k : kind) (c : log_call) : bool :=
  match c with LSetLevel l => l <=? threshold k | _ => false end.
Definition enabled (k : kind) (cs : list log_call) : bool :=
  match k with KEnabled => true | _ => existsb (enables k) cs end.

(* The texts of one kind, in order; setting the level logs a line itself. *)
Fixpoint logged (k : kind) (cs : list log_call) : list bytes :=
  match cs with
  | [] => []
  | LWrite l p :: r => (if kind_eqb (kind_of l) k then [p] else []) ++ logged k r
  | LSetLevel l :: r => (if kind_eqb KEnabled k then [level_line l] else []) ++ logged k r
  | LSetOutput _ :: r => logged k r
  end.

(* A number below 256 in decimal. *)
Definition decimal (n : N) (s : bytes) : Prop :=
  Forall (fun b => 48 <= b <= 57) s /\ fold_left (fun a b => 10 * a + (b - 48)) s 0 = n /\
  (1 <= len s) /\ (hd 0 s = 48 -> len s = 1).

(* The writer set last. *)
Fixpoint writer (cs : list log_call) (o : option N) : option N :=
  match cs with [] => o | LSetOutput o' :: r => writer r o' | _ :: r => writer r o end.

(* Everything that was written to writers, as one text. *)
Definition shown (s : log_state) : bytes := concat (map snd (sink s)).

(* The texts of kind [k] in a merged log. *)
Definition part (k : kind) (m : list (kind * bytes)) : list bytes :=
  map snd (filter (fun x => kind_eqb (fst x) k) m).

(* Two call sequences that differ only in the texts of kind [k]. *)
Inductive differ_in (k : kind) : list log_call -> list log_call -> Prop :=
| D_nil : differ_in k [] []
| D_text l p q r r' : kind_of l = k -> differ_in k r r' -> differ_in k (LWrite l p :: r) (LWrite l q :: r')
| D_same c r r' : differ_in k r r' -> differ_in k (c :: r) (c :: r').
