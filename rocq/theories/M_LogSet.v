(* util/log.go while goroutines log and one goroutine calls SetLogOutput and SetLogLevel,
   which the package exports (virtual_fido.go:21-27).

   Simplified: each method of bytes.Buffer is one step (M_LogRace has the steps of its
   Write), as are a Write to the final io.Writer and an assignment to output; memory is
   sequentially consistent; a Read of io.ReadAll ends where a line ends; the calls of
   SetLogOutput and SetLogLevel come one after another; all outputs given to SetLogOutput
   are one; the line that SetLogLevel logs itself is one of the goroutines' lines.
   The number of a line only tells equal lines apart. *)
From Verif Require Import Base.
Open Scope N_scope.

Definition line : Type := nat * bytes.

(* The logBuffers by level, util/log.go:50-53: 0 unsafe, 1 trace, 2 debug, 3 enabled; the
   output of each, once set, is the next; that of the last is the io.Writer, here 4
   (lines 55-70). *)
Inductive wpc : Type :=
| Decide (level : nat)      (* before the test for nil in Write, line 35 *)
| Keep (level : nat).       (* output was nil, before buffer.Write, line 36 *)
Record writing : Type := mk_writing { wt_lines : list line; wt_pc : wpc }.

(* setOutput, lines 42-48 *)
Inductive spc : Type :=
| Test                      (* before buffer.Len *)
| Read (got : list line)    (* in io.ReadAll *)
| Pass (w : writing)        (* in output.Write *)
| Assign.                   (* before the assignment to output *)

Record lset : Type := mk_lset {
  lg_buf : nat -> list line;      (* the buffers *)
  lg_on : nat -> bool;            (* output is set *)
  lg_shown : list line;
  lg_writers : list writing;      (* goroutines in Write *)
  lg_todo : list nat;             (* the levels that the running call still sets *)
  lg_pc : spc }.

Definition lset0 : lset := mk_lset (fun _ => []) (fun _ => false) [] [] [] Test.

Definition upd {A} (f : nat -> A) (k : nat) (v : A) : nat -> A := fun i => if Nat.eqb i k then v else f i.

(* logBuffer.Write, lines 34-40, and the final Write: one step.  None: it has returned. *)
Definition write_step (s : lset) (w : writing) : lset * option writing :=
  match wt_pc w with
  | Decide level =>
    if Nat.eqb level 4 then
      (mk_lset (lg_buf s) (lg_on s) (lg_shown s ++ wt_lines w) (lg_writers s) (lg_todo s) (lg_pc s), None)
    else if lg_on s level then (s, Some (mk_writing (wt_lines w) (Decide (S level))))
    else (s, Some (mk_writing (wt_lines w) (Keep level)))
  | Keep level =>
    (mk_lset (upd (lg_buf s) level (lg_buf s level ++ wt_lines w)) (lg_on s) (lg_shown s) (lg_writers s) (lg_todo s) (lg_pc s), None)
  end.

Inductive set_call : Type := COutput | CLevel (level : N).

(* SetLogOutput, lines 55-57; SetLogLevel, lines 59-70 *)
Definition levels (c : set_call) : list nat :=
  match c with
  | COutput => [3%nat]
  | CLevel l => (if l <=? 0 then [0%nat] else []) ++ (if l <=? 1 then [1%nat] else []) ++ (if l <=? 2 then [2%nat] else [])
  end.

Inductive ls_label : Type :=
| LBegin (x : line) (level : nat)    (* a goroutine calls Write of its logger's buffer *)
| LStep (i : nat)
| LCall (c : set_call)
| LSet (n : nat).                    (* the setting goroutine goes on; n: how much it reads *)

Definition set_nth {A} (i : nat) (o : option A) (l : list A) : list A :=
  firstn i l ++ match o with Some x => [x] | None => [] end ++ skipn (S i) l.

Definition with_writers (s : lset) (ws : list writing) : lset :=
  mk_lset (lg_buf s) (lg_on s) (lg_shown s) ws (lg_todo s) (lg_pc s).
Definition with_pc (s : lset) (p : spc) : lset :=
  mk_lset (lg_buf s) (lg_on s) (lg_shown s) (lg_writers s) (lg_todo s) p.

Definition ls_step (s : lset) (l : ls_label) : option lset :=
  match l with
  | LBegin x level =>
    if Nat.leb level 3 then Some (with_writers s (lg_writers s ++ [mk_writing [x] (Decide level)])) else None
  | LStep i =>
    let! w := nth_error (lg_writers s) i in
    let (s', o) := write_step s w in
    Some (with_writers s' (set_nth i o (lg_writers s)))
  | LCall c =>
    match lg_todo s with
    | [] => Some (mk_lset (lg_buf s) (lg_on s) (lg_shown s) (lg_writers s) (levels c) Test)
    | _ => None
    end
  | LSet n =>
    match lg_todo s with
    | [] => None
    | j :: rest =>
      match lg_pc s with
      | Test => Some (with_pc s (match lg_buf s j with [] => Assign | _ => Read [] end))
      | Read got =>
        match lg_buf s j with
        | [] => Some (with_pc s (Pass (mk_writing got (Decide (S j)))))
        | b => Some (mk_lset (upd (lg_buf s) j (skipn (S n) b)) (lg_on s) (lg_shown s) (lg_writers s) (lg_todo s)
                       (Read (got ++ firstn (S n) b)))
        end
      | Pass w =>
        let (s', o) := write_step s w in
        Some (with_pc s' (match o with Some w' => Pass w' | None => Assign end))
      | Assign => Some (mk_lset (lg_buf s) (upd (lg_on s) j true) (lg_shown s) (lg_writers s) rest Test)
      end
    end
  end.

Fixpoint ls_run (s : lset) (ls : list ls_label) : option lset :=
  match ls with
  | [] => Some s
  | l :: r => let! s' := ls_step s l in ls_run s' r
  end.
