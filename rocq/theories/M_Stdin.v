(* The questions of the demo on its standard input, cmd/demo/server.go:16-30 (prompt).  Every call makes
   a bufio.Reader of its own over os.Stdin and drops it when it has its line, with whatever the reader
   had read beyond it.  Questions of several requests may wait at the same time.
   Simplified: the usbip program that shares the standard input (server.go:84) reads nothing. *)
From Verif Require Import Base M_Demo.

(* Typed and not yet read, whether the input has ended, and the questions that wait with what their
   readers have so far.  [None] when the process has panicked. *)
Record tty : Type := mk_tty { ty_queue : bytes; ty_closed : bool; ty_asked : list (N * bytes) }.
Definition tty0 : tty := mk_tty [] false [].

(* bufio, Reader.ReadString('\n'): the line with its end, and the rest. *)
Fixpoint cut_line (s : bytes) : option (bytes * bytes) :=
  match s with
  | [] => None
  | b :: r => if b =? 10 then Some ([b], r) else match cut_line r with Some (l, t) => Some (b :: l, t) | None => None end
  end.

Inductive deed : Type :=
| DAsk (k : N)                     (* a question is shown, server.go:18-19 *)
| DType (s : bytes)                (* something is typed or arrives through a pipe *)
| DRead (k n : N)                  (* a Read for question [k] returns [n] bytes *)
| DClose                           (* the input ends *)
| DEnd (k : N).                    (* a Read for question [k] returns EOF *)

(* What happens, in order. *)
Inductive happened : Type :=
| Shown (k : N)
| Typed (s : bytes)
| Got (k : N) (s : bytes)
| Answered (k : N) (ok : bool)
| Closed
| Died (k : N).                    (* server.go:21-24, panic *)

Fixpoint waiting (k : N) (l : list (N * bytes)) : option bytes :=
  match l with [] => None | (j, a) :: r => if j =? k then Some a else waiting k r end.
Definition without (k : N) (l : list (N * bytes)) : list (N * bytes) := filter (fun x => negb (fst x =? k)) l.

(* bufio, Reader.fill: the buffer has 4096 bytes; it is emptied when full. *)
Definition room (acc : bytes) : N := 4096 - len acc mod 4096.

Definition tty_step (s : option tty) (d : deed) : option (option tty * list happened) :=
  match s with
  | None => None
  | Some (mk_tty q cl l) =>
    match d with
    | DAsk k => match waiting k l with
                | None => Some (Some (mk_tty q cl (l ++ [(k, [])])), [Shown k])
                | Some _ => None
                end
    | DType x => if cl then None else Some (Some (mk_tty (q ++ x) cl l), [Typed x])
    | DClose => if cl then None else Some (Some (mk_tty q true l), [Closed])
    | DRead k n =>
      match waiting k l with
      | None => None
      | Some acc =>
        if (0 <? n) && (n <=? len q) && (n <=? room acc) then
          let c := takeN n q in
          match cut_line c with
          | Some (x, _) => Some (Some (mk_tty (dropN n q) cl (without k l)), [Got k c; Answered k (answer (acc ++ x))])
          | None => Some (Some (mk_tty (dropN n q) cl (without k l ++ [(k, acc ++ c)])), [Got k c])
          end
        else None
      end
    | DEnd k =>
      match waiting k l, q, cl with
      | Some _, [], true => Some (None, [Died k])
      | _, _, _ => None
      end
    end
  end.

Fixpoint tty_run (s : option tty) (ds : list deed) : option (option tty * list happened) :=
  match ds with
  | [] => Some (s, [])
  | d :: r =>
    match tty_step s d with
    | Some (s', h) => match tty_run s' r with Some (s2, hs) => Some (s2, h ++ hs) | None => None end
    | None => None
    end
  end.
