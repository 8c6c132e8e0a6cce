(* util/log.go: four log buffers in a chain, unsafe -> trace -> debug -> enabled -> output.
   One step per call; a call of a log.Logger is one Write of prefix, text and newline
   (package log), and that byte string is the text here.  Not modelled: writers that fail
   (errors are ignored by the code); calls from several goroutines are in M_LogRace. *)
From Verif Require Import Base M_Str.

(* util/log.go:13-18.  The type is a byte. *)
Definition lv_unsafe : N := 0.
Definition lv_trace : N := 1.
Definition lv_debug : N := 2.
Definition lv_enabled : N := 3.

(* util/log.go:50-53.  The first three buffers can only ever be given the next one as
   output ([on]); the last one's output is an io.Writer, here a number, nil is [None].
   [sink] is every Write made to such a writer. *)
Record log_state : Type := mk_log {
  unsafe_buf : bytes; unsafe_on : bool;
  trace_buf : bytes; trace_on : bool;
  debug_buf : bytes; debug_on : bool;
  enabled_buf : bytes; enabled_out : option N;
  sink : list (N * bytes)
}.

Definition log_start : log_state := mk_log [] false [] false [] false [] None [].

(* util/log.go:34-40, Write. *)
Definition write_enabled (p : bytes) (s : log_state) : log_state :=
  match enabled_out s with
  | None => mk_log (unsafe_buf s) (unsafe_on s) (trace_buf s) (trace_on s) (debug_buf s) (debug_on s)
              (enabled_buf s ++ p) (enabled_out s) (sink s)
  | Some o => mk_log (unsafe_buf s) (unsafe_on s) (trace_buf s) (trace_on s) (debug_buf s) (debug_on s)
              (enabled_buf s) (enabled_out s) (sink s ++ [(o, p)])
  end.
Definition write_debug (p : bytes) (s : log_state) : log_state :=
  if debug_on s then write_enabled p s
  else mk_log (unsafe_buf s) (unsafe_on s) (trace_buf s) (trace_on s) (debug_buf s ++ p) (debug_on s)
         (enabled_buf s) (enabled_out s) (sink s).
Definition write_trace (p : bytes) (s : log_state) : log_state :=
  if trace_on s then write_debug p s
  else mk_log (unsafe_buf s) (unsafe_on s) (trace_buf s ++ p) (trace_on s) (debug_buf s) (debug_on s)
         (enabled_buf s) (enabled_out s) (sink s).
Definition write_unsafe (p : bytes) (s : log_state) : log_state :=
  if unsafe_on s then write_trace p s
  else mk_log (unsafe_buf s ++ p) (unsafe_on s) (trace_buf s) (trace_on s) (debug_buf s) (debug_on s)
         (enabled_buf s) (enabled_out s) (sink s).

(* util/log.go:42-48, setOutput, of each buffer: what is buffered is read out, written to
   the new output and gone. *)
Definition attach_unsafe (s : log_state) : log_state :=
  let b := unsafe_buf s in
  let s := mk_log [] (unsafe_on s) (trace_buf s) (trace_on s) (debug_buf s) (debug_on s)
             (enabled_buf s) (enabled_out s) (sink s) in
  let s := if 0 <? len b then write_trace b s else s in
  mk_log (unsafe_buf s) true (trace_buf s) (trace_on s) (debug_buf s) (debug_on s)
    (enabled_buf s) (enabled_out s) (sink s).
Definition attach_trace (s : log_state) : log_state :=
  let b := trace_buf s in
  let s := mk_log (unsafe_buf s) (unsafe_on s) [] (trace_on s) (debug_buf s) (debug_on s)
             (enabled_buf s) (enabled_out s) (sink s) in
  let s := if 0 <? len b then write_debug b s else s in
  mk_log (unsafe_buf s) (unsafe_on s) (trace_buf s) true (debug_buf s) (debug_on s)
    (enabled_buf s) (enabled_out s) (sink s).
Definition attach_debug (s : log_state) : log_state :=
  let b := debug_buf s in
  let s := mk_log (unsafe_buf s) (unsafe_on s) (trace_buf s) (trace_on s) [] (debug_on s)
             (enabled_buf s) (enabled_out s) (sink s) in
  let s := if 0 <? len b then write_enabled b s else s in
  mk_log (unsafe_buf s) (unsafe_on s) (trace_buf s) (trace_on s) (debug_buf s) true
    (enabled_buf s) (enabled_out s) (sink s).
(* With a nil writer and something buffered: nil pointer dereference. *)
Definition attach_enabled (o : option N) (s : log_state) : res log_state :=
  match o with
  | Some w => Ok (mk_log (unsafe_buf s) (unsafe_on s) (trace_buf s) (trace_on s) (debug_buf s) (debug_on s)
                    [] o (if 0 <? len (enabled_buf s) then sink s ++ [(w, enabled_buf s)] else sink s))
  | None => if 0 <? len (enabled_buf s) then Panic
            else Ok (mk_log (unsafe_buf s) (unsafe_on s) (trace_buf s) (trace_on s) (debug_buf s) (debug_on s)
                       (enabled_buf s) None (sink s))
  end.

(* Decimal digits of a byte, for "%d". *)
Definition byte_digits (n : N) : bytes :=
  (if 100 <=? n then [48 + n / 100] else []) ++ (if 10 <=? n then [48 + n / 10 mod 10] else []) ++ [48 + n mod 10].

(* util/log.go:9 and 69: the line that SetLogLevel logs. *)
Definition level_line (l : N) : bytes := str "[LOG] Log Level Set: " ++ byte_digits l ++ [10].

(* util/log.go:59-70, SetLogLevel. *)
Definition set_level (l : N) (s : log_state) : log_state :=
  let s := if l <=? lv_unsafe then attach_unsafe s else s in
  let s := if l <=? lv_trace then attach_trace s else s in
  let s := if l <=? lv_debug then attach_debug s else s in
  write_enabled (level_line l) s.

(* util/log.go:72-82, NewLogger: the buffer that a logger of level [l] writes to. *)
Definition log_write (l : N) (p : bytes) (s : log_state) : log_state :=
  if l =? lv_enabled then write_enabled p s
  else if l =? lv_debug then write_debug p s
  else if l =? lv_trace then write_trace p s
  else write_unsafe p s.

Inductive log_call : Type :=
| LWrite (level : N) (p : bytes)       (* Print on a logger made by NewLogger(_, level) *)
| LSetLevel (level : N)                (* SetLogLevel *)
| LSetOutput (out : option N).         (* SetLogOutput, util/log.go:55-57 *)

Definition log_step (s : log_state) (c : log_call) : res log_state :=
  match c with
  | LWrite l p => Ok (log_write l p s)
  | LSetLevel l => Ok (set_level l s)
  | LSetOutput o => attach_enabled o s
  end.

Fixpoint log_run (l : list log_call) (s : log_state) : res log_state :=
  match l with
  | [] => Ok s
  | c :: r => match log_step s c with Ok s' => log_run r s' | Panic => Panic end
  end.
