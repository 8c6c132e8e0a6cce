(* Model of util/util.go: buffers, integer reads and writes. *)
From Verif Require Import Base.

(* util/util.go:50-54, Pad: a fresh slice of [size] zero elements into which
   [src] is copied (and truncated if longer). *)
Definition pad (src : bytes) (size : nat) : bytes :=
  firstn size (src ++ zeros size).

(* util/util.go:63-68, ReadLE on a bytes.Buffer, for an unsigned integer type of
   [n] bytes: binary.Read uses io.ReadFull, so a short buffer is an error, which
   CheckErr turns into a panic. *)
Definition read_le (n : nat) (buf : bytes) : res (N * bytes) :=
  if len buf <? N.of_nat n then Panic
  else Ok (le_dec (firstn n buf), skipn n buf).

(* util/util.go:56-61, ReadBE likewise. *)
Definition read_be (n : nat) (buf : bytes) : res (N * bytes) :=
  if len buf <? N.of_nat n then Panic
  else Ok (be_dec (firstn n buf), skipn n buf).

(* util/util.go:82-86, FromBE: ReadBE on a buffer holding exactly the slice; extra
   bytes are ignored. *)
Definition from_be (n : nat) (b : bytes) : res N :=
  let? (v, _) := read_be n b in Ok v.

(* util/util.go:94-99, Read on a bytes.Buffer: one call of Buffer.Read into a
   zeroed slice of [n] bytes.  Short data leaves the tail zero; an empty buffer
   gives io.EOF, hence a panic, unless [n] is 0. *)
Definition read_buf (n : N) (buf : bytes) : res (bytes * bytes) :=
  match buf with
  | [] => if n =? 0 then Ok ([], []) else Panic
  | _ => Ok (takeN n buf ++ zeros (N.to_nat (n - len buf)), dropN n buf)
  end.

(* util/util.go:101-106, Fill. *)
Definition fill (buf : bytes) (n : N) : bytes :=
  buf ++ zeros (N.to_nat (n - len buf)).

(* util/util.go:172-180, CStringToString: the bytes before the first NUL; panics
   when there is none. *)
Fixpoint cstring (data : bytes) : res bytes :=
  match data with
  | [] => Panic
  | b :: r => if b =? 0 then Ok [] else let? s := cstring r in Ok (b :: s)
  end.
