(* util/log.go as used from several goroutines: a log.Logger has a mutex of its own, but
   the loggers of one level share a logBuffer, which has none (util/log.go:22-40, 72-82).
   The loggers are those of ctap/ctap.go:19-20, mac/mac.go:14, util/log.go:9,
   ctap_hid/ctap_hid.go:10, usbip/usbip_server.go:12-13, usb/usb_device.go:12,
   fido_client/fido_client.go:29, u2f/u2f.go:17.
   Simplifications: the outputs of the buffers do not change (the demo sets them before it
   starts goroutines, cmd/demo/demo.go:106-110); memory is sequentially consistent; the array
   of a bytes.Buffer is never replaced by a longer one during a race; a Write to the final
   io.Writer is one step (as it is for os.File). *)
From Verif Require Import Base.

(* A call: the number of the logger, and prefix, text and newline. *)
Definition lcall : Type := N * bytes.

(* One logBuffer, util/log.go:22-25: the array behind its bytes.Buffer, the length of
   buffer.buf, and whether output is set (then it is the next buffer, or the writer). *)
Record lbuf : Type := mk_lbuf { lb_array : bytes; lb_len : N; lb_on : bool }.
Definition lb_bytes (b : lbuf) : bytes := takeN (lb_len b) (lb_array b).

Inductive lpc : Type :=
| LIdle                          (* between calls *)
| LAt (i : nat)                  (* holds its logger's mutex, in Write of buffer i *)
| LCopy (i : nat) (m : N).       (* in buffer.Write: has read the length m *)
Record lthread : Type := mk_lthread { lt_calls : list lcall; lt_pc : lpc }.
Record lworld : Type := mk_lworld { lw_threads : list lthread; lw_chain : list lbuf; lw_sink : list bytes }.

(* log.Logger.Output holds the logger's mutex from before formatting until Write returns. *)
Definition holds (l : N) (t : lthread) : bool :=
  match lt_pc t, lt_calls t with
  | LIdle, _ => false
  | _, (l', _) :: _ => l' =? l
  | _, [] => false
  end.

Fixpoint chain_set (i : nat) (b : lbuf) (c : list lbuf) : list lbuf :=
  match i, c with
  | _, [] => []
  | O, _ :: r => b :: r
  | S j, x :: r => x :: chain_set j b r
  end.

(* bytes.Buffer.Write after tryGrowByReslice has read the length m: buf = buf[:m+len(p)], and
   p is copied to buf[m:]. *)
Definition lb_copy (m : N) (p : bytes) (b : lbuf) : lbuf :=
  mk_lbuf (takeN m (lb_array b) ++ p ++ dropN (m + len p) (lb_array b)) (m + len p) (lb_on b).

(* One step of the thread after [pre], and the calls that it finishes.  [lev] is the buffer
   that NewLogger gave the logger (util/log.go:72-82). *)
Inductive lstep (lev : N -> nat) : lworld -> list (nat * lcall) -> lworld -> Prop :=
| LLock pre post l p r ch sk :
    existsb (holds l) (pre ++ post) = false ->
    lstep lev (mk_lworld (pre ++ mk_lthread ((l, p) :: r) LIdle :: post) ch sk) []
              (mk_lworld (pre ++ mk_lthread ((l, p) :: r) (LAt (lev l)) :: post) ch sk)
| LNext pre post l p r i b ch sk :         (* util/log.go:38, output is the next buffer *)
    nth_error ch i = Some b -> lb_on b = true ->
    lstep lev (mk_lworld (pre ++ mk_lthread ((l, p) :: r) (LAt i) :: post) ch sk) []
              (mk_lworld (pre ++ mk_lthread ((l, p) :: r) (LAt (S i)) :: post) ch sk)
| LOut pre post l p r i ch sk :            (* the writer, which the last buffer has for output *)
    nth_error ch i = None ->
    lstep lev (mk_lworld (pre ++ mk_lthread ((l, p) :: r) (LAt i) :: post) ch sk) [(length pre, (l, p))]
              (mk_lworld (pre ++ mk_lthread r LIdle :: post) ch (sk ++ [p]))
| LLen pre post l p r i b ch sk :          (* util/log.go:36 *)
    nth_error ch i = Some b -> lb_on b = false ->
    lstep lev (mk_lworld (pre ++ mk_lthread ((l, p) :: r) (LAt i) :: post) ch sk) []
              (mk_lworld (pre ++ mk_lthread ((l, p) :: r) (LCopy i (lb_len b)) :: post) ch sk)
| LDone pre post l p r i m b ch sk :
    nth_error ch i = Some b ->
    lstep lev (mk_lworld (pre ++ mk_lthread ((l, p) :: r) (LCopy i m) :: post) ch sk) [(length pre, (l, p))]
              (mk_lworld (pre ++ mk_lthread r LIdle :: post) (chain_set i (lb_copy m p b) ch) sk).

Inductive lsteps (lev : N -> nat) : lworld -> list (nat * lcall) -> lworld -> Prop :=
| LS_nil w : lsteps lev w [] w
| LS_step w tr w' e w'' : lsteps lev w tr w' -> lstep lev w' e w'' -> lsteps lev w (tr ++ e) w''.

(* Goroutines with these calls to make, and empty buffers of which some have outputs. *)
Definition lstart (on : list bool) (ps : list (list lcall)) : lworld :=
  mk_lworld (map (fun p => mk_lthread p LIdle) ps) (map (mk_lbuf [] 0) on) [].
