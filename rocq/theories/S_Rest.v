(* A device that is left alone. *)
From Verif Require Import Base M_ReqBuf M_Usbip M_Client M_Threads.

(* The steps of the device, its goroutines and its user on what there is: not new connections, calls of the
   program, ticks of the keepalive tickers; a read only as long as there is something to read. *)
Definition works (d : tdev) (l : tlabel) : Prop :=
  match l with
  | TRead => cn_phase (sy_conn (td_sys d)) <> Closed /\ concat (cn_stream (sy_conn (td_sys d))) <> []
  | TWrite | TRun _ | THandle _ | TAnswer _ | TGrab _ | TPut _ => True
  | _ => False
  end.
Definition expires (l : tlabel) : Prop := match l with TTimeout _ => True | _ => False end.

(* Whatever is done next, timers included, and next, ..., it comes to an end. *)
Inductive settles (E : Env) : tdev -> Prop :=
| settle d : (forall l d', works d l \/ expires l -> tdev_step E d l = Some (TRunning d') -> settles E d') -> settles E d.

Definition at_rest (E : Env) (d : tdev) : Prop := forall l, works d l -> tdev_step E d l = None.

(* A run of such steps. *)
Fixpoint working (E : Env) (d : tdev) (ls : list tlabel) : Prop :=
  match ls with
  | [] => True
  | l :: r => works d l /\ match tdev_step E d l with Some (TRunning d') => working E d' r | _ => True end
  end.

(* An IN transfer of the host is not answered yet. *)
Definition host_waits (d : tdev) : Prop := rb_waiting (in_buf (sy_in (td_sys d))) <> [].
