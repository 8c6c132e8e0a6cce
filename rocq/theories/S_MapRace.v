(* What is asked of the goroutines that share the map of channels. *)
From Verif Require Import Base M_Util M_Hid M_Threads M_MapRace.

(* Messages handled one after another. *)
Fixpoint one_by_one (s : server) (ms : list bytes) : list front * server :=
  match ms with
  | [] => ([], s)
  | m :: r =>
    let f := hid_front s m in
    let s' := match f with FKeep s' | FSend _ s' _ | FCall _ s' _ _ _ => s' | FPanic => s end in
    let (fs, s'') := one_by_one s' r in (f :: fs, s'')
  end.

Definition pc_of (s : mstate) (k : nat) : option mpc := option_map g_pc (nth_error (ms_gs s) k).
Definition reading (s : mstate) (k : nat) : Prop := pc_of s k = Some PReading.
Definition writing (s : mstate) (k : nat) : Prop := exists ch, pc_of s k = Some (PWriting ch).

(* Nobody reads or writes the map during a write, and the runtime does not end the process. *)
Definition undisturbed (r : mmoved) : Prop :=
  match r with
  | MRun s => forall i j, writing s i -> (reading s j \/ writing s j) -> i = j
  | MFatal => False
  | MDead => True
  end.

(* A packet for the broadcast channel. *)
Definition broadcast (m : bytes) : Prop := exists r, read_le 4 m = Ok (hid_broadcast, r).

(* A host that starts nothing while a broadcast message is handled, and starts a broadcast
   message when all lookups of earlier packets are over. *)
Definition over (s : mstate) (k : nat) : Prop := pc_of s k = Some PDone.
Definition looked_up (s : mstate) (k : nat) : Prop := pc_of s k <> Some PStart /\ pc_of s k <> Some PReading.
Definition patient_in (s : mstate) (l : mlabel) : Prop :=
  match l with
  | MNew m =>
    (forall k g, nth_error (ms_gs s) k = Some g -> broadcast (g_msg g) -> over s k) /\
    (broadcast m -> forall k, (k < length (ms_gs s))%nat -> looked_up s k)
  | _ => True
  end.
Fixpoint patient (s : mstate) (ls : list mlabel) : Prop :=
  match ls with
  | [] => True
  | l :: r => patient_in s l /\ match ms_step s l with Some (MRun s') => patient s' r | _ => True end
  end.

(* An INIT packet as a host sends it, without the padding. *)
Definition an_init (nonce : bytes) : bytes := [255; 255; 255; 255; 0x86; 0; 8] ++ nonce.

(* Nothing is going on: all goroutines have ended and no broadcast message is half received. *)
Definition quiet (s : mstate) : Prop :=
  (forall k, (k < length (ms_gs s))%nat -> over s k) /\ chan_lookup hid_broadcast (srv_channels (ms_srv s)) = Some None.
