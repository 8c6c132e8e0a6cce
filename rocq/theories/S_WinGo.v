(* The bundled Windows client attached to the Go server: what the one gets of the other. *)
From Verif Require Import Base M_ReqBuf M_Usbip S_Usb S_Usbip M_WinFwd M_WinDrv S_WinFwd S_WinDrv.
Open Scope N_scope.

(* the request with which usbip.exe attaches the device: its bus id is 2-2 *)
Definition attaches (m : message) : Prop :=
  exists version status field, m = MImport version status field /\ well_formed m /\ named field [50; 45; 50].

(* What the server has read so far of what the client sent, in pieces: the request to
   attach, then the bytes [sent] or less.  No data part is cut (C22); ms: the messages of
   which [sent] is made. *)
Definition reaches (attach : message) (sent : bytes) (ms : list message) (stream : list bytes) : Prop :=
  Forall wfb stream /\ prefix (concat stream) (message_bytes attach ++ sent) /\
  Forall (fun sp => uncut stream (fst sp) (snd sp)) (data_spans 0 (attach :: ms)).

(* what the server has written, and the client has read of it after the reply to the
   request to attach *)
Definition comes_back (out : list bytes) (got : bytes) : Prop :=
  prefix (op_rep_import usb_device ++ got) (concat out).

(* control transfers that bring no data to the device *)
Definition brings_none (u : urb) : Prop :=
  match u with
  | Control _ _ _ _ | ControlEx _ _ _ _ => moves_in u = false -> buffer u = []
  | _ => True
  end.

(* What the client of a block is told when the device answered: all was moved.  On the
   pipe to endpoint 1 something that the device produced was read, or zeros; what was
   written to endpoint 2 the device has got; a descriptor is one of the type asked for. *)
Definition from_device (s : sys) (u : urb) (o : outcome) : Prop :=
  oc_status o = Success /\ oc_length o = len (buffer u) /\ len (oc_buffer o) = len (buffer u) /\
  (moves_in u = false -> oc_buffer o = buffer u) /\
  match u with
  | Bulk h _ buf =>
    (handle_in h = true -> handle_ep h = 1 -> exists d, oc_buffer o = spec_transfer (len buf) d /\
       (d = [] \/ In (EvProduced d) (in_trace (sy_in s)))) /\
    (handle_in h = false -> handle_ep h = 2 -> In buf (sy_delegate s))
  | GetDescriptor false typ _ _ buf => exists d, described typ d /\ oc_buffer o = spec_transfer (len buf) d
  | _ => True
  end.
