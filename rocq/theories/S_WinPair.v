(* The bundled Windows client and the Go server together: runs, and when they rest. *)
From Verif Require Import Base M_ReqBuf M_Usbip S_Usb S_Usbip S_UsbipSys M_WinFwd M_WinDrv S_WinFwd S_WinDrv S_WinGo M_WinPair.
Open Scope N_scope.

(* the client's part of a run *)
Definition wins (ls : list pair_label) : list win_label :=
  flat_map (fun l => match l with PWin l => [l] | _ => [] end) ls.

(* the pieces in which the request to attach and the messages came to the server: no data
   part is cut (C22) *)
Definition arrives (attach : message) (ms : list message) (pieces : list bytes) : Prop :=
  Forall wfb pieces /\ Forall (fun sp => uncut pieces (fst sp) (snd sp)) (data_spans 0 (attach :: ms)).

(* Nothing is left to do: the forwarder waits for more; what it sent has come to the
   server and was read; the server has answered; and its answers have come to the driver. *)
Definition at_rest (p : pair) : Prop :=
  fw_waiting (wi_fwd (pr_win p)) = true /\ wi_ready (pr_win p) = None /\
  pi_writing (fw_req (wi_fwd (pr_win p))) = None /\ pi_writing (fw_rep (wi_fwd (pr_win p))) = None /\
  concat (pr_carried p) = concat (pi_out (fw_req (wi_fwd (pr_win p)))) /\
  concat (cn_stream (sy_conn (pr_sys p))) = [] /\ session_quiet (pr_sys p) /\
  concat (sy_out (pr_sys p)) = op_rep_import usb_device ++ pi_in (fw_rep (wi_fwd (pr_win p))).

(* the blocks that the device answers: reads and writes of its two endpoints, and the
   control requests that it supports *)
Definition device_answers (u : urb) : bool :=
  match spec_message 0 1 u with
  | MSubmit _ _ _ ep _ _ _ _ _ setup _ => (ep =? 1) || (ep =? 2) || (ep =? 0) && supported_control setup
  | _ => false
  end.
