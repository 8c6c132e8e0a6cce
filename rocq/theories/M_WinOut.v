(* The driver of the Windows client when the device is taken out: unplugging
   (cmd/demo/usbip/usbip-win/driver/vhci/vhci_plugin.c:150-180, vhci_vhub.c:142-179; called by
   detach, when the forwarder's handle is closed, vhci.c:92-107, and by Windows,
   vhci_pnp_vpdo.c:32-42, vhci_pnp.c:77-89) and removal (vhci_pnp_remove.c:12-128).

   On top of M_WinDrv, with its simplifications, except that a block (URB) that is submitted
   is in two steps when the schedule says so: the test of plugged, and the rest.  Once
   unplugged, reads and writes of the forwarder fail without touching the requests
   (vhci_read.c:1026-1030, vhci_write.c:475-479); what it does then is left open. *)
From Verif Require Import Base M_Util M_WinFwd M_WinDrv.
Open Scope N_scope.

(* ot_checked: blocks between the test of plugged and submit_urbr.  ot_gone: blocks that were
   completed with STATUS_DEVICE_NOT_CONNECTED.  ot_read: what became of a read that was
   pending at the removal. *)
Inductive read_end := NoRead | ReadEnded | ReadLost.
Record out := mk_out { ot_win : win; ot_plugged : bool; ot_removed : bool;
  ot_checked : list (nat * urb); ot_gone : list nat; ot_read : read_end }.

Definition out0 (devid : N) : out := mk_out (win0 devid) true false [] [] NoRead.

Inductive out_label :=
| OWin (l : win_label)                 (* as in M_WinDrv, while plugged *)
| OAsk (id : nat) (u : urb)            (* a block comes: the test of plugged *)
| OEnter (i : nat)                     (* the rest of its submission *)
| OCancel (id : nat)                   (* a block is cancelled when unplugged *)
| OCancelRead                          (* the pending read is cancelled *)
| OForward (f : fwd) (ready : option bytes) (ended : bool) (steps : list fwd_label)
| OUnplug
| ORemove.

Definition with_win (s : out) (w : win) : out :=
  mk_out w (ot_plugged s) (ot_removed s) (ot_checked s) (ot_gone s) (ot_read s).

Definition with_drv (w : win) (d : drv) (b : option bytes) : win :=
  mk_win d (wi_fwd w) (ready_or b (wi_ready w)) (wi_ended w) (wi_steps w).

(* the blocks that complete_pending_irp finds in head_urbr, vhci_pnp_remove.c:48-75: the IRP of
   an unlink is NULL *)
Definition left_blocks (d : drv) : list nat :=
  flat_map (fun r => match ur_what r with Some _ => [ur_id r] | None => [] end)
    (dr_pending d ++ dr_sent d ++ in_slot (dr_partial d)).

(* vhci_pnp_remove.c:77-80, and 17-20 *)
Definition emptied (d : drv) : drv :=
  mk_drv (dr_devid d) (dr_seq d) [] [] Nobody None (dr_done d) (dr_taken d) (dr_out d).

(* complete_pending_read_irp, vhci_pnp_remove.c:12-37: without its cancel routine the read is
   taken for a cancelled one *)
Definition read_ends (r : option (N * bytes * bool)) : read_end :=
  match r with None => NoRead | Some (_, _, true) => ReadEnded | Some (_, _, false) => ReadLost end.

Definition no_read (d : drv) : drv :=
  mk_drv (dr_devid d) (dr_seq d) (dr_pending d) (dr_sent d) (dr_partial d) None (dr_done d) (dr_taken d) (dr_out d).

Definition remove_nth {A} (i : nat) (l : list A) : list A := firstn i l ++ skipn (S i) l.

Definition out_step (s : out) (l : out_label) : option (res out) :=
  let w := ot_win s in
  match l with
  | OWin l =>
    if ot_plugged s then
      let! r := win_step w l in
      Some (let? w' := r in Ok (with_win s w'))
    else None
  | OAsk id u =>
    (* vhci_internal_ioctl.c:162-167; Windows sends nothing to a device that was removed *)
    if ot_removed s then None
    else if ot_plugged s then
      Some (Ok (mk_out w true false (ot_checked s ++ [(id, u)]) (ot_gone s) (ot_read s)))
    else Some (Ok (mk_out w false false (ot_checked s) (ot_gone s ++ [id]) (ot_read s)))
  | OEnter i =>
    let! (id, u) := nth_error (ot_checked s) i in
    let (d, b) := submit_block (wi_drv w) id u in
    Some (Ok (mk_out (with_drv w d b) (ot_plugged s) (ot_removed s) (remove_nth i (ot_checked s)) (ot_gone s) (ot_read s)))
  | OCancel id =>
    (* cancel routines do not test plugged *)
    if ot_plugged s then None else
    let! (d, b) := cancel_block (wi_drv w) id in
    Some (Ok (with_win s (with_drv w d b)))
  | OCancelRead =>
    (* vhci_read.c:895-919 on_pending_irp_read_cancelled; without a cancel routine nothing happens *)
    match dr_read (wi_drv w) with
    | Some (_, _, true) => Some (Ok (with_win s (with_drv w (no_read (wi_drv w)) None)))
    | _ => None
    end
  | OForward f ready ended steps =>
    if ot_plugged s then None else
    Some (Ok (with_win s (mk_win (wi_drv w) f ready ended steps)))
  | OUnplug => Some (Ok (mk_out w false (ot_removed s) (ot_checked s) (ot_gone s) (ot_read s)))
  | ORemove =>
    (* Windows removes a device that its bus does not report any more *)
    if ot_plugged s || ot_removed s then None else
    Some (Ok (mk_out (mk_win (emptied (wi_drv w)) (wi_fwd w) (wi_ready w) (wi_ended w) (wi_steps w)) false true
                (ot_checked s) (ot_gone s ++ left_blocks (wi_drv w)) (read_ends (dr_read (wi_drv w)))))
  end.

Fixpoint out_run (s : out) (ls : list out_label) : option (res out) :=
  match ls with
  | [] => Some (Ok s)
  | l :: r =>
    match out_step s l with
    | Some (Ok s') => out_run s' r
    | other => other
    end
  end.
