(* The bundled Windows client attached to the Go server, running together: the driver and
   the forwarder of the client (M_WinDrv), the server (M_Usbip), and the connection between
   them.  Only what was written can be read.

   cmd/demo/usbip/usbip-win: userspace/lib/usbip_forward.c and
   driver/vhci as cited in M_WinFwd and M_WinDrv; usbip/usbip_server.go:74-118.

   Simplified: the server's Read blocks until what is read has come; the steps of
   conn_step that read a message are taken only when the message (for the data part: its
   first bytes) has come, and not in pieces.  The connection does not break. *)
From Verif Require Import Base M_Usbip M_Win M_WinFwd M_WinDrv.
Open Scope N_scope.

(* pr_carried: the pieces in which the bytes that the forwarder sent came to the server *)
Record pair := mk_pair { pr_win : win; pr_sys : sys; pr_carried : list bytes }.

(* The client begins when usbip.exe has sent the request to attach the device, which the
   server gets in these pieces. *)
Definition pair0 (devid : N) (attach : list bytes) : pair := mk_pair (win0 devid) (sys_init attach) [].

Inductive pair_label :=
| PWin (l : win_label)
| PSys (l : sys_label)
| PCarry (n : N).              (* the server's machine gets n bytes more *)

Fixpoint begins (p s : bytes) : bool :=
  match p, s with
  | [], _ => true
  | x :: p', y :: s' => (x =? y) && begins p' s'
  | _ :: _, [] => false
  end.

(* the bytes b come to the forwarder next: after the reply to the request to attach, which
   usbip.exe has read, and what came before *)
Definition may_get (p : pair) (b : bytes) : bool :=
  begins (op_rep_import usb_device ++ pi_in (fw_rep (wi_fwd (pr_win p))) ++ b) (concat (sy_out (pr_sys p))).

Definition can_read (s : sys) : bool :=
  match snd (conn_step [usb_device] (sy_conn s)) with ANone => false | _ => true end.

Definition pair_step (p : pair) (l : pair_label) : option (res pair) :=
  match l with
  | PWin l =>
    if match l with WGot b => may_get p b | _ => true end then
      let! r := win_step (pr_win p) l in
      Some (let? w := r in Ok (mk_pair w (pr_sys p) (pr_carried p)))
    else None
  | PSys l =>
    if match l with SRead => can_read (pr_sys p) | _ => true end then
      let! s := sys_step (pr_sys p) l in Some (Ok (mk_pair (pr_win p) s (pr_carried p)))
    else None
  | PCarry n =>
    let sent := concat (pi_out (fw_req (wi_fwd (pr_win p)))) in
    let at_ := len (concat (pr_carried p)) in
    if (0 <? n) && (at_ + n <=? len sent) then
      let piece := takeN n (dropN at_ sent) in
      Some (Ok (mk_pair (pr_win p) (feed (pr_sys p) [piece]) (pr_carried p ++ [piece])))
    else None
  end.

Fixpoint pair_run (p : pair) (ls : list pair_label) : option (res pair) :=
  match ls with
  | [] => Some (Ok p)
  | l :: r =>
    match pair_step p l with
    | Some (Ok p') => pair_run p' r
    | other => other
    end
  end.
