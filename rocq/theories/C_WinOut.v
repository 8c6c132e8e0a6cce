(* C154: the device is taken out of the bundled Windows client (usbip-win's vhci). *)
From Coq Require Import Permutation.
From Verif Require Import P_WinMem Base M_Util M_WinFwd M_WinDrv M_WinOut S_WinFwd S_WinDrv S_WinOut P_WinDrv P_WinDrv2 P_WinOnce P_WinOut.
From Verif Require Import C_WinDrv.
Open Scope N_scope.

(* The claim; false, see C154_late_refuted and C154_read_refuted. *)
Definition C154_claim : Prop := forall devid ls s, NoDup (asked ls) -> out_run (out0 devid) ls = Some (Ok s) ->
  ot_removed s = true -> ot_checked s = [] -> Permutation (ended_blocks s) (asked ls) /\ ot_read s <> ReadLost.

(* Whatever happens, in whatever order: a block has ended, is held by the driver, or is
   between the test of plugged and the driver's lists, and once. *)
Theorem C154_once : forall devid ls s, NoDup (asked ls) -> out_run (out0 devid) ls = Some (Ok s) ->
  Permutation (ended_blocks s ++ held (wi_drv (ot_win s)) ++ map fst (ot_checked s)) (asked ls).
Proof.
  intros devid ls s N R. rewrite <- (account devid ls s N R). unfold accounted, all_blocks, ended_blocks.
  rewrite <- !app_assoc. apply Permutation_app_head. rewrite !app_assoc. apply Permutation_app_tail, Permutation_app_comm.
Qed.
Print Assumptions C154_once.

(* Removal: when no block is on its way into the lists at that moment, every block that
   ever came has ended once, those that come later too, and none is held ever after. *)
Theorem C154_all_end_partial : forall devid a b t s, NoDup (asked (a ++ ORemove :: b)) ->
  out_run (out0 devid) a = Some (Ok t) -> ot_checked t = [] -> out_run t (ORemove :: b) = Some (Ok s) ->
  Permutation (ended_blocks s) (asked (a ++ ORemove :: b)) /\ held (wi_drv (ot_win s)) = [].
Proof. exact all_end. Qed.
Print Assumptions C154_all_end_partial.

(* It can be done at any time. *)
Theorem C154_can_end : forall devid a t, NoDup (asked a) -> out_run (out0 devid) a = Some (Ok t) ->
  ot_removed t = false -> ot_checked t = [] ->
  exists s, out_run t [OUnplug; ORemove] = Some (Ok s) /\ Permutation (ended_blocks s) (asked a) /\
    held (wi_drv (ot_win s)) = [].
Proof. exact can_end. Qed.
Print Assumptions C154_can_end.

(* Once unplugged every block that comes ends at once with STATUS_DEVICE_NOT_CONNECTED, and
   no block ends with success any more. *)
Theorem C154_unplugged : forall ls s s', ot_plugged s = false -> out_run s ls = Some (Ok s') ->
  incl (ot_gone s ++ asked ls) (ot_gone s') /\
  exists more, dr_done (wi_drv (ot_win s')) = dr_done (wi_drv (ot_win s)) ++ more /\
    Forall (fun x => oc_status (snd x) = Cancelled \/ oc_status (snd x) = InvalidParameter) more.
Proof. exact down. Qed.
Print Assumptions C154_unplugged.

Definition end_of (ls : list out_label) : out :=
  match out_run (out0 dev) ls with Some (Ok s) => s | _ => out0 0 end.

(* Block 1 is sent, of 2 only the header; 3 and 4 wait; 3 is cancelled once unplugged, and 5
   comes then. *)
Definition before : list out_label :=
  [OWin (WLoop []); OWin (WSubmit 1 device18); OWin WReadDone; OWin (WLoop []); OWin (WLoop []);
   OWin (WSubmit 2 out3b); OAsk 3 in64b; OEnter 0; OWin (WSubmit 4 in64b); OUnplug; OCancel 3; OAsk 5 device18].

Example C154_example : exists t s, out_run (out0 dev) before = Some (Ok t) /\ ot_checked t = [] /\
  NoDup (asked (before ++ [ORemove])) /\ asked before = [1; 2; 3; 4; 5]%nat /\ held (wi_drv (ot_win t)) = [4; 1; 2]%nat /\
  out_run t [ORemove; OUnplug] = Some (Ok s) /\ ended_blocks s = [3; 5; 4; 1; 2]%nat /\
  ot_plugged t = false.
Proof.
  exists (end_of before), (end_of (before ++ [ORemove])).
  split; [vm_compute; reflexivity|]. split; [vm_compute; reflexivity|].
  split; [vm_compute; repeat constructor; cbn; intuition discriminate|].
  split; [reflexivity|]. split; [vm_compute; reflexivity|]. split; [vm_compute; reflexivity|]. split; vm_compute; reflexivity.
Qed.

(* Without that condition it is false: a block that was tested before the device was unplugged
   and enters the list after the removal is held for ever, unless it is cancelled.  Nothing
   in the driver prevents it; the drivers above it must not be in a call then. *)
Definition late : list out_label := [OAsk 1 device18; OUnplug; ORemove; OEnter 0].

Theorem C154_late_refuted : exists ls s, NoDup (asked ls) /\ out_run (out0 dev) ls = Some (Ok s) /\ ot_removed s = true /\
  asked ls = [1%nat] /\
  forall ls' v, ~ In (OCancel 1) ls' -> out_run s ls' = Some (Ok v) ->
    held (wi_drv (ot_win v)) = [1%nat] /\ ended_blocks v = [].
Proof.
  exists late, (end_of late). split; [vm_compute; repeat constructor; intros []|]. split; [vm_compute; reflexivity|].
  split; [vm_compute; reflexivity|]. split; [reflexivity|]. intros ls' v N R.
  destruct (late_stays (wi_drv (ot_win (end_of late))) eq_refl eq_refl eq_refl (mk_urbr 1 0 (Some device18) 0) eq_refl ls' (end_of late) v)
    as (W & G); [vm_compute; reflexivity|vm_compute; reflexivity|vm_compute; reflexivity|reflexivity|exact N|exact R|].
  unfold ended_blocks. rewrite W, G. split; vm_compute; reflexivity.
Qed.
Print Assumptions C154_late_refuted.

Example C154_late_example : exists v,
  out_run (end_of late) [OForward fwd0 None true []; OUnplug] = Some (Ok v) /\ wi_ended (ot_win v) = true.
Proof.
  exists (match out_run (end_of late) [OForward fwd0 None true []; OUnplug] with Some (Ok v) => v | _ => out0 0 end).
  split; vm_compute; reflexivity.
Qed.

(* The forwarder's read: with blocks of the kinds that the driver knows (C145's conditions)
   a read that is pending when the device is taken out ends then. *)
Theorem C154_read_partial : forall devid mx bl ls w, devid < 4294967296 -> 48 <= mx -> mx + bl < 4294967296 ->
  Forall (fun x => known (snd x)) (submitted ls) -> Forall (fun x => len (buffer (snd x)) + 48 <= mx) (submitted ls) ->
  NoDup (map fst (submitted ls)) -> orderly devid ls -> N.of_nat (length ls) < 4294967296 ->
  win_run (win0 devid) ls = Some (Ok w) -> calm bl true (wi_steps w) ->
  exists s, out_run (out0 devid) (map OWin ls ++ [OUnplug; ORemove]) = Some (Ok s) /\ dr_read (wi_drv (ot_win s)) = None /\
    ot_read s = (match pi_reading (fw_req (wi_fwd w)), wi_ready w with Some _, None => ReadEnded | _, _ => NoRead end).
Proof. exact read_at_removal. Qed.
Print Assumptions C154_read_partial.

Definition waiting_run : list win_label := [WLoop []; WSubmit 1 device18; WReadDone; WLoop []; WLoop []].

Example C154_read_example : exists w, win_run (win0 dev) waiting_run = Some (Ok w) /\
  Forall (fun x => known (snd x)) (submitted waiting_run) /\ orderly dev waiting_run /\ calm 96 true (wi_steps w) /\
  NoDup (map fst (submitted waiting_run)) /\ Forall (fun x => len (buffer (snd x)) + 48 <= 66) (submitted waiting_run) /\
  pi_reading (fw_req (wi_fwd w)) <> None /\ wi_ready w = None /\
  ot_read (end_of (map OWin waiting_run ++ [OUnplug; ORemove])) = ReadEnded.
Proof.
  exists (reached waiting_run). split; [vm_compute; reflexivity|].
  split; [constructor; [exact (Forall_inv blocks_known)|constructor]|].
  split; [apply orderly_b_ok; vm_compute; reflexivity|].
  split; [apply (calm_short _ (wi_fwd (reached waiting_run)) 96 true); vm_compute; [reflexivity|discriminate]|].
  split; [repeat constructor; intros []|]. split; [repeat constructor; vm_compute; discriminate|].
  split; [vm_compute; discriminate|]. split; vm_compute; reflexivity.
Qed.

(* A block that the driver does not know, here a descriptor of type 15, takes the cancel
   routine from the read that waits.  Removal takes the read for a cancelled one: it never
   ends, nor can it be cancelled, and the forwarder waits in it for ever. *)
Definition lost : list out_label := map OWin [WLoop []; WSubmit 1 bos] ++ [OUnplug; ORemove].

Theorem C154_read_refuted : exists ls s, NoDup (asked ls) /\ out_run (out0 dev) ls = Some (Ok s) /\
  ot_read s = ReadLost /\ ot_removed s = true /\ wi_ready (ot_win s) = None /\
  pi_reading (fw_req (wi_fwd (ot_win s))) <> None /\ out_step s OCancelRead = None.
Proof.
  exists lost, (end_of lost). split; [vm_compute; repeat constructor; intros []|].
  split; [vm_compute; reflexivity|]. split; [vm_compute; reflexivity|]. split; [vm_compute; reflexivity|].
  split; [vm_compute; reflexivity|]. split; [vm_compute; discriminate|]. vm_compute. reflexivity.
Qed.
Print Assumptions C154_read_refuted.

Corollary claim_false : ~ C154_claim.
Proof.
  intro C. assert (out_run (out0 dev) lost = Some (Ok (end_of lost))) as R by (vm_compute; reflexivity).
  destruct (C dev lost (end_of lost)) as (_ & X); [vm_compute; repeat constructor; intros []|exact R|vm_compute; reflexivity|vm_compute; reflexivity|].
  apply X. vm_compute. reflexivity.
Qed.
