(* The driver of the bundled Windows client (usbip-win's vhci) together with its
   forwarder: how blocks end (C148), and that the driver stays within its memory (C149). *)
From Verif Require Import P_WinMem Base M_Util M_WinFwd M_WinDrv S_Usbip S_WinFwd S_WinDrv P_WinDrv P_WinDrv2 P_WinOnce P_WinAns3 C_WinDrv.
Open Scope N_scope.

(* ------------------------------------------------- C148 *)
(* For every run as in C145 and all honest replies of the server, in every order and
   cut into pieces anyhow, and for as long as the forwarder remembers the requests: a
   block that ended was cancelled and tells so, or tells what a reply to its number
   says. *)
Theorem C148_right_partial : forall devid mx bl ls w rs, devid < 4294967296 -> 48 <= mx -> mx + bl < 4294967296 ->
  Forall (fun x => known (snd x)) (submitted ls) -> Forall (fun x => len (buffer (snd x)) + 48 <= mx) (submitted ls) ->
  NoDup (map fst (submitted ls)) -> orderly devid ls -> N.of_nat (length ls) < 4294967296 ->
  win_run (win0 devid) ls = Some (Ok w) -> (forall side, calm bl side (wi_steps w)) ->
  Forall (fair_one (wi_drv w)) rs -> Forall (fun r => len (reply_wire r) <= mx) rs ->
  remembered (wi_drv w) (fw_log (wi_fwd w)) -> prefix (pi_in (fw_rep (wi_fwd w))) (concat (map reply_wire rs)) ->
  forall id o, In (id, o) (dr_done (wi_drv w)) -> exists u, In (id, u) (submitted ls) /\
    (In id (cancelled ls) /\ o = mk_outcome Cancelled (len (buffer u)) (buffer u) \/
     exists q dir n payload, In (RSubmit q dir n payload) rs /\ numbered_block (wi_drv w) q id u /\ o = spec_outcome u n payload).
Proof. exact outcomes_right. Qed.
Print Assumptions C148_right_partial.

(* When besides no reply comes before its request is out, and everything that the server
   sent was carried: every block that was answered has ended. *)
Theorem C148_all_partial : forall devid mx bl ls w rs, devid < 4294967296 -> 48 <= mx -> mx + bl < 4294967296 ->
  Forall (fun x => known (snd x)) (submitted ls) -> Forall (fun x => len (buffer (snd x)) + 48 <= mx) (submitted ls) ->
  NoDup (map fst (submitted ls)) -> orderly devid ls -> N.of_nat (length ls) < 4294967296 ->
  win_run (win0 devid) ls = Some (Ok w) -> (forall side, calm bl side (wi_steps w)) ->
  Forall (fair_one (wi_drv w)) rs -> Forall (fun r => len (reply_wire r) <= mx) rs ->
  remembered (wi_drv w) (fw_log (wi_fwd w)) ->
  forall ls' junk, ls = ls' ++ [WLoop junk] -> fw_waiting (wi_fwd w) = true ->
  pi_in (fw_rep (wi_fwd w)) = concat (map reply_wire rs) -> pi_writing (fw_rep (wi_fwd w)) = None -> in_time devid ls rs ->
  forall q dir n payload, In (RSubmit q dir n payload) rs ->
    exists id u o, numbered_block (wi_drv w) q id u /\ In (id, o) (dr_done (wi_drv w)).
Proof. exact outcomes_all. Qed.
Print Assumptions C148_all_partial.

(* the blocks of C145: one was cancelled, the others are answered, in pieces *)
Definition answers : list reply :=
  [RSubmit 1 1 18 (repeat 5 18); RUnlink 4 false; RSubmit 2 0 3 []; RSubmit 3 1 10 (repeat 6 10)].
Definition wire (k : nat) : bytes := nth k (map reply_wire answers) [].
Definition answered_run : list win_label :=
  full_run ++ [WGot (takeN 48 (wire 0)); WLoop []; WGot (dropN 48 (wire 0)); WLoop []; WLoop []; WWritten;
    WGot (wire 1); WLoop []; WLoop []; WWritten; WLoop []; WGot (wire 2); WLoop []; WLoop []; WWritten; WLoop [];
    WGot (takeN 48 (wire 3)); WLoop []; WGot (dropN 48 (wire 3)); WLoop []; WLoop []; WWritten; WLoop []].

Lemma given_out (d : drv) (q : N) (k : nat) x : nth_error (dr_taken d) k = Some x ->
  forall u, ur_what (fst x) = Some u -> ur_seq (fst x) = q -> numbered_block d q (ur_id (fst x)) u.
Proof. intros E u U Q. destruct x as [r j]. apply nth_error_In in E. exists r, j. auto. Qed.

Lemma answers_fair : Forall (fair_one (wi_drv (reached answered_run))) answers.
Proof.
  set (d := wi_drv (reached answered_run)).
  assert (exists j, nth_error (dr_taken d) 0 = Some (mk_urbr 1 1 (Some device18) 0, j)) as (j1 & E1) by (vm_compute; eauto).
  assert (exists j, nth_error (dr_taken d) 1 = Some (mk_urbr 2 2 (Some out3b) 0, j)) as (j2 & E2) by (vm_compute; eauto).
  assert (exists j, nth_error (dr_taken d) 2 = Some (mk_urbr 4 3 (Some in64b) 0, j)) as (j3 & E3) by (vm_compute; eauto).
  assert (exists j, nth_error (dr_taken d) 3 = Some (mk_urbr 3 4 None 0, j)) as (j4 & E4) by (vm_compute; eauto).
  constructor; [|constructor; [|constructor; [|constructor; [|constructor]]]].
  - exists 1%nat, device18. split; [exact (given_out d 1 0 _ E1 _ eq_refl eq_refl)|].
    split; [reflexivity|]. split; [|reflexivity]. split; [reflexivity|]. split; [reflexivity|discriminate].
  - apply nth_error_In in E4. exists (mk_urbr 3 4 None 0), j4. split; [exact E4|split; reflexivity].
  - exists 2%nat, out3b. split; [exact (given_out d 2 1 _ E2 _ eq_refl eq_refl)|].
    split; [reflexivity|]. split; [|reflexivity]. split; [reflexivity|]. split; [reflexivity|]. intros _. reflexivity.
  - exists 4%nat, in64b. split; [exact (given_out d 3 2 _ E3 _ eq_refl eq_refl)|].
    split; [reflexivity|]. split; [|reflexivity]. split; [reflexivity|]. split; [reflexivity|discriminate].
Qed.

Example C148_example : exists w, win_run (win0 dev) answered_run = Some (Ok w) /\
  Forall (fun x => known (snd x)) (submitted answered_run) /\
  Forall (fun x => len (buffer (snd x)) + 48 <= 112) (submitted answered_run) /\
  NoDup (map fst (submitted answered_run)) /\ orderly dev answered_run /\
  (forall side, calm 220 side (wi_steps w)) /\ Forall (fair_one (wi_drv w)) answers /\
  Forall (fun r => len (reply_wire r) <= 112) answers /\ remembered (wi_drv w) (fw_log (wi_fwd w)) /\
  fw_waiting (wi_fwd w) = true /\ pi_in (fw_rep (wi_fwd w)) = concat (map reply_wire answers) /\
  pi_writing (fw_rep (wi_fwd w)) = None /\ in_time dev answered_run answers /\
  dr_done (wi_drv w) = [(3%nat, mk_outcome Cancelled 64 (zeros 64)); (1%nat, mk_outcome Success 18 (repeat 5 18));
                        (2%nat, mk_outcome Success 3 [7; 8; 9]); (4%nat, mk_outcome Success 10 (repeat 6 10 ++ zeros 54))].
Proof.
  exists (reached answered_run). split; [vm_compute; reflexivity|]. split; [exact blocks_known|].
  split; [repeat constructor; vm_compute; discriminate|].
  split; [change (NoDup [1%nat; 2%nat; 3%nat; 4%nat]); repeat constructor; cbn; intuition discriminate|].
  split; [apply orderly_b_ok; vm_compute; reflexivity|].
  split; [intro side; apply (calm_short _ (wi_fwd (reached answered_run)) 220 side); [vm_compute; reflexivity|destruct side; vm_compute; discriminate]|].
  split; [exact answers_fair|]. split; [repeat constructor; vm_compute; discriminate|].
  split; [apply remembered_b_ok; vm_compute; reflexivity|].
  split; [vm_compute; reflexivity|]. split; [vm_compute; reflexivity|]. split; [vm_compute; reflexivity|].
  split; [apply in_time_b_ok; vm_compute; reflexivity|]. vm_compute. reflexivity.
Qed.

(* A device that took only one of three bytes says so; the client is told that it took
   all. *)
Definition less_run : list win_label :=
  [WLoop []; WSubmit 1 out3b; WReadDone; WLoop []; WReadDone; WLoop []; WLoop []; WSent 51; WLoop [];
   WGot (reply_wire (RSubmit 1 0 1 [])); WLoop []; WLoop []].

Theorem C148_less_refuted : exists ls w, win_run (win0 dev) ls = Some (Ok w) /\ orderly dev ls /\
  submitted ls = [(1%nat, out3b)] /\ known out3b /\ pi_in (fw_rep (wi_fwd w)) = reply_wire (RSubmit 1 0 1 []) /\
  numbered_block (wi_drv w) 1 1 out3b /\ dr_done (wi_drv w) = [(1%nat, mk_outcome Success 3 [7; 8; 9])] /\
  spec_outcome out3b 1 [] = mk_outcome Success 1 [7; 8; 9].
Proof.
  exists less_run, (reached less_run). split; [vm_compute; reflexivity|].
  split; [apply orderly_b_ok; vm_compute; reflexivity|]. split; [reflexivity|].
  split; [split; [reflexivity|right; reflexivity]|]. split; [vm_compute; reflexivity|].
  split; [|split; vm_compute; reflexivity].
  assert (exists j, nth_error (dr_taken (wi_drv (reached less_run))) 0 = Some (mk_urbr 1 1 (Some out3b) 0, j)) as (j1 & E1) by (vm_compute; eauto).
  exact (given_out _ 1 0 _ E1 _ eq_refl eq_refl).
Qed.
Print Assumptions C148_less_refuted.

(* ------------------------------------------------- C149 *)
(* For runs and replies as in C148, when the forwarder itself stays within its memory
   (C144): no step reads or writes outside the driver's buffers or uses a request that
   was freed. *)
Theorem C149_safe_partial : forall devid mx bl ls w rs, devid < 4294967296 -> 48 <= mx -> mx + bl < 4294967296 ->
  Forall (fun x => known (snd x)) (submitted ls) -> Forall (fun x => len (buffer (snd x)) + 48 <= mx) (submitted ls) ->
  NoDup (map fst (submitted ls)) -> orderly devid ls -> N.of_nat (length ls) < 4294967296 ->
  win_run (win0 devid) ls = Some (Ok w) -> (forall side, calm bl side (wi_steps w)) ->
  Forall (fair_one (wi_drv w)) rs -> Forall (fun r => len (reply_wire r) <= mx) rs ->
  remembered (wi_drv w) (fw_log (wi_fwd w)) ->
  forall l, prefix (pi_in (fw_rep (wi_fwd w))) (concat (map reply_wire rs)) -> N.of_nat (length ls) + 1 < 4294967296 ->
  fwd_step (wi_fwd w) Iterate <> Some Panic ->
  (forall g, fwd_step (wi_fwd w) Iterate = Some (Ok g) -> remembered (wi_drv w) (fw_log g)) ->
  win_step w l <> Some Panic.
Proof. exact driver_fine. Qed.
Print Assumptions C149_safe_partial.

(* the run of C148 before the step of the loop in which the driver gets the first reply *)
Definition before_answer : list win_label :=
  full_run ++ [WGot (takeN 48 (wire 0)); WLoop []; WGot (dropN 48 (wire 0))].

Example C149_example : exists w g, win_run (win0 dev) before_answer = Some (Ok w) /\
  orderly dev before_answer /\ (forall side, calm 220 side (wi_steps w)) /\
  Forall (fair_one (wi_drv w)) answers /\ remembered (wi_drv w) (fw_log (wi_fwd w)) /\
  prefix (pi_in (fw_rep (wi_fwd w))) (concat (map reply_wire answers)) /\
  fwd_step (wi_fwd w) Iterate = Some (Ok g) /\ remembered (wi_drv w) (fw_log g) /\
  exists v, win_step w (WLoop []) = Some (Ok v) /\ length (dr_done (wi_drv w)) = 1%nat /\ length (dr_done (wi_drv v)) = 2%nat.
Proof.
  set (v := reached (before_answer ++ [WLoop []])).
  exists (reached before_answer), (wi_fwd v). split; [vm_compute; reflexivity|].
  split; [apply orderly_b_ok; vm_compute; reflexivity|].
  split; [intro side; apply (calm_short _ (wi_fwd (reached before_answer)) 220 side); [vm_compute; reflexivity|destruct side; vm_compute; discriminate]|].
  split.
  { pose proof answers_fair as F.
    assert (dr_taken (wi_drv (reached before_answer)) = dr_taken (wi_drv (reached answered_run))) as E by (vm_compute; reflexivity).
    eapply Forall_impl; [|exact F]. intros [q dir n p|q x]; cbn [fair_one]; unfold numbered_block, numbered_unlink; now rewrite E. }
  split; [apply remembered_b_ok; vm_compute; reflexivity|].
  split; [exists (concat (skipn 1 (map reply_wire answers))); vm_compute; reflexivity|].
  split; [vm_compute; reflexivity|]. split; [apply remembered_b_ok; vm_compute; reflexivity|].
  exists v. split; [vm_compute; reflexivity|]. split; vm_compute; reflexivity.
Qed.

(* But three bytes sent with a control transfer, and an honest reply that says so (the
   server of this project makes it, usbip/usbip_server.go:136): the driver copies three
   bytes that follow the reply in memory into the client's buffer. *)
Definition out_control : urb := ControlEx 0 2 [33; 9; 0; 2; 0; 0; 3; 0] [7; 8; 9].
Definition control_run : list win_label :=
  [WLoop []; WSubmit 1 out_control; WReadDone; WLoop []; WReadDone; WLoop []; WLoop []; WSent 51; WLoop [];
   WGot (reply_wire (RSubmit 1 0 3 []))].

Theorem C149_control_refuted : exists ls w, win_run (win0 dev) ls = Some (Ok w) /\ orderly dev ls /\
  submitted ls = [(1%nat, out_control)] /\ known out_control /\
  pi_in (fw_rep (wi_fwd w)) = reply_wire (RSubmit 1 0 3 []) /\
  numbered_block (wi_drv w) 1 1 out_control /\ win_step w (WLoop []) = Some Panic /\
  exists g, fwd_step (wi_fwd w) Iterate = Some (Ok g).
Proof.
  exists control_run, (reached control_run). split; [vm_compute; reflexivity|].
  split; [apply orderly_b_ok; vm_compute; reflexivity|]. split; [reflexivity|].
  split; [split; [reflexivity|split; reflexivity]|]. split; [vm_compute; reflexivity|].
  split.
  { assert (exists j, nth_error (dr_taken (wi_drv (reached control_run))) 0 = Some (mk_urbr 1 1 (Some out_control) 0, j)) as (j1 & E1) by (vm_compute; eauto).
    exact (given_out _ 1 0 _ E1 _ eq_refl eq_refl). }
  split; [vm_compute; reflexivity|]. vm_compute. eauto.
Qed.
Print Assumptions C149_control_refuted.

(* A server that says that 4 GiB less one were moved passes the check of the length,
   which is one of signed numbers. *)
Definition minus_run : list win_label :=
  firstn 9 control_run ++ [WGot (reply_wire (RSubmit 1 0 4294967295 []))].

Theorem C149_minus_refuted : exists ls w, win_run (win0 dev) ls = Some (Ok w) /\ orderly dev ls /\
  submitted ls = [(1%nat, out_control)] /\ len (buffer out_control) < 4294967295 /\
  pi_in (fw_rep (wi_fwd w)) = reply_wire (RSubmit 1 0 4294967295 []) /\ win_step w (WLoop []) = Some Panic.
Proof.
  exists minus_run, (reached minus_run). split; [vm_compute; reflexivity|].
  split; [apply orderly_b_ok; vm_compute; reflexivity|]. split; [reflexivity|]. split; [reflexivity|].
  split; vm_compute; reflexivity.
Qed.
Print Assumptions C149_minus_refuted.

(* Aborting a pipe frees a request whose data are still to be read; the next read uses
   it.  No server is needed. *)
Definition abort_run : list win_label := [WLoop []; WSubmit 1 (Bulk ep_out 0 [7; 8; 9]); WAbort 2; WReadDone].

Theorem C149_abort_refuted : exists ls w, win_run (win0 dev) ls = Some (Ok w) /\
  Forall (fun x => known (snd x)) (submitted ls) /\ pi_in (fw_rep (wi_fwd w)) = [] /\ win_step w (WLoop []) = Some Panic.
Proof.
  exists abort_run, (reached abort_run). split; [vm_compute; reflexivity|].
  split; [repeat constructor; right; reflexivity|]. split; vm_compute; reflexivity.
Qed.
Print Assumptions C149_abort_refuted.
