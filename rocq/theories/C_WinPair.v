(* The bundled Windows client and the Go server running together (C151). *)
From Verif Require Import P_WinMem Base M_Util M_ReqBuf M_Usbip S_Usbip S_UsbipSys P_Usbip1 M_WinFwd M_WinDrv S_WinFwd S_WinDrv P_WinDrv P_WinDrv2 P_WinOnce P_WinAns3 S_WinGo P_WinGo2
  M_WinPair S_WinPair P_WinPair P_WinPair2 P_WinPair3 C_WinDrv C_WinAns C_WinGo.
Open Scope N_scope.

(* ------------------------------------------------- C151 *)
(* In every run of the two together, for as long as the forwarder remembers the requests:
   a block that ended was cancelled, or tells what the device gave or took. *)
Theorem C151_outcomes_partial : forall devid mx bl attach start ls p, devid < 4294967296 -> 48 <= mx -> mx + bl < 4294967296 -> mx <= 2147483648 ->
  attaches attach -> concat start = message_bytes attach ->
  pair_run (pair0 devid start) ls = Some (Ok p) ->
  Forall (fun x => known (snd x)) (submitted (wins ls)) -> Forall (fun x => brings_none (snd x)) (submitted (wins ls)) ->
  Forall (fun x => len (buffer (snd x)) + 48 <= mx) (submitted (wins ls)) ->
  NoDup (map fst (submitted (wins ls))) -> orderly devid (wins ls) -> N.of_nat (length (wins ls)) < 4294967296 ->
  (forall side, calm bl side (wi_steps (pr_win p))) ->
  remembered (wi_drv (pr_win p)) (fw_log (wi_fwd (pr_win p))) ->
  exists es ms, subseq (blocks es) (submitted (wins ls)) /\ say_all devid 1 es ms /\
    prefix (concat (pi_out (fw_req (wi_fwd (pr_win p))))) (concat (map message_bytes ms)) /\
    (arrives attach ms (start ++ pr_carried p) ->
      forall id o, In (id, o) (dr_done (wi_drv (pr_win p))) -> exists u, In (id, u) (submitted (wins ls)) /\
        (In id (cancelled (wins ls)) /\ o = mk_outcome Cancelled (len (buffer u)) (buffer u) \/ from_device (pr_sys p) u o)).
Proof.
  intros devid mx bl attach start ls p d32 mx48 room half at1 at2 run kn br sm dis ord sh cm rem.
  pose proof (pair_parts devid start ls p run) as (R & _).
  destruct (session_messages devid mx bl (wins ls) (pr_win p)) as (es & S1 & S2 & S3); auto.
  exists es, (messages (wi_drv (pr_win p))). split; [exact S1|]. split; [exact S2|]. split; [exact S3|]. intros arr.
  apply (whole_outcomes devid mx bl start ls p attach d32 mx48 room half); auto.
  exact (conj kn (conj br (conj sm (conj dis (conj ord (conj sh (conj R cm))))))).
Qed.
Print Assumptions C151_outcomes_partial.

(* When nothing is left to do, every block that was not cancelled and that the device
   answers has ended, and tells what the device gave or took. *)
Theorem C151_ends_partial : forall devid mx bl attach start ls p, devid < 4294967296 -> 48 <= mx -> mx + bl < 4294967296 -> mx <= 2147483648 ->
  attaches attach -> concat start = message_bytes attach ->
  pair_run (pair0 devid start) ls = Some (Ok p) ->
  Forall (fun x => known (snd x)) (submitted (wins ls)) -> Forall (fun x => brings_none (snd x)) (submitted (wins ls)) ->
  Forall (fun x => len (buffer (snd x)) + 48 <= mx) (submitted (wins ls)) ->
  NoDup (map fst (submitted (wins ls))) -> orderly devid (wins ls) -> N.of_nat (length (wins ls)) < 4294967296 ->
  (forall side, calm bl side (wi_steps (pr_win p))) ->
  remembered (wi_drv (pr_win p)) (fw_log (wi_fwd (pr_win p))) ->
  forall ls' junk, wins ls = ls' ++ [WLoop junk] -> at_rest p ->
  exists es ms, subseq (blocks es) (submitted (wins ls)) /\ say_all devid 1 es ms /\
    concat (pi_out (fw_req (wi_fwd (pr_win p)))) = concat (map message_bytes ms) /\
    (arrives attach ms (start ++ pr_carried p) ->
      forall id u, In (id, u) (submitted (wins ls)) -> ~ In id (cancelled (wins ls)) -> device_answers u = true ->
        exists o, In (id, o) (dr_done (wi_drv (pr_win p))) /\ from_device (pr_sys p) u o).
Proof.
  intros devid mx bl attach start ls p d32 mx48 room half at1 at2 run kn br sm dis ord sh cm rem ls' junk last rest.
  pose proof (pair_parts devid start ls p run) as (R & _).
  destruct (session_messages devid mx bl (wins ls) (pr_win p)) as (es & S1 & S2 & S3); auto.
  exists es, (messages (wi_drv (pr_win p))). split; [exact S1|]. split; [exact S2|].
  split.
  { destruct rest as (T1 & T2 & T3 & _). exact (proj2 (all_given devid mx bl _ _ d32 mx48 room kn sm dis ord sh R (cm true) ls' junk last T1 T2 T3)). }
  intros arr. apply (whole_ends devid mx bl start ls p attach d32 mx48 room half) with (ls' := ls') (junk := junk); auto.
  exact (conj kn (conj br (conj sm (conj dis (conj ord (conj sh (conj R cm))))))).
Qed.
Print Assumptions C151_ends_partial.

(* And the next step of neither leaves the memory of the driver, when the forwarder stays
   within its own. *)
Theorem C151_safe_partial : forall devid mx bl attach start ls p, devid < 4294967296 -> 48 <= mx -> mx + bl < 4294967296 -> mx <= 2147483648 ->
  attaches attach -> concat start = message_bytes attach ->
  pair_run (pair0 devid start) ls = Some (Ok p) ->
  Forall (fun x => known (snd x)) (submitted (wins ls)) -> Forall (fun x => brings_none (snd x)) (submitted (wins ls)) ->
  Forall (fun x => len (buffer (snd x)) + 48 <= mx) (submitted (wins ls)) ->
  NoDup (map fst (submitted (wins ls))) -> orderly devid (wins ls) -> N.of_nat (length (wins ls)) + 1 < 4294967296 ->
  (forall side, calm bl side (wi_steps (pr_win p))) ->
  remembered (wi_drv (pr_win p)) (fw_log (wi_fwd (pr_win p))) -> fwd_step (wi_fwd (pr_win p)) Iterate <> Some Panic ->
  (forall g, fwd_step (wi_fwd (pr_win p)) Iterate = Some (Ok g) -> remembered (wi_drv (pr_win p)) (fw_log g)) ->
  exists es ms, subseq (blocks es) (submitted (wins ls)) /\ say_all devid 1 es ms /\
    prefix (concat (pi_out (fw_req (wi_fwd (pr_win p))))) (concat (map message_bytes ms)) /\
    (arrives attach ms (start ++ pr_carried p) -> forall l, pair_step p l <> Some Panic).
Proof.
  intros devid mx bl attach start ls p d32 mx48 room half at1 at2 run kn br sm dis ord sh cm rem np rem'.
  assert (N.of_nat (length (wins ls)) < 4294967296) as sh' by lia.
  pose proof (pair_parts devid start ls p run) as (R & _).
  destruct (session_messages devid mx bl (wins ls) (pr_win p)) as (es & S1 & S2 & S3); auto.
  exists es, (messages (wi_drv (pr_win p))). split; [exact S1|]. split; [exact S2|]. split; [exact S3|]. intros arr.
  apply (whole_safe devid mx bl start ls p attach d32 mx48 room half); auto.
  exact (conj kn (conj br (conj sm (conj dis (conj ord (conj sh' (conj R cm))))))).
Qed.
Print Assumptions C151_safe_partial.

(* The blocks of C146.  The server answers the first while the client still sends. *)
Definition pair_at (start : list bytes) (ls : list pair_label) : pair :=
  match pair_run (pair0 dev start) ls with Some (Ok p) => p | _ => pair0 dev [] end.
Definition pair_start : list bytes := [takeN 5 (message_bytes attach2); dropN 5 (message_bytes attach2)].
Definition both_run : list pair_label :=
  [PWin (WLoop []); PSys SRead; PWin (WSubmit 1 device18); PWin WReadDone; PSys SWrite] ++
  map PWin (skipn 3 half_run) ++ [PCarry 20; PWin (WSent 40); PCarry 28; PSys SRead; PSys SWrite] ++
  [PWin (WGot (takeN 48 (go_frame 0))); PWin (WLoop []); PWin (WSent 135); PCarry 20; PWin (WLoop []);
   PWin (WGot (dropN 48 (go_frame 0))); PCarry 127; PWin (WLoop []); PWin (WLoop []); PSys SRead; PWin WWritten; PSys SWrite;
   PWin (WGot (go_frame 1)); PSys SRead; PWin (WLoop []); PSys SRead; PWin (WLoop []); PWin WWritten; PWin (WLoop []);
   PSys (SRespond 0 [1; 2; 3]); PSys (SRun 0); PSys SWrite; PSys (STimeout 0)] ++
  map PWin (skipn 11 (skipn (length full_run) session_run)).

Example C151_example : exists p, pair_run (pair0 dev pair_start) both_run = Some (Ok p) /\
  attaches attach2 /\ concat pair_start = message_bytes attach2 /\
  Forall (fun x => known (snd x)) (submitted (wins both_run)) /\ Forall (fun x => brings_none (snd x)) (submitted (wins both_run)) /\
  Forall (fun x => len (buffer (snd x)) + 48 <= 112) (submitted (wins both_run)) /\
  NoDup (map fst (submitted (wins both_run))) /\ orderly dev (wins both_run) /\ (forall side, calm 320 side (wi_steps (pr_win p))) /\
  remembered (wi_drv (pr_win p)) (fw_log (wi_fwd (pr_win p))) /\
  (exists ls', wins both_run = ls' ++ [WLoop []]) /\ at_rest p /\
  concat (pi_out (fw_req (wi_fwd (pr_win p)))) = concat (map message_bytes said) /\
  map len (pr_carried p) = [20; 28; 20; 127] /\ arrives attach2 said (pair_start ++ pr_carried p) /\
  fwd_step (wi_fwd (pr_win p)) Iterate <> Some Panic /\
  submitted (wins both_run) = [(1%nat, device18); (2%nat, out3b); (3%nat, in64b); (4%nat, in64b)] /\ cancelled (wins both_run) = [3%nat] /\
  forallb device_answers [device18; out3b; in64b] = true /\
  dr_done (wi_drv (pr_win p)) = [(3%nat, mk_outcome Cancelled 64 (zeros 64));
    (1%nat, mk_outcome Success 18 [18; 1; 16; 1; 0; 0; 0; 64; 0; 0; 0; 0; 1; 0; 1; 2; 3; 1]);
    (2%nat, mk_outcome Success 3 [7; 8; 9]); (4%nat, mk_outcome Success 64 ([1; 2; 3] ++ zeros 61))].
Proof.
  exists (pair_at pair_start both_run). split; [vm_compute; reflexivity|].
  split; [exists 0x0111, 0, ([50; 45; 50] ++ zeros 29); split; [reflexivity|]; split; [vm_compute; auto|]; exists (zeros 28); split; [reflexivity|cbn; intuition discriminate]|].
  split; [vm_compute; reflexivity|].
  assert (submitted (wins both_run) = [(1%nat, device18); (2%nat, out3b); (3%nat, in64b); (4%nat, in64b)]) as S by (vm_compute; reflexivity).
  rewrite S. split; [exact blocks_known|].
  split; [repeat constructor|]. split; [repeat constructor; vm_compute; discriminate|].
  split; [change (NoDup [1%nat; 2%nat; 3%nat; 4%nat]); repeat constructor; cbn; intuition discriminate|].
  split; [apply orderly_b_ok; vm_compute; reflexivity|].
  split; [intro side; apply (calm_short _ (wi_fwd (pr_win (pair_at pair_start both_run))) 320 side); [vm_compute; reflexivity|destruct side; vm_compute; discriminate]|].
  split; [apply remembered_b_ok; vm_compute; reflexivity|].
  split; [exists (removelast (wins both_run)); vm_compute; reflexivity|].
  split.
  { split; [vm_compute; reflexivity|]. split; [vm_compute; reflexivity|]. split; [vm_compute; reflexivity|]. split; [vm_compute; reflexivity|].
    split; [vm_compute; reflexivity|]. split; [vm_compute; reflexivity|].
    split; [split; [vm_compute; reflexivity|]; split; vm_compute; reflexivity|vm_compute; reflexivity]. }
  split; [vm_compute; reflexivity|]. split; [vm_compute; reflexivity|].
  split; [apply arrives_b_ok; vm_compute; reflexivity|].
  split; [vm_compute; discriminate|]. split; [reflexivity|]. split; [vm_compute; reflexivity|]. split; vm_compute; reflexivity.
Qed.

(* A string that the device does not have (Windows asks for number 238, too): the device
   does not answer, not even with a stall; nothing is left to do and the block has not
   ended. *)
Definition os_string : urb := GetDescriptor false 3 238 0 (zeros 18).
Definition os_string_run : list pair_label :=
  [PSys SRead; PSys SWrite; PWin (WLoop []); PWin (WSubmit 1 os_string); PWin WReadDone; PWin (WLoop []); PWin (WLoop []);
   PWin (WSent 48); PWin (WLoop []); PCarry 48; PSys SRead].

Theorem C151_all_refuted : exists ls ls' p, pair_run (pair0 dev pair_start) ls = Some (Ok p) /\
  wins ls = ls' ++ [WLoop []] /\ orderly dev (wins ls) /\ at_rest p /\
  submitted (wins ls) = [(1%nat, os_string)] /\ known os_string /\ cancelled (wins ls) = [] /\
  arrives attach2 [spec_message dev 1 os_string] (pair_start ++ pr_carried p) /\
  concat (pi_out (fw_req (wi_fwd (pr_win p)))) = message_bytes (spec_message dev 1 os_string) /\
  dr_done (wi_drv (pr_win p)) = [].
Proof.
  exists os_string_run, (removelast (wins os_string_run)), (pair_at pair_start os_string_run). split; [vm_compute; reflexivity|].
  split; [vm_compute; reflexivity|]. split; [apply orderly_b_ok; vm_compute; reflexivity|].
  split.
  { split; [vm_compute; reflexivity|]. split; [vm_compute; reflexivity|]. split; [vm_compute; reflexivity|]. split; [vm_compute; reflexivity|].
    split; [vm_compute; reflexivity|]. split; [vm_compute; reflexivity|].
    split; [split; [vm_compute; reflexivity|]; split; vm_compute; reflexivity|vm_compute; reflexivity]. }
  split; [vm_compute; reflexivity|].
  split; [split; [reflexivity|]; split; [reflexivity|]; split; [reflexivity|]; right; right; right; left; reflexivity|].
  split; [vm_compute; reflexivity|].
  split; [apply arrives_b_ok; vm_compute; reflexivity|].
  split; vm_compute; reflexivity.
Qed.
Print Assumptions C151_all_refuted.
