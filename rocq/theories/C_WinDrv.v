(* The driver of the bundled Windows client (usbip-win's vhci) together with its
   forwarder: requests (C145), that they are carried on (C146), that every block ends once
   (C147). *)
From Coq Require Import Permutation FinFun.
From Verif Require Import P_WinMem Base M_Util M_WinFwd M_WinDrv S_Usbip S_WinFwd S_WinDrv P_WinDrv P_WinDrv2 P_WinOnce.
Open Scope N_scope.

(* ------------------------------------------------- C145 *)
(* For every sequence of blocks of the kinds that the driver knows, of every size, every
   schedule, every split of the writes to the socket and whatever the server sends: what
   was written to the socket is a prefix of the messages for the blocks, in the order in
   which they were submitted and numbered 1, 2, 3, ...; a block is left out only when it
   was cancelled, and the messages in between are unlinks of cancelled blocks, with their
   numbers.  mx bounds the size of a request, bl what waits to be written. *)
Theorem C145_requests_partial : forall devid mx bl ls w, devid < 4294967296 -> 48 <= mx -> mx + bl < 4294967296 ->
  Forall (fun x => known (snd x)) (submitted ls) -> Forall (fun x => len (buffer (snd x)) + 48 <= mx) (submitted ls) ->
  NoDup (map fst (submitted ls)) -> orderly devid ls -> N.of_nat (length ls) < 4294967296 ->
  win_run (win0 devid) ls = Some (Ok w) -> calm bl true (wi_steps w) ->
  exists es ms, subseq (blocks es) (submitted ls) /\
    (forall x, In x (submitted ls) -> In x (blocks es) \/ In (fst x) (cancelled ls)) /\
    unlinks_ok (cancelled ls) es /\ say_all devid 1 es ms /\
    prefix (concat (pi_out (fw_req (wi_fwd w)))) (concat (map message_bytes ms)) /\ wi_ended w = false.
Proof. exact requests_said. Qed.
Print Assumptions C145_requests_partial.

(* A descriptor is read; three bytes go out; of two IN transfers the first is cancelled. *)
Definition dev : N := 65538.
Definition reached (ls : list win_label) : win :=
  match win_run (win0 dev) ls with Some (Ok w) => w | _ => win0 0 end.
Definition ep_out : N := 2 + 256 * 255 + 65536 * 3.
Definition ep_in : N := 129 + 256 * 255 + 65536 * 3.
Definition device18 : urb := GetDescriptor false 1 0 0 (zeros 18).
Definition out3b : urb := Bulk ep_out 0 [7; 8; 9].
Definition in64b : urb := Bulk ep_in 3 (zeros 64).

Definition half_run : list win_label :=
  [WLoop []; WSubmit 1 device18; WReadDone; WLoop []; WLoop []; WSubmit 2 out3b; WSubmit 3 in64b; WSubmit 4 in64b;
   WReadDone; WLoop []; WCancel 3; WReadDone; WLoop []; WLoop []; WReadDone; WLoop []; WLoop [1; 2; 3]; WReadDone;
   WLoop []; WLoop [];
   WSent 20; WLoop []].

Lemma blocks_known : Forall (fun x => known (snd x)) [(1%nat, device18); (2%nat, out3b); (3%nat, in64b); (4%nat, in64b)].
Proof.
  constructor; [split; [reflexivity|]; split; [reflexivity|]; split; [reflexivity|]; right; left; reflexivity|].
  repeat constructor; right; reflexivity.
Qed.

Example C145_example : exists w, win_run (win0 dev) half_run = Some (Ok w) /\
  Forall (fun x => known (snd x)) (submitted half_run) /\
  Forall (fun x => len (buffer (snd x)) + 48 <= 112) (submitted half_run) /\
  NoDup (map fst (submitted half_run)) /\ orderly dev half_run /\ calm 195 true (wi_steps w) /\
  concat (pi_out (fw_req (wi_fwd w))) = takeN 20 (message_bytes (spec_message dev 1 device18)) /\
  pi_writing (fw_req (wi_fwd w)) = Some (dropN 20 (concat (map message_bytes
    [spec_message dev 1 device18; spec_message dev 2 out3b; spec_message dev 3 in64b;
     MUnlink 4 dev 0 0 0 (zeros 24)]))).
Proof.
  exists (reached half_run).
  assert (win_run (win0 dev) half_run = Some (Ok (reached half_run))) as R by (vm_compute; reflexivity).
  split; [exact R|]. split; [exact blocks_known|]. split; [repeat constructor; vm_compute; discriminate|].
  split; [change (NoDup [1%nat; 2%nat; 3%nat; 4%nat]); repeat constructor; cbn; intuition discriminate|].
  split; [apply orderly_b_ok; vm_compute; reflexivity|].
  split; [apply (calm_short _ (wi_fwd (reached half_run)) 195 true); vm_compute; [reflexivity|discriminate]|].
  split; vm_compute; reflexivity.
Qed.

(* It is not so when a block is cancelled between the reading of its header and that of
   its data: the unlink becomes the data.  Here what went to the socket is not what any
   sequence of messages begins with. *)
Definition out48 : urb := Bulk ep_out 0 (repeat 7 48).
Definition mixed_run : list win_label :=
  [WLoop []; WSubmit 1 out48; WCancel 1; WReadDone; WLoop []; WReadDone; WLoop []; WLoop []; WSent 96; WLoop []].

Theorem C145_cancel_refuted : exists ls w, win_run (win0 dev) ls = Some (Ok w) /\
  Forall (fun x => known (snd x)) (submitted ls) /\ NoDup (map fst (submitted ls)) /\ (forall addr, ~ In (WAbort addr) ls) /\
  calm 96 true (wi_steps w) /\
  ~ (exists es ms, subseq (blocks es) (submitted ls) /\ say_all dev 1 es ms /\
       prefix (concat (pi_out (fw_req (wi_fwd w)))) (concat (map message_bytes ms))).
Proof.
  exists mixed_run, (reached mixed_run).
  assert (win_run (win0 dev) mixed_run = Some (Ok (reached mixed_run))) as R by (vm_compute; reflexivity).
  split; [exact R|]. split; [repeat constructor; right; reflexivity|]. split; [repeat constructor; auto|].
  split; [intros a; cbn; intuition discriminate|].
  split; [apply (calm_short _ (wi_fwd (reached mixed_run)) 96 true); vm_compute; [reflexivity|discriminate]|].
  intros (es & ms & Sb & Sa & t & E).
  destruct Sa as [q|q e es m ms Se Sa]; [vm_compute in E; discriminate|].
  cbn [map concat] in E. destruct e as [id u|id target].
  - assert (In (id, u) (submitted mixed_run)) as I by (eapply subseq_incl; [exact Sb|]; now left).
    destruct I as [[=<- <-]|[]]. unfold out48 in Se. cbn [says] in Se. subst m.
    apply (f_equal (fun l => nth 48 l 0)) in E.
    match type of E with nth 48 (?a ++ ?b) 0 = _ => rewrite (app_nth1 a b) in E by (vm_compute; lia) end.
    match type of E with _ = nth 48 (?a ++ ?b) 0 => rewrite (app_nth1 a b) in E by (vm_compute; lia) end.
    vm_compute in E. discriminate.
  - destruct Se as (padding & ->). apply (f_equal (fun l => nth 3 l 0)) in E.
    match type of E with _ = nth 3 (?a ++ ?b) 0 => rewrite (app_nth1 a b) in E by (vm_compute; lia) end.
    vm_compute in E. discriminate.
Qed.
Print Assumptions C145_cancel_refuted.

(* The last 24 bytes of an unlink are what was in the memory of the read before, whatever
   that is. *)
Definition leak_run (secret : bytes) : list win_label :=
  [WLoop []; WSubmit 1 in64b; WReadDone; WLoop []; WLoop (zeros 24 ++ secret); WCancel 1; WReadDone; WLoop []; WLoop [];
   WSent 48; WLoop []; WSent 48; WLoop []].

Theorem C145_leak_refuted : forall secret, length secret = 24%nat ->
  exists ls before w after rest, ls = before ++ WLoop (zeros 24 ++ secret) :: after /\
    orderly dev ls /\ Forall (fun x => known (snd x)) (submitted ls) /\
    win_run (win0 dev) ls = Some (Ok w) /\ concat (pi_out (fw_req (wi_fwd w))) = rest ++ secret.
Proof.
  intros secret L.
  do 24 (destruct secret as [|? secret]; [discriminate L|]). destruct secret; [|discriminate L]. clear L.
  match goal with |- exists ls before w after rest, ls = before ++ WLoop (zeros 24 ++ ?s) :: after /\ _ => set (secret := s) end.
  exists (leak_run secret), (firstn 4 (leak_run secret)), (reached (leak_run secret)), (skipn 5 (leak_run secret)),
    (takeN 72 (concat (pi_out (fw_req (wi_fwd (reached (leak_run secret))))))).
  split; [reflexivity|]. split; [apply orderly_b_ok; vm_compute; reflexivity|]. split; [repeat constructor; right; reflexivity|].
  split; vm_compute; reflexivity.
Qed.
Print Assumptions C145_leak_refuted.

(* A control transfer of the _EX kind on the default pipe (handle 0) that reads 18 bytes
   goes to the device as one that writes them: the setup packet says IN, the message says
   OUT and carries the buffer. *)
Definition default_in : urb := ControlEx 0 3 [128; 6; 0; 1; 0; 0; 18; 0] (repeat 85 18).
Definition default_run : list win_label :=
  [WLoop []; WSubmit 1 default_in; WReadDone; WLoop []; WReadDone; WLoop []; WLoop []; WSent 66; WLoop []].

Theorem C145_default_refuted : exists ls w, win_run (win0 dev) ls = Some (Ok w) /\ orderly dev ls /\
  submitted ls = [(1%nat, default_in)] /\ moves_in default_in = true /\
  concat (pi_out (fw_req (wi_fwd w))) =
    message_bytes (MSubmit 1 dev 0 0 0 0 0 0 18 [128; 6; 0; 1; 0; 0; 18; 0] (buffer default_in)) /\
  message_bytes (spec_message dev 1 default_in) =
    message_bytes (MSubmit 1 dev 1 0 0 0 0 0 18 [128; 6; 0; 1; 0; 0; 18; 0] []).
Proof.
  exists default_run, (reached default_run). split; [vm_compute; reflexivity|].
  split; [apply orderly_b_ok; vm_compute; reflexivity|]. split; [reflexivity|]. split; [reflexivity|].
  split; vm_compute; reflexivity.
Qed.
Print Assumptions C145_default_refuted.

(* ------------------------------------------------- C146 *)
(* When the loop waits, nothing is being written and no read of the driver has returned,
   the message of every block that was not cancelled has been written whole. *)
Theorem C146_whole_partial : forall devid mx bl ls w, devid < 4294967296 -> 48 <= mx -> mx + bl < 4294967296 ->
  Forall (fun x => known (snd x)) (submitted ls) -> Forall (fun x => len (buffer (snd x)) + 48 <= mx) (submitted ls) ->
  NoDup (map fst (submitted ls)) -> orderly devid ls -> N.of_nat (length ls) < 4294967296 ->
  win_run (win0 devid) ls = Some (Ok w) -> calm bl true (wi_steps w) ->
  forall ls' junk, ls = ls' ++ [WLoop junk] -> fw_waiting (wi_fwd w) = true -> wi_ready w = None ->
    pi_writing (fw_req (wi_fwd w)) = None ->
  exists es ms, subseq (blocks es) (submitted ls) /\
    (forall x, In x (submitted ls) -> In x (blocks es) \/ In (fst x) (cancelled ls)) /\
    unlinks_ok (cancelled ls) es /\ say_all devid 1 es ms /\
    concat (pi_out (fw_req (wi_fwd w))) = concat (map message_bytes ms).
Proof. exact requests_all. Qed.
Print Assumptions C146_whole_partial.

Definition full_run : list win_label := half_run ++ [WSent 175; WLoop []].

Example C146_example : exists w, win_run (win0 dev) full_run = Some (Ok w) /\
  Forall (fun x => known (snd x)) (submitted full_run) /\ orderly dev full_run /\ calm 195 true (wi_steps w) /\
  fw_waiting (wi_fwd w) = true /\ wi_ready w = None /\ pi_writing (fw_req (wi_fwd w)) = None /\
  concat (pi_out (fw_req (wi_fwd w))) = concat (map message_bytes
    [spec_message dev 1 device18; spec_message dev 2 out3b; spec_message dev 3 in64b;
     MUnlink 4 dev 0 0 0 (zeros 24)]).
Proof.
  exists (reached full_run). split; [vm_compute; reflexivity|]. split; [exact blocks_known|].
  split; [apply orderly_b_ok; vm_compute; reflexivity|].
  split; [apply (calm_short _ (wi_fwd (reached full_run)) 195 true); vm_compute; [reflexivity|discriminate]|].
  split; [vm_compute; reflexivity|]. split; [vm_compute; reflexivity|]. split; vm_compute; reflexivity.
Qed.

(* But cancelling a block between its header and its data, when these are less than 48
   bytes, ends the forwarding: the unlink does not fit into the read. *)
Definition short_run : list win_label :=
  [WLoop []; WSubmit 1 (Bulk ep_out 0 (repeat 7 47)); WCancel 1; WReadDone; WLoop []].

Theorem C146_cancel_refuted : exists ls w, win_run (win0 dev) ls = Some (Ok w) /\
  Forall (fun x => known (snd x)) (submitted ls) /\ (forall addr, ~ In (WAbort addr) ls) /\ wi_ended w = true.
Proof.
  exists short_run, (reached short_run). split; [vm_compute; reflexivity|].
  split; [repeat constructor; right; reflexivity|]. split; [intros a; cbn; intuition discriminate|]. vm_compute. reflexivity.
Qed.
Print Assumptions C146_cancel_refuted.

(* So does a block that the driver does not know (here a BOS descriptor is asked for) when
   it comes while there is no read. *)
Definition bos : urb := GetDescriptor false 15 0 0 (zeros 5).

Theorem C146_unknown_refuted : exists ls w, win_run (win0 dev) ls = Some (Ok w) /\ orderly dev ls /\
  submitted ls = [(1%nat, bos)] /\ wi_ended w = true.
Proof.
  exists [WSubmit 1 bos; WLoop []], (reached [WSubmit 1 bos; WLoop []]). split; [vm_compute; reflexivity|].
  split; [apply orderly_b_ok; vm_compute; reflexivity|]. split; vm_compute; reflexivity.
Qed.
Print Assumptions C146_unknown_refuted.

(* When it comes while there is a read, the next block finds that read and forgets it:
   from then on, whatever is submitted and in whatever order things happen, the forwarder
   gets nothing more from the driver. *)
Definition forgotten : list win_label := [WLoop []; WSubmit 1 bos; WSubmit 2 device18].

Theorem C146_stuck_refuted : exists ls w, win_run (win0 dev) ls = Some (Ok w) /\ orderly dev ls /\
  submitted ls = [(1%nat, bos); (2%nat, device18)] /\ wi_ended w = false /\
  forall ls' v, win_run w ls' = Some (Ok v) -> pi_in (fw_req (wi_fwd v)) = [].
Proof.
  exists forgotten, (reached forgotten). split; [vm_compute; reflexivity|].
  split; [apply orderly_b_ok; vm_compute; reflexivity|]. split; [reflexivity|]. split; [vm_compute; reflexivity|].
  intros ls' v R. rewrite (stuck_run ls' (reached forgotten) v); [vm_compute; reflexivity| |exact R].
  split; [vm_compute; reflexivity|]. split; [vm_compute; reflexivity|]. vm_compute. discriminate.
Qed.
Print Assumptions C146_stuck_refuted.

(* the state of that theorem can go on: a third block is accepted and waits *)
Example C146_stuck_example : exists v, win_run (reached forgotten) [WSubmit 3 device18; WLoop []; WLoop []] = Some (Ok v) /\
  held (wi_drv v) = [3%nat] /\ fw_waiting (wi_fwd v) = true.
Proof.
  exists (match win_run (reached forgotten) [WSubmit 3 device18; WLoop []; WLoop []] with Some (Ok v) => v | _ => win0 0 end).
  split; [vm_compute; reflexivity|]. split; vm_compute; reflexivity.
Qed.

(* ------------------------------------------------- C147 *)
(* Whatever is submitted, cancelled and aborted and whatever the server sends: every block
   has been completed or is held by the driver, once; so none is lost and none is
   completed twice. *)
Theorem C147_once : forall devid ls w, NoDup (map fst (submitted ls)) -> win_run (win0 devid) ls = Some (Ok w) ->
  Permutation (map fst (dr_done (wi_drv w)) ++ held (wi_drv w)) (map fst (submitted ls)).
Proof. exact once. Qed.
Print Assumptions C147_once.

(* one block was cancelled, one answered, the transfers on a pipe aborted, one is held *)
Definition answer1 : bytes := reply_wire (RSubmit 1 1 18 (repeat 5 18)).
Definition once_run : list win_label :=
  full_run ++ [WGot (takeN 48 answer1); WLoop []; WGot (dropN 48 answer1); WLoop []; WAbort 1; WSubmit 5 device18].

Example C147_example : exists w, win_run (win0 dev) once_run = Some (Ok w) /\
  map fst (submitted once_run) = [1; 2; 3; 4; 5]%nat /\
  dr_done (wi_drv w) = [(3%nat, mk_outcome Cancelled 64 (zeros 64)); (1%nat, mk_outcome Success 18 (repeat 5 18));
                        (4%nat, mk_outcome Cancelled 64 (zeros 64))] /\
  held (wi_drv w) = [2; 5]%nat.
Proof.
  exists (reached once_run). split; [vm_compute; reflexivity|]. split; [reflexivity|]. split; vm_compute; reflexivity.
Qed.
