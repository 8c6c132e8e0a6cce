(* The forwarder of the bundled Windows client (usbip_forward.c): requests (C141), what is
   written when it waits (C142), replies (C143), its memory (C144). *)
From Coq Require Import FinFun.
From Verif Require Import Base M_WinFwd S_Usbip S_WinFwd P_WinFwd P_WinRun P_WinRep P_WinMem.
Open Scope N_scope.

(* ------------------------------------------------- C141 *)
(* For every list of requests without isochronous packets, of every size, every split of
   the reads and writes, every schedule and whatever the server sends: what was written to
   the socket is a prefix of the requests in network byte order.  mx bounds the size of a
   request, bl what waits to be written; together they fit in 32 bits. *)
Theorem C141_requests : forall ms mx bl ls g, Forall driver_request ms ->
  Forall (fun m => len (host_bytes m) <= mx) ms -> 48 <= mx -> mx + bl < 4294967296 -> calm bl true ls ->
  fwd_run fwd0 ls = Some (Ok g) -> prefix (pi_in (fw_req g)) (concat (map host_bytes ms)) ->
  prefix (concat (pi_out (fw_req g))) (concat (map message_bytes ms)).
Proof. intros ms mx bl ls g G S1 S2 S3. exact (requests_written ms G mx bl S1 S2 S3 ls g). Qed.
Print Assumptions C141_requests.

(* an OUT request with three bytes, an IN request, an unlink *)
Definition out3 : message := MSubmit 1 2 0 5 0 0 0 0 3 (zeros 8) [7; 8; 9].
Definition in64 (seq : N) : message := MSubmit seq 131074 1 1 512 0 0 255 64 (zeros 8) [].
Definition unlink2 : message := MUnlink 3 131074 0 0 2 (zeros 24).
Definition three : bytes := concat (map host_bytes [out3; in64 2; unlink2]).

Definition three_run : list fwd_label :=
  [Iterate; ReadDone true (takeN 20 three); Iterate; ReadDone true (takeN 28 (dropN 20 three)); Iterate;
   ReadDone true (takeN 1 (dropN 48 three)); Iterate; ReadDone true (takeN 2 (dropN 49 three)); Iterate; Iterate;
   WriteDone true 50; ReadDone true (takeN 48 (dropN 51 three)); Iterate; Iterate; WriteDone true 1; Iterate;
   WriteDone true 48; ReadDone true (takeN 48 (dropN 99 three)); Iterate; Iterate].

Definition result (ls : list fwd_label) : fwd :=
  match fwd_run fwd0 ls with Some (Ok g) => g | _ => fwd0 end.

Lemma three_good : Forall driver_request [out3; in64 2; unlink2].
Proof.
  repeat constructor.
Qed.

Example C141_example : exists g, fwd_run fwd0 three_run = Some (Ok g) /\
  Forall (fun m => len (host_bytes m) <= 51) [out3; in64 2; unlink2] /\ calm 147 true three_run /\
  pi_in (fw_req g) = three /\
  concat (pi_out (fw_req g)) = message_bytes out3 ++ message_bytes (in64 2) /\
  pi_writing (fw_req g) = Some (message_bytes unlink2) /\ fw_waiting g = true /\ length (pi_out (fw_req g)) = 3%nat.
Proof.
  exists (result three_run).
  assert (fwd_run fwd0 three_run = Some (Ok (result three_run))) as R by (vm_compute; reflexivity).
  split; [exact R|]. split; [repeat constructor; discriminate|]. split.
  - eapply calm_short; [exact R|]. vm_compute. discriminate.
  - repeat split; vm_compute; reflexivity.
Qed.

(* ------------------------------------------------- C142 *)
(* When the loop waits, no write is in progress, and what has been read ends where a
   request ends, every request has been written. *)
Theorem C142_whole_partial : forall ms mx bl ls g, Forall driver_request ms ->
  Forall (fun m => len (host_bytes m) <= mx) ms -> 48 <= mx -> mx + bl < 4294967296 -> calm bl true ls ->
  fwd_run fwd0 (ls ++ [Iterate]) = Some (Ok g) -> fw_waiting g = true ->
  pi_in (fw_req g) = concat (map host_bytes ms) -> pi_writing (fw_req g) = None ->
  concat (pi_out (fw_req g)) = concat (map message_bytes ms).
Proof. exact requests_gone. Qed.
Print Assumptions C142_whole_partial.

Definition three_done : list fwd_label := three_run ++ [WriteDone true 40; Iterate; WriteDone true 8].

Example C142_example : exists g, fwd_run fwd0 (three_done ++ [Iterate]) = Some (Ok g) /\ calm 147 true three_done /\
  fw_waiting g = true /\ pi_in (fw_req g) = three /\ pi_writing (fw_req g) = None /\
  concat (pi_out (fw_req g)) = concat (map message_bytes [out3; in64 2; unlink2]).
Proof.
  exists (result (three_done ++ [Iterate])).
  assert (fwd_run fwd0 three_done = Some (Ok (result three_done))) as R by (vm_compute; reflexivity).
  split; [vm_compute; reflexivity|]. split.
  - eapply calm_short; [exact R|]. vm_compute. discriminate.
  - repeat split; vm_compute; reflexivity.
Qed.

(* But a request that has come whole can be held back until the next one is whole: the
   loop waits, nothing is being written, and the last of 22 requests is not written
   because ten bytes of another one have come. *)
Definition many (n : nat) : list message := map (fun i => in64 (N.of_nat i)) (seq 1 n).

Definition stall_run : list fwd_label :=
  Iterate :: flat_map (fun m => [ReadDone true (host_bytes m); Iterate; Iterate]) (many 22) ++
  [WriteDone true 48; Iterate; WriteDone true 960; ReadDone true (takeN 10 (host_bytes (in64 23)))].

Lemma many_good n : N.of_nat n < 4294967295 -> Forall driver_request (many n).
Proof.
  intro H. unfold many. apply Forall_map, Forall_forall. intros i I. apply in_seq in I.
  assert (N.of_nat i < 4294967296) by lia. repeat split; assumption || reflexivity.
Qed.

Theorem C142_refuted : exists ms next ls g, Forall driver_request ms /\ driver_request next /\
  fwd_run fwd0 (ls ++ [Iterate]) = Some (Ok g) /\ fw_waiting g = true /\
  pi_in (fw_req g) = concat (map host_bytes ms) ++ takeN 10 (host_bytes next) /\
  pi_writing (fw_req g) = None /\
  concat (pi_out (fw_req g)) = concat (map message_bytes (removelast ms)).
Proof.
  exists (many 22), (in64 23), stall_run, (result (stall_run ++ [Iterate])).
  split; [apply many_good; reflexivity|]. split; [repeat constructor|].
  split; [vm_compute; reflexivity|]. split; [vm_compute; reflexivity|]. split; [vm_compute; reflexivity|].
  split; vm_compute; reflexivity.
Qed.
Print Assumptions C142_refuted.

(* ------------------------------------------------- C143 *)
(* What the driver is given is a prefix of the replies with little endian integers and
   with the direction of the transfer filled in, if for each reply to an IN request this
   request is the last one seen whose number is the same modulo 1024. *)
Theorem C143_replies_partial : forall ms rs mx bl ls g, Forall driver_request ms -> NoDup (flat_map seq_of ms) ->
  ~ In 0 (flat_map seq_of ms) -> Forall (answers_one ms) rs -> Forall (fun m => len (host_bytes m) <= mx) ms ->
  Forall (fun r => len (reply_wire r) <= mx) rs -> 48 <= mx -> mx + bl < 4294967296 ->
  (forall side, calm bl side ls) -> fwd_run fwd0 ls = Some (Ok g) ->
  prefix (pi_in (fw_req g)) (concat (map host_bytes ms)) ->
  prefix (pi_in (fw_rep g)) (concat (map reply_wire rs)) -> all_remembered ms (fw_log g) ->
  prefix (concat (pi_out (fw_rep g))) (concat (map reply_host rs)).
Proof.
  intros ms rs mx bl ls g G U Z A S1 S2 S3 S4. exact (replies_written ms rs G U Z A mx bl S1 S2 S3 S4 ls g).
Qed.
Print Assumptions C143_replies_partial.

Theorem C143_all_partial : forall ms rs mx bl ls g, Forall driver_request ms -> NoDup (flat_map seq_of ms) ->
  ~ In 0 (flat_map seq_of ms) -> Forall (answers_one ms) rs -> Forall (fun m => len (host_bytes m) <= mx) ms ->
  Forall (fun r => len (reply_wire r) <= mx) rs -> 48 <= mx -> mx + bl < 4294967296 ->
  (forall side, calm bl side ls) -> fwd_run fwd0 (ls ++ [Iterate]) = Some (Ok g) -> fw_waiting g = true ->
  prefix (pi_in (fw_req g)) (concat (map host_bytes ms)) -> all_remembered ms (fw_log g) ->
  pi_in (fw_rep g) = concat (map reply_wire rs) -> pi_writing (fw_rep g) = None ->
  concat (pi_out (fw_rep g)) = concat (map reply_host rs).
Proof. exact replies_gone. Qed.
Print Assumptions C143_all_partial.

(* It is when fewer than 1024 numbers were given out since. *)
Theorem C143_recent : forall ms log, all_recent ms log -> all_remembered ms log.
Proof. exact recent_remembered. Qed.
Print Assumptions C143_recent.

Definition replies3 : list reply :=
  [RSubmit 2 1 64 (repeat 5 64); RSubmit 1 0 3 []; RUnlink 3 false].
Definition wire3 : bytes := concat (map reply_wire replies3).
Definition reply_run : list fwd_label :=
  three_run ++ [ReadDone false (takeN 48 wire3); Iterate; ReadDone false (takeN 60 (dropN 48 wire3)); Iterate;
    ReadDone false (takeN 4 (dropN 108 wire3)); Iterate; Iterate; ReadDone false (takeN 48 (dropN 112 wire3)); Iterate; Iterate;
    WriteDone false 112; ReadDone false (dropN 160 wire3); Iterate; Iterate; WriteDone false 96].

Example C143_example : exists g, fwd_run fwd0 (reply_run ++ [Iterate]) = Some (Ok g) /\
  NoDup (flat_map seq_of [out3; in64 2; unlink2]) /\ ~ In 0 (flat_map seq_of [out3; in64 2; unlink2]) /\
  Forall (answers_one [out3; in64 2; unlink2]) replies3 /\ Forall (fun r => len (reply_wire r) <= 112) replies3 /\
  (forall side, calm 208 side reply_run) /\ fw_waiting g = true /\ pi_in (fw_req g) = three /\
  pi_in (fw_rep g) = wire3 /\ pi_writing (fw_rep g) = None /\ all_recent [out3; in64 2; unlink2] (fw_log g) /\
  concat (pi_out (fw_rep g)) = concat (map reply_host replies3) /\ length (pi_out (fw_rep g)) = 2%nat.
Proof.
  exists (result (reply_run ++ [Iterate])).
  assert (fwd_run fwd0 reply_run = Some (Ok (result reply_run))) as R by (vm_compute; reflexivity).
  split; [vm_compute; reflexivity|].
  split; [repeat constructor; cbn; intuition discriminate|]. split; [cbn; intuition discriminate|].
  split.
  { constructor; [|constructor; [|repeat constructor]].
    - split; [|split; reflexivity]. repeat eexists. right. left. reflexivity.
    - split; [|split; reflexivity]. repeat eexists. left. reflexivity. }
  split; [repeat constructor; discriminate|].
  split; [intros []; (eapply calm_short; [exact R|]; vm_compute; discriminate)|].
  split; [vm_compute; reflexivity|]. split; [vm_compute; reflexivity|]. split; [vm_compute; reflexivity|].
  split; [vm_compute; reflexivity|]. split; [|split; vm_compute; reflexivity].
  assert (fw_log (result (reply_run ++ [Iterate])) =
    [SawRequest 1 0 3 0; SawRequest 2 1 64 0; SawReply 2 64 0; SawReply 1 3 0]) as -> by (vm_compute; reflexivity).
  clear R. intros b q n p a E (devid & dir & ep & fl & st & pk & iv & m & su & d & I & Nz).
  unfold out3, in64, unlink2 in I. destruct I as [I|[I|[I|[]]]]; try discriminate I; injection I as; subst; try congruence.
  assert (b = [SawRequest 1 0 3 0; SawRequest 2 1 64 0]) as ->.
  { destruct b as [|x0 [|x1 [|x2 [|x3 [|x4 b]]]]]; cbn [app] in E; try discriminate E; congruence. }
  eexists [_], _, _, _, []. split; [reflexivity|]. intros ? ? ? ? [].
Qed.

(* With 1025 requests outstanding the reply to the first is taken for one without data. *)
Definition flood : list message := many 1025.
Definition late : reply := RSubmit 1 1 64 (repeat 5 64).
Definition flood_run : list fwd_label :=
  Iterate :: flat_map (fun m => [ReadDone true (host_bytes m); Iterate; Iterate; WriteDone true 48]) flood ++
  [ReadDone false (takeN 48 (reply_wire late)); Iterate; Iterate; WriteDone false 48].

Definition flood_check (g : fwd) : bool :=
  bytes_eqb (pi_in (fw_req g)) (concat (map host_bytes flood)) &&
  bytes_eqb (pi_in (fw_rep g)) (takeN 48 (reply_wire late)) &&
  (len (concat (pi_out (fw_rep g))) =? 48) &&
  negb (bytes_eqb (concat (pi_out (fw_rep g))) (takeN 48 (reply_host late))).

Lemma flood_runs : match fwd_run fwd0 flood_run with Some (Ok g) => flood_check g | _ => false end = true.
Proof. vm_compute. reflexivity. Qed.

Lemma checked (o : option (res fwd)) : match o with Some (Ok g) => flood_check g | _ => false end = true ->
  exists g, o = Some (Ok g) /\ flood_check g = true.
Proof. destruct o as [[g|]|]; try discriminate. exists g. auto. Qed.

Lemma flood_numbers : flat_map seq_of flood = map N.of_nat (seq 1 1025).
Proof.
  unfold flood, many. generalize (seq 1 1025). intro l. induction l as [|i l IH]; cbn [map flat_map]; [reflexivity|].
  now rewrite IH.
Qed.

Theorem C143_refuted : exists ms r ls g, Forall driver_request ms /\ NoDup (flat_map seq_of ms) /\
  ~ In 0 (flat_map seq_of ms) /\ answers_one ms r /\ (forall side, calm 100000 side ls) /\
  fwd_run fwd0 ls = Some (Ok g) /\ pi_in (fw_req g) = concat (map host_bytes ms) /\
  prefix (pi_in (fw_rep g)) (reply_wire r) /\ ~ prefix (concat (pi_out (fw_rep g))) (reply_host r).
Proof.
  destruct (checked (fwd_run fwd0 flood_run) flood_runs) as (g & E & K).
  unfold flood_check in K. rewrite !andb_true_iff in K. destruct K as (((K1 & K2) & K3) & K4).
  apply bytes_eqb_eq in K1. apply bytes_eqb_eq in K2. apply N.eqb_eq in K3.
  pose proof flood_numbers as F.
  exists flood, late, flood_run, g.
  split; [apply many_good; reflexivity|].
  split; [rewrite F; apply FinFun.Injective_map_NoDup; [intros x y; lia|apply seq_NoDup]|].
  split; [rewrite F; intro H; apply in_map_iff in H; destruct H as (i & H & I); apply in_seq in I; lia|].
  split; [split; [|split; reflexivity]; repeat eexists; left; reflexivity|].
  split.
  { intros [|]; (eapply calm_short; [exact E|]); cbn [pipe_of]; rewrite ?K1, ?K2; vm_compute; discriminate. }
  split; [exact E|]. split; [exact K1|]. split.
  { rewrite K2. exists (dropN 48 (reply_wire late)). vm_compute. reflexivity. }
  intro P. apply prefix_take in P. rewrite K3 in P. clear -P K4. revert P K4.
  generalize (concat (pi_out (fw_rep g))), (takeN 48 (reply_host late)). intros x y -> K.
  rewrite (proj2 (bytes_eqb_eq y y) eq_refl) in K. discriminate.
Qed.
Print Assumptions C143_refuted.

(* ------------------------------------------------- C144 *)
(* Whatever comes from the driver and from the server: as long as what was read in each
   direction and what headers announce stay below 4 GiB together, no byte is stored
   outside the buffers. *)
Theorem C144_safe_partial : forall T A ls f l, fwd_run fwd0 ls = Some (Ok f) -> T + A + 48 < 4294967296 ->
  (forall s, len (pi_in (pipe_of f s)) <= T) ->
  (forall e, In e (fw_log f ++ sees (fw_req f) ++ sees (fw_rep f)) -> announced e <= A) ->
  fwd_step f l <> Some Panic.
Proof. exact memory_safe. Qed.
Print Assumptions C144_safe_partial.

(* garbage: a reply that nobody asked for, with isochronous packets *)
Definition garbage : bytes := be 4 3 ++ be 4 77 ++ zeros 12 ++ be 4 5 ++ be 4 9 ++ be 4 0 ++ be 4 2 ++ be 4 1 ++ repeat 255 8.
Definition garbage_run : list fwd_label :=
  three_run ++ [ReadDone false garbage; Iterate; ReadDone false (repeat 1 32)].

Example C144_example : exists f, fwd_run fwd0 garbage_run = Some (Ok f) /\
  (forall s, len (pi_in (pipe_of f s)) <= 147) /\
  (forall e, In e (fw_log f ++ sees (fw_req f) ++ sees (fw_rep f)) -> announced e <= 64) /\
  In (SawReply 77 9 2) (fw_log f) /\ fwd_step f Iterate <> Some Panic.
Proof.
  exists (result garbage_run). split; [vm_compute; reflexivity|].
  split; [intros []; vm_compute; discriminate|].
  assert (fw_log (result garbage_run) ++ sees (fw_req (result garbage_run)) ++ sees (fw_rep (result garbage_run)) =
    [SawRequest 1 0 3 0; SawRequest 2 1 64 0; SawReply 77 9 2]) as -> by (vm_compute; reflexivity).
  split; [intros e [<-|[<-|[<-|[]]]]; vm_compute; discriminate|].
  split; [vm_compute; auto|]. vm_compute. discriminate.
Qed.

(* A server that announces nearly 4 GiB makes the client copy the header into a buffer too
   small for it. *)
Definition huge (n : N) : bytes := be 4 3 ++ be 4 1 ++ zeros 12 ++ be 4 0 ++ be 4 n ++ zeros 20.

Theorem C144_refuted : exists ls f, fwd_run fwd0 ls = Some (Ok f) /\
  prefix (pi_in (fw_req f)) (host_bytes (in64 1)) /\ len (pi_in (fw_rep f)) = 48 /\ fwd_step f Iterate = Some Panic.
Proof.
  set (ls := [Iterate; ReadDone true (host_bytes (in64 1)); Iterate; Iterate; ReadDone false (huge 4294967280)]).
  exists ls, (result ls). split; [vm_compute; reflexivity|]. split; [exists []; vm_compute; reflexivity|].
  split; vm_compute; reflexivity.
Qed.
Print Assumptions C144_refuted.

(* And one that announces 2^28 + 1 isochronous packets makes it swap bytes far beyond the
   16 that it received. *)
Definition packets : bytes := be 4 3 ++ be 4 1 ++ zeros 12 ++ be 4 0 ++ be 4 0 ++ be 4 0 ++ be 4 268435457 ++ zeros 12.

Theorem C144_packets_refuted : exists ls f, fwd_run fwd0 ls = Some (Ok f) /\
  pi_in (fw_req f) = [] /\ len (pi_in (fw_rep f)) = 64 /\ fwd_step f Iterate = Some Panic.
Proof.
  set (ls := [Iterate; ReadDone false packets; Iterate; ReadDone false (zeros 16)]).
  exists ls, (result ls). split; [vm_compute; reflexivity|]. split; [vm_compute; reflexivity|].
  split; vm_compute; reflexivity.
Qed.
Print Assumptions C144_packets_refuted.
