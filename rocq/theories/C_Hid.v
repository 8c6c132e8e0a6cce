(* Properties C01..C14: the CTAPHID transport. *)
From Coq Require Import Permutation.
From Verif Require Import Base M_Util M_Hid M_HidConc S_Hid S_HidConc
  P_Hid1 P_Hid2 P_Hid3 P_Hid4 P_HidConc.

(* Applications used in the examples: they count calls and echo reversed. *)
Definition demo_apps : apps nat :=
  mk_apps (fun a p => (S a, Ok (0 :: rev p))) (fun a p => (S a, Ok (rev p ++ [0x90; 0]))).

(* A message handled without keepalives. *)
Definition now (m : bytes) : nat * bytes := (0%nat, m).

Definition demo_payload : bytes := map (fun i => N.of_nat i mod 251) (seq 0 200).

(* A server with one open channel, as reached by an INIT. *)
Definition demo_init : bytes :=
  le 4 0xFFFFFFFF ++ [0x86] ++ be 2 8 ++ [1; 2; 3; 4; 5; 6; 7; 8] ++ zeros 49.
Definition demo_server : server := o_srv (hid_handle demo_apps new_server 0%nat 0 demo_init).

(* ---------------------------------------------------------------- C01 *)
Theorem C01_response_layout : forall ch cmd p,
  cmd < 256 -> create_response_packets ch cmd p = spec_packets ch cmd p.
Proof. exact create_response_packets_spec. Qed.
Print Assumptions C01_response_layout.

Example C01_example :
  map (fun p => length p) (create_response_packets 7 0x90 demo_payload) = [64; 64; 64; 64]%nat /\
  nth 3 (create_response_packets 7 0x90 demo_payload) [] =
    [7; 0; 0; 0; 2] ++ map (fun i => N.of_nat i mod 251) (seq 175 25) ++ zeros 34.
Proof. vm_compute. split; reflexivity. Qed.

(* ---------------------------------------------------------------- C02 *)
Theorem C02_host_reassembles : forall ch cmd p,
  ch < 4294967296 -> 128 <= cmd < 256 -> 1 <= len p <= 7609 ->
  host_receive ch (create_response_packets ch cmd p) = Some (cmd, p).
Proof.
  intros ch cmd p H1 H2 H3. rewrite create_response_packets_spec by apply H2.
  exact (host_receive_ok ch cmd p H1 H2 H3).
Qed.
Print Assumptions C02_host_reassembles.

Theorem C02_too_long_rejected : forall ch cmd p,
  cmd < 256 -> 7609 < len p -> host_receive ch (create_response_packets ch cmd p) = None.
Proof.
  intros ch cmd p H1 H2. rewrite create_response_packets_spec by exact H1.
  exact (host_receive_too_long ch cmd p H2).
Qed.
Print Assumptions C02_too_long_rejected.

Example C02_example :
  host_receive 7 (create_response_packets 7 0x90 demo_payload) = Some (0x90, demo_payload) /\
  host_receive 7 (create_response_packets 7 0x90 (repeat 1 (N.to_nat 7609)))
    = Some (0x90, repeat 1 (N.to_nat 7609)) /\
  host_receive 7 (create_response_packets 7 0x90 (repeat 1 (N.to_nat 7610))) = None.
Proof. vm_compute. repeat split; reflexivity. Qed.

(* ---------------------------------------------------------------- C03 *)
(* The whole request is dispatched exactly as specified, and the channel is idle
   again (the server is as before). *)
Theorem C03_request_reassembly : forall A (h : apps A) s a ch cmd n first rest kas,
  ch < 4294967296 -> In cmd [0x81; 0x83; 0x90] -> (ch = 0xFFFFFFFF -> cmd = 0x81) ->
  n < 65536 -> idle s ch ->
  len rest <= 128 -> completes n first rest -> length kas = S (length rest) ->
  let o := hid_run h s a (combine kas (host_request ch cmd n first rest)) in
  (o_app o, o_packets o, o_res o)
    = spec_reply (app_ctap h) (app_u2f h) a ch cmd (last kas 0%nat)
        (takeN n (first ++ concat rest)) /\
  (o_res o = Ok tt -> o_srv o = s).
Proof.
  intros A h s a ch cmd n first rest kas H1 H2 H3.
  exact (request_reassembly h s a ch cmd n first rest kas H1 (conj H2 H3)).
Qed.
Print Assumptions C03_request_reassembly.

(* Until the announced length is reached nothing is emitted and no application
   is called. *)
Theorem C03_silent_until_complete : forall A (h : apps A) s a ch cmd n first rest kas,
  ch < 4294967296 -> 128 <= cmd < 256 -> cmd <> 0x91 -> n < 65536 -> idle s ch ->
  len rest <= 128 -> length kas = S (length rest) ->
  len first + len (concat rest) < n ->
  let o := hid_run h s a (combine kas (host_request ch cmd n first rest)) in
  o_packets o = [] /\ o_app o = a /\ o_res o = Ok tt.
Proof.
  intros A h s a ch cmd n first rest kas H1 H2 H3 H4 H5 H6 H7 H8.
  rewrite (request_silent h s a ch cmd n first rest kas H1 H2 H3 H4 H5 H6 H7 H8).
  repeat split.
Qed.
Print Assumptions C03_silent_until_complete.

Example C03_example :
  let first := takeN 57 demo_payload in
  let rest := [takeN 59 (dropN 57 demo_payload); [9]; dropN 116 demo_payload ++ zeros 5] in
  idle demo_server 1 /\ completes 190 first rest /\
  let o := hid_run demo_apps demo_server 0%nat
    (combine [0; 0; 0; 2]%nat (host_request 1 0x90 190 first rest)) in
  o_app o = 1%nat /\ len (o_packets o) = 2 + 4 /\ o_res o = Ok tt.
Proof.
  cbv zeta. split; [reflexivity|]. split.
  - split; [vm_compute; discriminate|]. intros _. vm_compute. reflexivity.
  - vm_compute. repeat split; reflexivity.
Qed.

(* ---------------------------------------------------------------- C04 *)
Theorem C04_ping_echo : forall A (h : apps A) s a ch p kas,
  ch < 4294967296 -> 1 <= len p <= 7609 -> idle s ch ->
  length kas = length (host_send ch 0x81 p) ->
  let o := hid_run h s a (combine kas (host_send ch 0x81 p)) in
  host_receive ch (o_packets o) = Some (0x81, p) /\
  o_srv o = s /\ o_app o = a /\ o_res o = Ok tt.
Proof. exact (fun A h => @ping_echo A h). Qed.
Print Assumptions C04_ping_echo.

Example C04_example :
  idle demo_server 1 /\
  length (host_send 1 0x81 demo_payload) = 4%nat /\
  host_receive 1 (o_packets (hid_run demo_apps demo_server 0%nat
     (combine [0; 0; 0; 0]%nat (host_send 1 0x81 demo_payload)))) = Some (0x81, demo_payload).
Proof. vm_compute. repeat split; reflexivity. Qed.

(* ---------------------------------------------------------------- C05 *)
(* All channel ids ever handed out, over any history (even one that ends in a
   crash), are distinct, non-zero and not the broadcast id. *)
Theorem C05_ids_fresh : forall A (h : apps A) a ms,
  Forall (fun x => report_ok (snd x)) ms -> len ms < 4294967295 ->
  let ids := init_ids (o_packets (hid_run h new_server a ms)) in
  NoDup ids /\ Forall (fun id => id <> 0 /\ id < 0xFFFFFFFF) ids.
Proof. exact (fun A h => @channel_ids_fresh A h). Qed.
Print Assumptions C05_ids_fresh.

(* The reply to an INIT sent after any history, while the broadcast channel is
   idle; the channel returned was not open and is open and idle afterwards. *)
Theorem C05_init_reply : forall A (h : apps A) a ms ka nonce junk,
  Forall (fun x => report_ok (snd x)) ms -> len ms < 4294967294 ->
  let s := o_srv (hid_run h new_server a ms) in
  o_res (hid_run h new_server a ms) = Ok tt ->
  idle s 0xFFFFFFFF -> len nonce = 8 ->
  let o := hid_handle h s a ka (le 4 0xFFFFFFFF ++ [0x86] ++ be 2 8 ++ nonce ++ junk) in
  exists id,
    o_packets o = spec_packets 0xFFFFFFFF 0x86 (nonce ++ le 4 id ++ [2; 0; 0; 1; 4]) /\
    o_res o = Ok tt /\ o_app o = a /\
    chan_lookup id (srv_channels s) = None /\ id <> 0xFFFFFFFF /\ id <> 0 /\
    idle (o_srv o) id /\ idle (o_srv o) 0xFFFFFFFF.
Proof.
  intros A h a ms ka nonce junk F L s R Hi Hn.
  destruct (run_facts h ms new_server a new_server_inv F) as (k & Hk & _ & Hr).
  { unfold hid_broadcast. cbn [new_server srv_max]. lia. }
  destruct (Hr R) as [I Hm].
  refine (init_reply h s a ka nonce junk I _ Hi Hn).
  unfold s. rewrite Hm. unfold len in L. unfold hid_broadcast. cbn [new_server srv_max]. lia.
Qed.
Print Assumptions C05_init_reply.

Example C05_example :
  init_ids (o_packets (hid_run demo_apps new_server 0%nat
    [now demo_init; now demo_init; now (le 4 1 ++ [0x81] ++ be 2 1 ++ [5]); now demo_init]))
  = [1; 2; 3] /\
  report_ok demo_init /\ idle demo_server 0xFFFFFFFF /\ idle demo_server 1.
Proof.
  split; [vm_compute; reflexivity|]. repeat split.
  - apply wfbb_iff. vm_compute. reflexivity.
  - vm_compute. discriminate.
Qed.

(* ---------------------------------------------------------------- C06 *)
Theorem C06_unallocated_refused : forall A (h : apps A) a ms ch rest ka,
  Forall (fun x => report_ok (snd x)) ms -> len ms < 4294967295 ->
  let o := hid_run h new_server a ms in
  o_res o = Ok tt ->
  ch < 4294967296 -> ch <> 0xFFFFFFFF -> ~ In ch (init_ids (o_packets o)) ->
  hid_handle h (o_srv o) (o_app o) ka (le 4 ch ++ rest) =
  mk_outcome (o_srv o) (o_app o) [spec_packet ch 0xBF [0x0B] 0] (Ok tt).
Proof. exact (fun A h => @unallocated_refused A h). Qed.
Print Assumptions C06_unallocated_refused.

Example C06_example :
  let o := hid_run demo_apps new_server 0%nat [(0%nat, demo_init)] in
  o_res o = Ok tt /\ init_ids (o_packets o) = [1] /\
  o_packets (hid_handle demo_apps (o_srv o) (o_app o) 0 (le 4 2 ++ [0x90; 0; 1; 4]))
    = [spec_packet 2 0xBF [0x0B] 0].
Proof. vm_compute. repeat split; reflexivity. Qed.

(* ---------------------------------------------------------------- C07 *)
(* One step never touches another open channel. *)
Theorem C07_isolation : forall A (h : apps A) s a ka ch rest c,
  srv_inv s -> srv_max s + 1 < hid_broadcast -> ch < 4294967296 ->
  report_ok (le 4 ch ++ rest) ->
  let o := hid_handle h s a ka (le 4 ch ++ rest) in
  o_res o = Ok tt -> c <> ch -> chan_lookup c (srv_channels s) <> None ->
  chan_lookup c (srv_channels (o_srv o)) = chan_lookup c (srv_channels s).
Proof. exact (fun A h => @isolation A h). Qed.
Print Assumptions C07_isolation.

(* Dropping the traffic of all other channels changes nothing of what is said on
   channel k, if the applications' answers depend on the request only. *)
Theorem C07_interleaving : forall A (h : apps A) k,
  stateless h -> k < 4294967296 -> k <> 0xFFFFFFFF ->
  forall ms0 a0 ms a,
  Forall (fun x => report_ok (snd x)) ms0 -> Forall (fun x => report_ok (snd x)) ms ->
  len ms0 + len ms < 4294967295 ->
  let o0 := hid_run h new_server a0 ms0 in
  o_res o0 = Ok tt -> In k (init_ids (o_packets o0)) ->
  let o1 := hid_run h (o_srv o0) a ms in
  let o2 := hid_run h (o_srv o0) a (filter (fun x => on_channel k (snd x)) ms) in
  o_res o1 = Ok tt ->
  filter (on_channel k) (o_packets o1) = o_packets o2 /\ o_res o2 = Ok tt /\
  chan_lookup k (srv_channels (o_srv o1)) = chan_lookup k (srv_channels (o_srv o2)).
Proof.
  intros A h k St Hk Hb ms0 a0 ms a F0 F L o0 R0 Hin o1 o2 R1.
  destruct (run_facts h ms0 new_server a0 new_server_inv F0) as (i & Hi & _ & Hr).
  { unfold hid_broadcast. cbn [new_server srv_max]. lia. }
  destruct (Hr R0) as [I Hm].
  destruct (run_open h a0 ms0 k F0 ltac:(lia) R0) as [_ Ho].
  refine (interleaving h k St Hk Hb ms (o_srv o0) (o_srv o0) a a I _ F _ eq_refl R1).
  - unfold o0. rewrite Hm. unfold len in *. unfold hid_broadcast. cbn [new_server srv_max]. lia.
  - apply Ho. now right.
Qed.
Print Assumptions C07_interleaving.

Example C07_example :
  let ms0 := [now demo_init; now demo_init] in
  let o0 := hid_run demo_apps new_server 0%nat ms0 in
  let ms := [now (le 4 1 ++ [0x90] ++ be 2 60 ++ zeros 57); now (le 4 2 ++ [0x81] ++ be 2 3 ++ [1; 2; 3]);
             now (le 4 1 ++ [0] ++ [7; 8; 9]); now demo_init] in
  stateless demo_apps /\ o_res o0 = Ok tt /\ In 1 (init_ids (o_packets o0)) /\
  o_res (hid_run demo_apps (o_srv o0) 0%nat ms) = Ok tt /\
  length (filter (on_channel 1) (o_packets (hid_run demo_apps (o_srv o0) 0%nat ms))) = 2%nat.
Proof.
  cbv zeta. split; [split; reflexivity|]. split; [reflexivity|]. split; [left; reflexivity|].
  vm_compute. split; reflexivity.
Qed.

(* ---------------------------------------------------------------- C08 *)
Theorem C08_replies_on_channel : forall A (h : apps A) a0 ms a ka m,
  Forall (fun x => wfb (snd x)) ms -> wfb m ->
  Forall (fun p => takeN 4 p = takeN 4 m)
    (o_packets (hid_handle h (o_srv (hid_run h new_server a0 ms)) a ka m)).
Proof.
  intros A h a0 ms a ka m F W.
  exact (all_on_channel h _ a ka m W (run_chan_inv h ms new_server a0 F new_server_chan_inv)).
Qed.
Print Assumptions C08_replies_on_channel.

Example C08_example :
  length (o_packets (hid_handle demo_apps demo_server 0%nat 1
    (le 4 1 ++ [0x90] ++ be 2 57 ++ zeros 57))) = 3%nat.
Proof. vm_compute. reflexivity. Qed.

(* ---------------------------------------------------------------- C09 *)
(* After an incomplete request, a packet with a wrong sequence number or with a
   command byte: one ERROR INVALID_SEQUENCE (4), no call, the channel is idle. *)
Theorem C09_bad_continuation : forall A (h : apps A) s a ch cmd n first rest kas ka b junk,
  ch < 4294967296 -> 128 <= cmd < 256 -> cmd <> 0x91 -> n < 65536 -> idle s ch ->
  len rest <= 128 -> length kas = S (length rest) ->
  len first + len (concat rest) < n ->
  b < 256 -> b <> 0x91 -> (128 <= b \/ b <> len rest) ->
  hid_run h s a (combine kas (host_request ch cmd n first rest)
                          ++ [(ka, le 4 ch ++ [b] ++ junk)])
  = mk_outcome s a [spec_packet ch 0xBF [4] 0] (Ok tt).
Proof. exact (fun A h => @bad_continuation A h). Qed.
Print Assumptions C09_bad_continuation.

(* A continuation without a request: one ERROR INVALID_COMMAND (1). *)
Theorem C09_stray_continuation : forall A (h : apps A) s a ka ch b junk,
  ch < 4294967296 -> b < 128 -> idle s ch ->
  hid_handle h s a ka (le 4 ch ++ [b] ++ junk) =
  mk_outcome s a [spec_packet ch 0xBF [1] 0] (Ok tt).
Proof. exact (fun A h => @stray_continuation A h). Qed.
Print Assumptions C09_stray_continuation.

Theorem C09_cancel : forall A (h : apps A) s a ch cmd n first rest kas ka junk,
  ch < 4294967296 -> 128 <= cmd < 256 -> cmd <> 0x91 -> n < 65536 -> idle s ch ->
  len rest <= 128 -> length kas = S (length rest) ->
  len first + len (concat rest) < n ->
  hid_run h s a (combine kas (host_request ch cmd n first rest)
                          ++ [(ka, le 4 ch ++ [0x91] ++ junk)])
  = mk_outcome s a [] (Ok tt).
Proof. exact (fun A h => @cancel_request A h). Qed.
Print Assumptions C09_cancel.

Theorem C09_cancel_idle : forall A (h : apps A) s a ka ch junk,
  ch < 4294967296 -> idle s ch ->
  hid_handle h s a ka (le 4 ch ++ [0x91] ++ junk) = mk_outcome s a [] (Ok tt).
Proof. exact (fun A h => @cancel_idle A h). Qed.
Print Assumptions C09_cancel_idle.

Example C09_example :
  idle demo_server 1 /\
  o_packets (hid_run demo_apps demo_server 0%nat
    (combine [0; 0]%nat (host_request 1 0x90 190 (zeros 57) [zeros 59])
     ++ [(0%nat, le 4 1 ++ [7] ++ zeros 59)])) = [spec_packet 1 0xBF [4] 0].
Proof. vm_compute. split; reflexivity. Qed.

(* ---------------------------------------------------------------- C10 *)
(* The full property: no messages crash the process if the applications don't. *)
Definition C10_full : Prop := forall A (h : apps A) a ms,
  no_panic h -> Forall (fun x => wfb (snd x)) ms ->
  o_res (hid_run h new_server a ms) = Ok tt.

(* It is false: two well-formed 64-byte reports suffice, INIT and then WINK. *)
Theorem C10_refuted : exists ms, Forall (fun x => wfb (snd x) /\ len (snd x) = 64) ms /\
  forall A (h : apps A) a, o_res (hid_run h new_server a ms) = Panic.
Proof.
  exists [(0%nat, demo_init); (0%nat, le 4 1 ++ [0x88] ++ be 2 0 ++ zeros 57)].
  split; [|reflexivity].
  repeat constructor; cbn [snd]; try (apply wfbb_iff; vm_compute; reflexivity).
Qed.
Print Assumptions C10_refuted.

Theorem C10_not_full : ~ C10_full.
Proof.
  intro H. destruct C10_refuted as (ms & F & R).
  specialize (H nat demo_apps 0%nat ms).
  rewrite R in H. enough (Panic = Ok tt) by discriminate. apply H.
  - split; discriminate.
  - eapply Forall_impl; [|exact F]. intros x Hx. apply Hx.
Qed.
Print Assumptions C10_not_full.

(* In general every complete request with an unknown command is fatal. *)
Theorem C10_unknown_command_fatal : forall A (h : apps A) s a ka ch cmd n data,
  ch < 4294967296 -> 128 <= cmd < 256 -> cmd <> 0x91 -> ~ allowed ch cmd ->
  idle s ch -> n < 65536 -> n <= len data ->
  o_res (hid_handle h s a ka (le 4 ch ++ [cmd] ++ be 2 n ++ data)) = Panic.
Proof. exact (fun A h => @unknown_command_panics A h). Qed.
Print Assumptions C10_unknown_command_fatal.

(* What holds: a host that sends messages of at least 15 bytes and starts requests
   only with known commands cannot crash the process, whatever else it sends. *)
Theorem C10_careful_host_partial : forall A (h : apps A) a ms,
  no_panic h -> Forall (fun x => careful (snd x)) ms ->
  o_res (hid_run h new_server a ms) = Ok tt.
Proof. exact (fun A h a ms NP F => careful_run h NP ms new_server a new_server_careful F). Qed.
Print Assumptions C10_careful_host_partial.

Example C10_example : no_panic demo_apps /\ careful demo_init /\
  careful (le 4 1 ++ [0x90] ++ be 2 60 ++ zeros 57) /\ careful (le 4 9 ++ [77] ++ zeros 59).
Proof.
  repeat split; try discriminate;
    try (apply wfbb_iff; vm_compute; reflexivity); try (vm_compute; discriminate).
  - right. right. right. left. vm_compute. split; reflexivity.
  - right. right. right. right. split; [discriminate|]. right. reflexivity.
  - left. vm_compute. reflexivity.
Qed.

(* ---------------------------------------------------------------- C11 *)
Definition C11_full : Prop := forall A (h : apps A) s a ka ch cmd n data,
  ch < 4294967296 -> idle s ch -> In cmd [0x81; 0x83; 0x90] -> n <= len data -> n < 65536 ->
  o_res (hid_handle h s a ka (le 4 ch ++ [cmd] ++ be 2 n ++ data)) = Ok tt ->
  o_packets (hid_handle h s a ka (le 4 ch ++ [cmd] ++ be 2 n ++ data)) <> [].

(* False: an empty PING is never answered. *)
Theorem C11_refuted : forall A (h : apps A) s a ka ch junk,
  ch < 4294967296 -> idle s ch ->
  hid_handle h s a ka (le 4 ch ++ [0x81] ++ be 2 0 ++ junk) = mk_outcome s a [] (Ok tt).
Proof. exact (fun A h => @empty_ping_unanswered A h). Qed.
Print Assumptions C11_refuted.

Theorem C11_not_full : ~ C11_full.
Proof.
  intro H. specialize (H nat demo_apps demo_server 0%nat 0%nat 1 0x81 0 []).
  rewrite C11_refuted in H by reflexivity. cbn in H. apply H; auto; lia || reflexivity.
Qed.
Print Assumptions C11_not_full.

(* What holds: a request of up to 7609 bytes to an application which answers with
   1..7609 bytes is answered, and a conforming host reads exactly that answer,
   whatever number of keepalives comes before. *)
Theorem C11_answered_partial : forall A (h : apps A) s a ch cmd p kas a' r,
  ch < 4294967296 -> ch <> 0xFFFFFFFF -> cmd = 0x90 \/ cmd = 0x83 -> len p <= 7609 ->
  idle s ch -> length kas = length (host_send ch cmd p) ->
  (if cmd =? 0x90 then app_ctap h a p else app_u2f h a p) = (a', Ok r) ->
  1 <= len r <= 7609 ->
  let o := hid_run h s a (combine kas (host_send ch cmd p)) in
  host_await ch (o_packets o) = Some (cmd, r) /\ o_app o = a' /\ o_srv o = s /\ o_res o = Ok tt.
Proof. exact (fun A h => @transaction A h). Qed.
Print Assumptions C11_answered_partial.

Example C11_example :
  idle demo_server 1 /\
  host_await 1 (o_packets (hid_run demo_apps demo_server 0%nat
     (combine [0; 0; 0; 3]%nat (host_send 1 0x90 demo_payload))))
  = Some (0x90, 0 :: rev demo_payload).
Proof. vm_compute. split; reflexivity. Qed.

(* ---------------------------------------------------------------- C12 *)
Theorem C12_contiguous : forall ls s,
  lock_run lock_init ls = Some s -> whole_responses (arrived ls) (lk_out s).
Proof. exact contiguous. Qed.
Print Assumptions C12_contiguous.

Theorem C12_all_sent : forall ls s,
  lock_run lock_init ls = Some s ->
  Forall (fun sn => sn_status sn = Finished) (lk_senders s) ->
  exists order, Permutation order (seq 0 (length (arrived ls))) /\
    lk_out s = concat (map (fun t => nth t (arrived ls) []) order).
Proof. exact all_sent. Qed.
Print Assumptions C12_all_sent.

Example C12_example : exists s,
  lock_run lock_init [LArrive [[1]; [2]]; LArrive [[3]]; LAcquire 1; LEmit 1; LArrive [[4]; [5]];
     LRelease 1; LAcquire 0; LEmit 0; LEmit 0; LRelease 0; LAcquire 2; LEmit 2] = Some s /\
  lk_out s = [[3]; [1]; [2]; [4]].
Proof. eexists. split; reflexivity. Qed.

(* ---------------------------------------------------------------- C13 *)
(* A conforming request is answered whatever the order in which the goroutines of
   its packets run. *)
Definition C13_full : Prop := forall A (h : apps A) s a ch p kas choices,
  ch < 4294967296 -> 1 <= len p <= 7609 -> idle s ch ->
  length kas = length (host_send ch 0x81 p) ->
  Permutation (sched_order (combine kas (host_send ch 0x81 p)) choices)
              (combine kas (host_send ch 0x81 p)) ->
  host_receive ch (o_packets (sched_run h s a (combine kas (host_send ch 0x81 p)) choices))
  = Some (0x81, p).

Theorem C13_refuted : exists p choices,
  len p = 58 /\
  (forall A (h : apps A) a,
    Permutation (sched_order (combine [0; 0]%nat (host_send 0xFFFFFFFF 0x81 p)) choices)
                (combine [0; 0]%nat (host_send 0xFFFFFFFF 0x81 p)) /\
    o_packets (sched_run h new_server a (combine [0; 0]%nat (host_send 0xFFFFFFFF 0x81 p)) choices)
    = [spec_packet 0xFFFFFFFF 0xBF [1] 0]).
Proof.
  exists (repeat 7 58), [1; 0]%nat. split; [reflexivity|].
  intros A h a. split; [|reflexivity].
  change (host_send 0xFFFFFFFF 0x81 (repeat 7 58)) with
    [nth 0 (host_send 0xFFFFFFFF 0x81 (repeat 7 58)) [];
     nth 1 (host_send 0xFFFFFFFF 0x81 (repeat 7 58)) []].
  cbn [combine sched_order nth_error remove_nth]. apply perm_swap.
Qed.
Print Assumptions C13_refuted.

(* What holds: when the goroutines run in the order of their creation the request
   is served, for any history and handler. *)
Theorem C13_fifo_partial : forall A (h : apps A) s a pending,
  sched_run h s a pending (repeat 0%nat (length pending)) = hid_run h s a pending.
Proof. intros A h s a pending. unfold sched_run. now rewrite sched_fifo. Qed.
Print Assumptions C13_fifo_partial.

Example C13_example :
  host_receive 0xFFFFFFFF (o_packets (sched_run demo_apps new_server 0%nat
    (combine [0; 0]%nat (host_send 0xFFFFFFFF 0x81 (repeat 7 58))) [0; 0]%nat))
  = Some (0x81, repeat 7 58).
Proof. vm_compute. reflexivity. Qed.

(* ---------------------------------------------------------------- C14 *)
Definition C14_full : Prop := forall ls s,
  tick_run tick_init ls = Some s -> late false (tk_trace s) = 0%nat.

Theorem C14_refuted : forall n, exists ls s,
  tick_run tick_init ls = Some s /\ late false (tk_trace s) = n.
Proof. exact late_unbounded. Qed.
Print Assumptions C14_refuted.

(* What holds: at most one keepalive is late, plus one for each timer that expires
   after the handler has finished; once the ticker has seen the stop signal there
   are none; and the ticker leaves no goroutine behind. *)
Theorem C14_late_bound_partial : forall ls s,
  tick_run tick_init ls = Some s ->
  (late false (tk_trace s) <= 1 + wakes_after_stop false ls)%nat.
Proof. exact late_keepalives. Qed.
Print Assumptions C14_late_bound_partial.

Theorem C14_exited_silent_partial : forall ls s s',
  tk_main s = Exited -> tick_run s ls = Some s' ->
  tk_main s' = Exited /\ kcount (tk_trace s') = kcount (tk_trace s).
Proof. exact exited_silent. Qed.
Print Assumptions C14_exited_silent_partial.

Theorem C14_no_leak_partial : forall ls s,
  tick_run tick_init ls = Some s -> tk_main s = Exited ->
  exists ls' s', tick_run s ls' = Some s' /\ tk_sleeping s' = 0%nat /\ tk_sending s' = 0%nat.
Proof. exact no_leak. Qed.
Print Assumptions C14_no_leak_partial.

Example C14_example : exists s,
  tick_run tick_init [TWake; TSend; TSelTrigger; THandlerDone; TRespond; TFunction; TSelStop] = Some s /\
  tk_trace s = [EvResponse; EvKeepalive] /\ tk_main s = Exited.
Proof. eexists. repeat split. Qed.
