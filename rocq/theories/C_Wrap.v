(* Property C133: what happens when channel numbers run out. *)
From Verif Require Import Base M_Util M_Hid S_Hid P_Hid1 P_Hid2 P_Hid3 P_Hid4 P_Wrap.

(* ---------------------------------------------------------------- C133 *)
(* After any history, an INIT on the idle broadcast channel returns a number that was not
   given before and is neither 0 nor the broadcast channel's. *)
Definition C133_full : Prop :=
  forall A (h : apps A) a ms ka nonce junk,
  Forall (fun x => report_ok (snd x)) ms ->
  let o := hid_run h new_server a ms in
  o_res o = Ok tt -> idle (o_srv o) 0xFFFFFFFF -> len nonce = 8 ->
  exists id, init_ids (o_packets (hid_handle h (o_srv o) (o_app o) ka (init_message nonce junk))) = [id] /\
    ~ In id (init_ids (o_packets o)) /\ id <> 0 /\ id <> 0xFFFFFFFF.

(* True for the first 2^32-2 messages. *)
Theorem C133_fresh_partial : forall A (h : apps A) a ms ka nonce junk,
  Forall (fun x => report_ok (snd x)) ms -> len ms < 4294967294 ->
  let o := hid_run h new_server a ms in
  o_res o = Ok tt -> idle (o_srv o) 0xFFFFFFFF -> len nonce = 8 ->
  exists id, init_ids (o_packets (hid_handle h (o_srv o) (o_app o) ka (init_message nonce junk))) = [id] /\
    ~ In id (init_ids (o_packets o)) /\ id <> 0 /\ id <> 0xFFFFFFFF.
Proof.
  intros A h a ms ka nonce junk F L o R Hi Hn.
  destruct (run_facts h ms new_server a new_server_inv F) as (k & Hk & Ids & Hr).
  { unfold hid_broadcast. cbn [new_server srv_max]. lia. }
  destruct (Hr R) as [I Hm]. fold o in Ids, Hr, I, Hm. cbn [new_server srv_max] in Ids, Hm.
  assert (srv_max (o_srv o) < 4294967294) as B by (unfold len in L; lia).
  exists (srv_max (o_srv o) + 1).
  rewrite (init_any h (o_srv o) (o_app o) ka nonce junk Hi Hn). cbv zeta. cbn [o_packets].
  rewrite N.mod_small by lia. split; [apply init_ids_init; [exact Hn|lia]|].
  split; [|lia]. rewrite Ids. unfold idrange. intro In_. apply in_map_iff in In_.
  destruct In_ as (i & E & J). apply in_seq in J. lia.
Qed.
Print Assumptions C133_fresh_partial.

(* The numbers given by n INITs, for every n: they count modulo 2^32. *)
Theorem C133_numbers : forall A (h : apps A) a ka nonce junk n,
  len nonce = 8 ->
  let o := hid_run h new_server a (repeat (ka, init_message nonce junk) n) in
  o_res o = Ok tt /\ o_app o = a /\
  init_ids (o_packets o) = map (fun i => N.of_nat i mod 4294967296) (seq 1 n).
Proof.
  intros A h a ka nonce junk n Hn.
  destruct (inits h a ka nonce junk Hn n new_server eq_refl eq_refl) as (R & P & G & _).
  cbv zeta. split; [exact R|]. split; [exact P|]. exact G.
Qed.
Print Assumptions C133_numbers.

(* Whatever the state, if the broadcast channel is idle, whoever can send INITs gets any
   channel there is, with the message another application was sending there forgotten. *)
Theorem C133_takeover : forall A (h : apps A) s a ka nonce junk c,
  len nonce = 8 -> idle s 0xFFFFFFFF -> srv_max s < 4294967296 -> c < 4294967296 ->
  exists n, let o := hid_run h s a (repeat (ka, init_message nonce junk) n) in
    let o' := hid_handle h (o_srv o) (o_app o) ka (init_message nonce junk) in
    o_res o = Ok tt /\ o_res o' = Ok tt /\ init_ids (o_packets o') = [c] /\ idle (o_srv o') c.
Proof. exact (fun A h => @takeover A h). Qed.
Print Assumptions C133_takeover.

Definition some_apps : apps unit := mk_apps (fun a _ => (a, Ok [])) (fun a _ => (a, Ok [])).

Lemma wraps n : N.of_nat n = 4294967295 -> ~ C133_full.
Proof.
  intros Hw F. set (m := init_message (zeros 8) []).
  assert (len (zeros 8) = 8) as Hn by reflexivity.
  destruct (inits some_apps tt 0%nat (zeros 8) [] Hn n new_server eq_refl eq_refl) as (R & P & G & M & I).
  fold m in R, P, G, M, I.
  destruct (F unit some_apps tt (repeat (0%nat, m) n) 0%nat (zeros 8) []) as (id & E & _ & Z & _); auto.
  { apply Forall_forall. intros x Hx. apply repeat_spec in Hx. subst x. cbn [snd].
    split; [apply wfbb_iff; vm_compute; reflexivity|vm_compute; discriminate]. }
  rewrite (init_any some_apps _ _ 0%nat (zeros 8) [] I Hn) in E. cbv zeta in E. cbn [o_packets] in E.
  rewrite M, Hw in E.
  change ((new_server.(srv_max) + 4294967295) mod 4294967296 + 1) with 4294967296 in E.
  change (4294967296 mod 4294967296) with 0 in E.
  pose proof (init_ids_init (zeros 8) 0 Hn eq_refl) as X. unfold hid_broadcast in X. rewrite X in E.
  injection E as <-. now apply Z.
Qed.

Theorem C133_refuted : ~ C133_full.
Proof. exact (wraps _ (N2Nat.id 4294967295)). Qed.
Print Assumptions C133_refuted.

(* A channel with half a message on it, taken over by the second INIT: the state is the
   one after 2^32 - 1 further INITs, but for the channels they opened. *)
Definition busy : server :=
  mk_server 4294967295 [(0xFFFFFFFF, None);
    (1, Some (mk_txn false false 0 (Some (mk_tresult 1 0x90 100 0 [1; 2; 3] []))))].
Example C133_takeover_example :
  idle busy 0xFFFFFFFF /\ chan_lookup 1 (srv_channels busy) <> Some None /\
  let o := hid_run some_apps busy tt (repeat (0%nat, init_message (zeros 8) []) 2) in
  init_ids (o_packets o) = [0; 1] /\ idle (o_srv o) 1.
Proof. split; [reflexivity|]. split; [discriminate|]. split; vm_compute; reflexivity. Qed.

Example C133_example :
  let ms := [(0%nat, init_message (zeros 8) [5]); (0%nat, le 4 1 ++ [0x81] ++ be 2 1 ++ [5])] in
  let o := hid_run some_apps new_server tt ms in
  Forall (fun x => report_ok (snd x)) ms /\ o_res o = Ok tt /\ idle (o_srv o) 0xFFFFFFFF /\
  init_ids (o_packets o) = [1].
Proof.
  split; [|vm_compute; auto].
  repeat constructor; try (apply wfbb_iff; vm_compute; reflexivity); vm_compute; discriminate.
Qed.
