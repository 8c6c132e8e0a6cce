(* Proofs about channel numbers when they run out (C133). *)
From Verif Require Import Base M_Util M_Hid S_Hid P_Hid1 P_Hid2 P_Hid3 P_Hid4.

Definition init_message (nonce junk : bytes) : bytes :=
  le 4 0xFFFFFFFF ++ [0x86] ++ be 2 8 ++ nonce ++ junk.

(* One INIT, whatever the number of the last channel. *)
Lemma init_any {A} (h : apps A) s a ka nonce junk :
  idle s 0xFFFFFFFF -> len nonce = 8 ->
  let id := (srv_max s + 1) mod 4294967296 in
  hid_handle h s a ka (init_message nonce junk) =
  mk_outcome (srv_set (mk_server id (chan_set id None (srv_channels s))) 0xFFFFFFFF None) a
    (spec_packets 0xFFFFFFFF 0x86 (nonce ++ le 4 id ++ [2; 0; 0; 1; 4])) (Ok tt).
Proof.
  intros Hi Hn id. unfold init_message.
  rewrite (hid_handle_open h s a ka 0xFFFFFFFF _ None) by (auto; reflexivity).
  pose proof (new_transaction_first 0xFFFFFFFF 0x86 8 (nonce ++ junk) ltac:(reflexivity)
    ltac:(lia) ltac:(easy) ltac:(reflexivity)) as Em.
  replace (8 <=? len (nonce ++ junk)) with true in Em by (rewrite len_app; lia).
  rewrite (channel_handle_done_eq h s a ka _ None _ _ Em).
  unfold handle_finalized. change (4294967295 =? hid_broadcast) with true. cbv iota.
  unfold handle_broadcast. cbn [tr_cmd tr_payload tr_spare].
  change (134 =? cmd_init) with true. cbv iota. unfold new_channel. fold id.
  rewrite takeN_dropN.
  replace (len (nonce ++ junk) <? 8) with false by (rewrite len_app; lia).
  cbv zeta. cbn [o_res o_srv o_app o_packets].
  rewrite create_response_packets_spec by (vm_compute; reflexivity).
  now rewrite takeN_exact by auto.
Qed.

Lemma init_state s id : idle (srv_set (mk_server id (chan_set id None (srv_channels s))) 0xFFFFFFFF None) 0xFFFFFFFF /\
  idle (srv_set (mk_server id (chan_set id None (srv_channels s))) 0xFFFFFFFF None) id.
Proof.
  unfold idle, srv_set. cbn [srv_channels]. split; [apply chan_lookup_set_eq|].
  destruct (N.eq_dec id 0xFFFFFFFF) as [->|E]; [apply chan_lookup_set_eq|].
  rewrite chan_lookup_set_neq by auto. apply chan_lookup_set_eq.
Qed.

Definition given (m : N) (n : nat) : list N :=
  map (fun i => (m + N.of_nat i) mod 4294967296) (seq 1 n).

Lemma given_S m n : given m (S n) = (m + 1) mod 4294967296 :: given ((m + 1) mod 4294967296) n.
Proof.
  unfold given. cbn [seq map]. f_equal. rewrite <- seq_shift, map_map. apply map_ext. intro i.
  rewrite N.add_mod_idemp_l by discriminate. f_equal. lia.
Qed.

Lemma inits {A} (h : apps A) a ka nonce junk : len nonce = 8 -> forall n s,
  idle s 0xFFFFFFFF -> srv_max s < 4294967296 ->
  let o := hid_run h s a (repeat (ka, init_message nonce junk) n) in
  o_res o = Ok tt /\ o_app o = a /\ init_ids (o_packets o) = given (srv_max s) n /\
  srv_max (o_srv o) = (srv_max s + N.of_nat n) mod 4294967296 /\ idle (o_srv o) 0xFFFFFFFF.
Proof.
  intro Hn. induction n as [|n IH]; intros s Hi Hm.
  - cbn. repeat split; auto. rewrite N.add_0_r. symmetry. now apply N.mod_small.
  - cbn [repeat hid_run]. rewrite (init_any h s a ka nonce junk Hi Hn). cbv zeta.
    cbn [o_res o_srv o_app o_packets].
    set (id := (srv_max s + 1) mod 4294967296).
    destruct (init_state s id) as [I1 I2].
    specialize (IH (srv_set (mk_server id (chan_set id None (srv_channels s))) 0xFFFFFFFF None) I1).
    cbn [srv_set srv_max] in IH.
    assert (id < 4294967296) as Hid by (apply N.mod_lt; discriminate).
    specialize (IH Hid). cbv zeta in IH. destruct IH as (R & P & G & M & I).
    split; [exact R|]. split; [exact P|]. split; [|split; [|exact I]].
    + rewrite init_ids_app, init_ids_init, G, given_S by auto. reflexivity.
    + rewrite M. unfold id. rewrite N.add_mod_idemp_l by discriminate. f_equal. lia.
Qed.

Lemma run_app {A} (h : apps A) : forall ms s a ms',
  let o := hid_run h s a ms in
  o_res o = Ok tt ->
  let o' := hid_run h (o_srv o) (o_app o) ms' in
  hid_run h s a (ms ++ ms') = mk_outcome (o_srv o') (o_app o') (o_packets o ++ o_packets o') (o_res o').
Proof.
  induction ms as [|[ka m] ms IH]; intros s a ms' o R o'.
  - subst o o'. cbn. now destruct (hid_run h s a ms').
  - subst o o'. cbn [hid_run app] in *. destruct (o_res (hid_handle h s a ka m)) eqn:E; [|congruence].
    cbn [o_res o_srv o_app o_packets] in *. rewrite (IH _ _ ms' R). cbv zeta.
    cbn [o_res o_srv o_app o_packets]. now rewrite app_assoc.
Qed.

(* any channel is given away again *)
Lemma takeover {A} (h : apps A) s a ka nonce junk c : len nonce = 8 ->
  idle s 0xFFFFFFFF -> srv_max s < 4294967296 -> c < 4294967296 ->
  exists n, let o := hid_run h s a (repeat (ka, init_message nonce junk) n) in
    let o' := hid_handle h (o_srv o) (o_app o) ka (init_message nonce junk) in
    o_res o = Ok tt /\ o_res o' = Ok tt /\ init_ids (o_packets o') = [c] /\ idle (o_srv o') c.
Proof.
  intros Hn Hi Hm Hc.
  exists (N.to_nat ((c + 4294967296 - srv_max s - 1) mod 4294967296)).
  set (n := N.to_nat ((c + 4294967296 - srv_max s - 1) mod 4294967296)).
  destruct (inits h a ka nonce junk Hn n s Hi Hm) as (R & P & _ & M & I).
  set (o := hid_run h s a (repeat (ka, init_message nonce junk) n)) in *. cbv zeta.
  split; [exact R|]. rewrite (init_any h (o_srv o) (o_app o) ka nonce junk I Hn). cbv zeta.
  cbn [o_res o_srv o_app o_packets].
  assert ((srv_max (o_srv o) + 1) mod 4294967296 = c) as E.
  { rewrite M. unfold n. rewrite N2Nat.id. lia. }
  rewrite E. split; [reflexivity|]. split; [now apply init_ids_init|]. apply init_state.
Qed.
