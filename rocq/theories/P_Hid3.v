(* Proofs about the CTAPHID server: invariants over histories; C05..C11. *)
From Coq Require FinFun.
From Verif Require Import Base M_Util M_Hid S_Hid P_Hid1 P_Hid2.

(* ---- one message on an open channel, case by case ---- *)

Section Cases.
Context {A : Type} (h : apps A) (s : server) (a : A) (ka : nat) (ch : N).
Hypothesis Hch : ch < 4294967296.

Lemma ch_none_notcmd b rest : b < 128 ->
  channel_handle h s a ka ch None (le 4 ch ++ b :: rest) =
  mk_outcome (srv_set s ch None) a (spec_packets ch 0xBF [1]) (Ok tt).
Proof.
  intro Hb. unfold channel_handle, new_transaction.
  rewrite read_le_app by exact Hch. cbn [rbind]. rewrite read_le_1. cbn [rbind].
  rewrite land128 by lia. replace (b <? 128) with true by lia.
  cbn [txn_error t_done t_error]. change (negb (err_invalid_command =? 0)) with true. cbv iota.
  cbn [o_res o_srv o_app o_packets]. now rewrite hid_error_spec.
Qed.

Lemma ch_none_cancel rest :
  channel_handle h s a ka ch None (le 4 ch ++ 0x91 :: rest) =
  mk_outcome (srv_set s ch None) a [] (Ok tt).
Proof.
  unfold channel_handle, new_transaction.
  rewrite read_le_app by exact Hch. cbn [rbind]. rewrite read_le_1. cbn [rbind].
  reflexivity.
Qed.

Lemma ch_none_short b rest : 128 <= b < 256 -> b <> 0x91 -> len rest < 2 ->
  channel_handle h s a ka ch None (le 4 ch ++ b :: rest) = mk_outcome s a [] Panic.
Proof.
  intros Hb Hc Hr. unfold channel_handle, new_transaction.
  rewrite read_le_app by exact Hch. cbn [rbind]. rewrite read_le_1. cbn [rbind].
  rewrite land128 by lia. replace (b <? 128) with false by lia.
  replace (b =? cmd_cancel) with false by (unfold cmd_cancel; lia).
  unfold read_be. replace (len rest <? N.of_nat 2) with true by lia. reflexivity.
Qed.

Lemma ch_some_cancel cmd n d q rest :
  channel_handle h s a ka ch (Some (partial_txn ch cmd n d q)) (le 4 ch ++ 0x91 :: rest) =
  mk_outcome (srv_set s ch None) a [] (Ok tt).
Proof.
  unfold channel_handle, add_message, partial_txn. cbn [t_done t_result].
  rewrite read_le_app by exact Hch. cbn [rbind tr_chan]. rewrite N.eqb_refl. cbn [negb].
  rewrite read_le_1. reflexivity.
Qed.

Lemma ch_some_badseq cmd n d q b rest : b < 256 -> b <> 0x91 -> (128 <= b \/ b <> q) ->
  channel_handle h s a ka ch (Some (partial_txn ch cmd n d q)) (le 4 ch ++ b :: rest) =
  mk_outcome (srv_set s ch None) a (spec_packets ch 0xBF [4]) (Ok tt).
Proof.
  intros Hb Hc Hq. unfold channel_handle, add_message, partial_txn. cbn [t_done t_result].
  rewrite read_le_app by exact Hch. cbn [rbind tr_chan]. rewrite N.eqb_refl. cbn [negb].
  rewrite read_le_1. cbn [rbind].
  replace (b =? cmd_cancel) with false by (unfold cmd_cancel; lia).
  rewrite land128 by lia.
  destruct (N.ltb_spec b 128).
  - cbn [negb tr_seq]. replace (b =? q) with false by lia. cbn [negb].
    cbn [txn_error t_done t_error]. change (negb (err_invalid_sequence =? 0)) with true. cbv iota.
    cbn [o_res o_srv o_app o_packets]. now rewrite hid_error_spec.
  - cbn [negb].
    cbn [txn_error t_done t_error]. change (negb (err_invalid_sequence =? 0)) with true. cbv iota.
    cbn [o_res o_srv o_app o_packets]. now rewrite hid_error_spec.
Qed.

Lemma ch_tooshort cur :
  match cur with None => True | Some t => exists cmd n d q, t = partial_txn ch cmd n d q end ->
  channel_handle h s a ka ch cur (le 4 ch) = mk_outcome s a [] Panic.
Proof.
  intro Hcur. unfold channel_handle, new_transaction, add_message.
  assert (read_le 4 (le 4 ch) = Ok (ch, [])) as R.
  { rewrite <- (app_nil_r (le 4 ch)). apply read_le_app. exact Hch. }
  destruct cur as [t|].
  - destruct Hcur as (cmd & n & d & q & ->). cbn [partial_txn t_done t_result].
    rewrite R. cbn [rbind tr_chan]. now rewrite N.eqb_refl.
  - rewrite R. reflexivity.
Qed.

End Cases.

(* ---- the invariant of reachable servers ---- *)

(* An unfinished request on channel k. *)
Definition pending_ok (k : N) (t : txn) : Prop :=
  exists cmd n d q, t = partial_txn k cmd n d q /\
    len d < n /\ n < 65536 /\ 128 <= cmd < 256 /\ cmd <> 0x91 /\ q <= 128 /\
    len d <= 57 + 59 * q.

Record srv_inv (s : server) : Prop := {
  inv_max : srv_max s < hid_broadcast;
  inv_open : forall k, chan_lookup k (srv_channels s) <> None <->
                       k = hid_broadcast \/ 1 <= k <= srv_max s;
  inv_pending : forall k t, chan_lookup k (srv_channels s) = Some (Some t) -> pending_ok k t
}.

(* What a HID transport delivers: well-formed messages of at most 64 bytes. *)
Definition report_ok (m : bytes) : Prop := wfb m /\ len m <= 64.

Lemma new_server_inv : srv_inv new_server.
Proof.
  split; cbn [new_server srv_max srv_channels].
  - reflexivity.
  - intro k. cbn [chan_lookup]. destruct (N.eqb_spec hid_broadcast k); split; intro H; try easy.
    + now left.
    + destruct H as [->|H]; [easy|lia].
  - intros k t. cbn [chan_lookup]. destruct (hid_broadcast =? k); easy.
Qed.

Lemma srv_inv_set s ch v :
  srv_inv s -> chan_lookup ch (srv_channels s) <> None ->
  match v with None => True | Some t => pending_ok ch t end ->
  srv_inv (srv_set s ch v).
Proof.
  intros [I1 I2 I3] Ho Hv. split; cbn [srv_set srv_max srv_channels]; auto.
  - intro k. destruct (N.eq_dec ch k) as [<-|E].
    + rewrite chan_lookup_set_eq. rewrite <- I2. split; easy.
    + rewrite chan_lookup_set_neq by auto. apply I2.
  - intros k t. destruct (N.eq_dec ch k) as [<-|E].
    + rewrite chan_lookup_set_eq. intros [= ->]. exact Hv.
    + rewrite chan_lookup_set_neq by auto. apply I3.
Qed.

Lemma new_channel_inv s :
  srv_inv s -> srv_max s + 1 < hid_broadcast ->
  srv_inv (fst (new_channel s)) /\ snd (new_channel s) = srv_max s + 1 /\
  srv_max (fst (new_channel s)) = srv_max s + 1 /\
  chan_lookup (srv_max s + 1) (srv_channels (fst (new_channel s))) = Some None /\
  (forall k, k <> srv_max s + 1 ->
    chan_lookup k (srv_channels (fst (new_channel s))) = chan_lookup k (srv_channels s)).
Proof.
  intros [I1 I2 I3] Hm. unfold hid_broadcast in *. unfold new_channel.
  replace ((srv_max s + 1) mod 4294967296) with (srv_max s + 1) by lia.
  cbn [fst snd srv_max srv_channels]. repeat split; auto.
  - intros H. destruct (N.eq_dec (srv_max s + 1) k) as [<-|E].
    + right. cbn. lia.
    + cbn [srv_channels] in H. rewrite chan_lookup_set_neq in H by auto. apply I2 in H. cbn. unfold hid_broadcast. lia.
  - intros H. cbn [srv_channels srv_max] in *.
    destruct (N.eq_dec (srv_max s + 1) k) as [<-|E].
    + rewrite chan_lookup_set_eq. easy.
    + rewrite chan_lookup_set_neq by auto. apply I2. unfold hid_broadcast in H. lia.
  - intros k t. cbn [srv_channels]. destruct (N.eq_dec (srv_max s + 1) k) as [<-|E].
    + rewrite chan_lookup_set_eq. easy.
    + rewrite chan_lookup_set_neq by auto. apply I3.
  - apply chan_lookup_set_eq.
  - intros k E. apply chan_lookup_set_neq. auto.
Qed.

(* ---- INIT replies among the packets ---- *)

Lemma le_dec_take_spec ch cmd p i : ch < 4294967296 ->
  le_dec (takeN 4 (spec_packet ch cmd p i)) = ch.
Proof. intro H. rewrite spec_packet_chan. now apply le_dec_le_small. Qed.

Lemma init_ids_app a b : init_ids (a ++ b) = init_ids a ++ init_ids b.
Proof. unfold init_ids. now rewrite flat_map_app. Qed.

Lemma init_ids_other ch cmd p : ch < 4294967296 ->
  (ch <> hid_broadcast \/ cmd <> 0x86 /\ len p <= 7609) ->
  init_ids (spec_packets ch cmd p) = [].
Proof.
  intros Hch H. unfold init_ids, spec_packets.
  set (n := N.to_nat (spec_count (len p))).
  assert (Hn : H = H) by reflexivity. clear Hn.
  assert (forall l, (forall i, In i l -> (i < n)%nat) ->
    flat_map (fun p0 => if (le_dec (takeN 4 p0) =? 4294967295) && (nth 4 p0 0 =? 134)
      then [le_dec (takeN 4 (dropN 15 p0))] else []) (map (spec_packet ch cmd p) l) = []) as G.
  { induction l as [|i l IH]; intro Hl; [reflexivity|].
    cbn [map flat_map]. rewrite IH by (intros j Hj; apply Hl; now right).
    rewrite le_dec_take_spec by auto.
    destruct H as [H|[H1 H2]].
    - unfold hid_broadcast in H. replace (ch =? 4294967295) with false by lia. reflexivity.
    - rewrite spec_packet_nth by lia.
      assert ((spec_byte ch cmd p i 4 =? 134) = false) as ->.
      { specialize (Hl i (or_introl eq_refl)).
        destruct i as [|i]; cbn [spec_byte]; [lia|].
        unfold n, spec_count in Hl. destruct (len p =? 0); lia. }
      rewrite andb_false_r. reflexivity. }
  apply G. intros i Hi. apply in_seq in Hi. lia.
Qed.

Lemma spec_packets_single ch cmd p : 1 <= len p <= 57 ->
  spec_packets ch cmd p = [spec_packet ch cmd p 0].
Proof.
  intro H. unfold spec_packets, spec_count. replace (len p =? 0) with false by lia.
  replace (1 + (len p - 57 + 58) / 59) with 1 by lia. reflexivity.
Qed.

Lemma init_ids_init nonce id : len nonce = 8 -> id < 4294967296 ->
  init_ids (spec_packets hid_broadcast 0x86 (nonce ++ le 4 id ++ [2; 0; 0; 1; 4])) = [id].
Proof.
  intros Hn Hid. rewrite spec_packets_single
    by (rewrite !len_app, le_len, Hn; vm_compute; split; discriminate).
  unfold init_ids. cbn [flat_map]. rewrite le_dec_take_spec by reflexivity.
  rewrite spec_packet_nth by lia. cbn [spec_byte].
  change (hid_broadcast =? 4294967295) with true. change (134 =? 134) with true. cbn [andb].
  cbn [app]. do 2 f_equal.
  replace 15 with (7 + 8) by reflexivity. rewrite <- dropN_dropN, spec_packet_data_0.
  assert (takeN 57 (nonce ++ le 4 id ++ [2;0;0;1;4]) = nonce ++ le 4 id ++ [2;0;0;1;4]) as ->.
  { apply takeN_all. rewrite !len_app, le_len, Hn. vm_compute. discriminate. }
  rewrite <- !app_assoc, dropN_exact by auto.
  rewrite takeN_exact by apply le_len. now apply le_dec_le_small.
Qed.

(* ids m+1 .. m+k *)
Definition idrange (m : N) (k : nat) : list N :=
  map (fun i => m + 1 + N.of_nat i) (seq 0 k).

Lemma idrange_app m i j : idrange m (i + j) = idrange m i ++ idrange (m + N.of_nat i) j.
Proof.
  unfold idrange. rewrite seq_app, map_app. f_equal.
  rewrite Nat.add_0_l. 
  assert (forall n b, seq (i + b) n = map (fun x => (i + x)%nat) (seq b n)) as S.
  { induction n; intro b; cbn [seq map]; auto. f_equal.
    rewrite <- Nat.add_succ_r. apply IHn. }
  replace i with (i + 0)%nat at 1 by lia. rewrite S, map_map. apply map_ext. intro. lia.
Qed.

Lemma in_idrange m k x : In x (idrange m k) <-> m < x <= m + N.of_nat k.
Proof.
  unfold idrange. rewrite in_map_iff. split.
  - intros (i & <- & Hi). apply in_seq in Hi. lia.
  - intro H. exists (N.to_nat (x - m - 1)). rewrite in_seq. lia.
Qed.

Lemma nodup_idrange m k : NoDup (idrange m k).
Proof.
  unfold idrange. apply FinFun.Injective_map_NoDup; [|apply seq_NoDup].
  intros x y H. lia.
Qed.

(* ---- finalised messages ---- *)

(* Everything about a finished request that histories need. *)
Lemma finalized_facts {A} (h : apps A) s a ka ch cmd n q d spare :
  ch < 4294967296 -> srv_inv s -> chan_lookup ch (srv_channels s) <> None ->
  srv_max s + 1 < hid_broadcast -> len d <= 7609 ->
  let o := handle_finalized h s a ka ch (mk_tresult ch cmd n q d spare) in
  (o_res o = Ok tt ->
     srv_inv (o_srv o) /\
     exists k, (k <= 1)%nat /\ srv_max (o_srv o) = srv_max s + N.of_nat k /\
       init_ids (o_packets o) = idrange (srv_max s) k /\
       (k <> 0%nat -> ch = hid_broadcast) /\
       (forall c, c <> srv_max s + 1 ->
          chan_lookup c (srv_channels (o_srv o)) = chan_lookup c (srv_channels s))) /\
  (o_res o = Panic -> init_ids (o_packets o) = []) /\
  Forall (fun p => takeN 4 p = le 4 ch) (o_packets o).
Proof.
  intros Hch I Ho Hm Hd. unfold handle_finalized.
  assert (F : forall cmd p, Forall (fun p => takeN 4 p = le 4 ch) (spec_packets ch cmd p)).
  { intros. apply Forall_forall. intros x Hx. apply in_map_iff in Hx as (i & <- & _).
    apply spec_packet_chan. }
  assert (Same : srv_inv s /\ exists k, (k <= 1)%nat /\ srv_max s = srv_max s + N.of_nat k /\
     [] = idrange (srv_max s) k /\ (k <> 0%nat -> ch = hid_broadcast) /\
       (forall c, c <> srv_max s + 1 ->
          chan_lookup c (srv_channels s) = chan_lookup c (srv_channels s))).
  { split; auto. exists 0%nat. repeat split; auto; try lia. }
  destruct (N.eqb_spec ch hid_broadcast) as [E|E].
  - unfold handle_broadcast. cbn [tr_cmd tr_payload tr_spare].
    destruct (N.eqb_spec cmd cmd_init).
    + destruct (new_channel s) as [s' id] eqn:NC.
      destruct (new_channel_inv s I Hm) as (I' & Hid & Hmax & Hnew & Hold).
      rewrite NC in *. cbn [fst snd] in *. subst id.
      destruct (N.ltb_spec (len (d ++ spare)) 8); cbn [o_res o_srv o_packets].
      * repeat split; easy.
      * rewrite create_response_packets_spec by (vm_compute; reflexivity).
        unfold init_response. split; [|split; [easy | subst ch; apply F]].
        intros _. split; [exact I'|].
        exists 1%nat. repeat split; auto.
        unfold cmd_init. rewrite init_ids_init.
        -- unfold idrange. cbn. f_equal. lia.
        -- rewrite takeN_len. lia.
        -- unfold hid_broadcast in Hm. lia.
    + destruct (N.eqb_spec cmd cmd_ping); cbn [o_res o_srv o_packets].
      * rewrite create_response_packets_spec by (vm_compute; reflexivity).
        rewrite init_ids_other; auto; [|subst; reflexivity|right; split; [easy|lia]].
        split; [intros _; exact Same|]. split; [easy|]. subst ch. apply F.
      * repeat split; easy.
  - assert (G : forall cmd p, init_ids (spec_packets ch cmd p) = []).
    { intros. apply init_ids_other; auto. }
    set (kp := spec_packets ch cmd_keepalive [hid_status_upneeded]).
    assert (K : init_ids (concat (repeat kp ka)) = [] /\
      Forall (fun p => takeN 4 p = le 4 ch) (concat (repeat kp ka))).
    { induction ka as [|k IH]; cbn [repeat concat]; [split; [reflexivity|constructor]|].
      unfold kp at 1 3. rewrite init_ids_app, G. split; [apply IH|]. apply Forall_app. split; [apply F|apply IH]. }
    unfold handle_data, keepalive. cbn [tr_cmd tr_payload tr_chan].
    rewrite !create_response_packets_spec by (vm_compute; reflexivity). fold kp.
    destruct K as [K1 K2].
    destruct (cmd =? cmd_msg).
    { destruct (app_u2f h a d) as [a' [r|]]; cbn [o_res o_srv o_packets].
      - rewrite create_response_packets_spec by (vm_compute; reflexivity). rewrite G.
        split; [intros _; exact Same|]. split; [easy|]. apply F.
      - repeat split; easy. }
    destruct (cmd =? cmd_cbor).
    { destruct (app_ctap h a d) as [a' [r|]]; cbn [o_res o_srv o_packets].
      - rewrite create_response_packets_spec by (vm_compute; reflexivity).
        rewrite init_ids_app, G, K1.
        split; [intros _; exact Same|]. split; [easy|]. apply Forall_app. split; auto.
      - repeat split; auto; easy. }
    destruct (cmd =? cmd_ping); cbn [o_res o_srv o_packets].
    + rewrite ?create_response_packets_spec by (vm_compute; reflexivity). rewrite G.
      split; [intros _; exact Same|]. split; [easy|]. apply F.
    + repeat split; easy.
Qed.

(* ---- one step preserves the invariant ---- *)

Record step_facts {A} (s : server) (ch : N) (o : outcome A) : Prop := {
  sf_ok : o_res o = Ok tt ->
     srv_inv (o_srv o) /\
     exists k, (k <= 1)%nat /\ srv_max (o_srv o) = srv_max s + N.of_nat k /\
       init_ids (o_packets o) = idrange (srv_max s) k /\
       (forall c, c <> ch -> c <> srv_max s + 1 ->
          chan_lookup c (srv_channels (o_srv o)) = chan_lookup c (srv_channels s));
  sf_panic : o_res o = Panic -> init_ids (o_packets o) = [];
  sf_chan : Forall (fun p => takeN 4 p = le 4 ch) (o_packets o)
}.

Lemma spec_packets_chan ch cmd p : Forall (fun x => takeN 4 x = le 4 ch) (spec_packets ch cmd p).
Proof.
  apply Forall_forall. intros x Hx. apply in_map_iff in Hx as (i & <- & _).
  apply spec_packet_chan.
Qed.

Lemma set_facts {A} s ch v (a : A) pk :
  srv_inv s -> chan_lookup ch (srv_channels s) <> None ->
  match v with None => True | Some t => pending_ok ch t end ->
  Forall (fun p => takeN 4 p = le 4 ch) pk -> init_ids pk = [] ->
  step_facts s ch (mk_outcome (srv_set s ch v) a pk (Ok tt)).
Proof.
  intros I Ho Hv F N. split; cbn [o_res o_srv o_packets]; try easy.
  intros _. split; [now apply srv_inv_set|].
  exists 0%nat. cbn [srv_set srv_max srv_channels]. repeat split; auto; try lia.
  intros c Hc _. apply chan_lookup_set_neq. auto.
Qed.

Lemma finish_facts {A} (h : apps A) s a ka ch cmd n q d spare :
  ch < 4294967296 -> srv_inv s -> chan_lookup ch (srv_channels s) <> None ->
  srv_max s + 1 < hid_broadcast -> len d <= 7609 ->
  let o := handle_finalized h s a ka ch (mk_tresult ch cmd n q d spare) in
  step_facts s ch
    (match o_res o with
     | Ok _ => mk_outcome (srv_set (o_srv o) ch None) (o_app o) (o_packets o) (Ok tt)
     | Panic => o
     end).
Proof.
  intros Hch I Ho Hm Hd o.
  destruct (finalized_facts h s a ka ch cmd n q d spare Hch I Ho Hm Hd) as [H1 [H2 H3]].
  fold o in H1, H2, H3.
  destruct (o_res o) as [[]|] eqn:R.
  - destruct (H1 eq_refl) as (I' & k & Hk & Hmax & Hids & Hb & Hold).
    split; cbn [o_res o_srv o_packets]; try easy.
    intros _.
    assert (chan_lookup ch (srv_channels (o_srv o)) <> None) as Ho'.
    { apply (inv_open _ I'). apply (inv_open _ I) in Ho. rewrite Hmax. lia. }
    split; [now apply srv_inv_set|].
    exists k. cbn [srv_set srv_max srv_channels]. repeat split; auto.
    intros c Hc Hc'. rewrite chan_lookup_set_neq by auto. auto.
  - split; auto; rewrite R; easy.
Qed.

Lemma wfb_byte b l : wfb (b :: l) -> b < 256.
Proof. intro H. apply wfb_cons in H. tauto. Qed.

Lemma len_le4 ch l : len (le 4 ch ++ l) = 4 + len l.
Proof. rewrite len_app, le_len. reflexivity. Qed.

Lemma be2_split l : wfb l -> 2 <= len l -> exists n r, l = be 2 n ++ r /\ n < 65536.
Proof.
  intros W H. exists (be_dec (takeN 2 l)), (dropN 2 l).
  assert (len (takeN 2 l) = 2) as L by (rewrite takeN_len; lia).
  assert (length (takeN 2 l) = 2%nat) as L' by (rewrite length_len, L; reflexivity).
  split.
  - rewrite <- L', be_be_dec by auto with wf. symmetry. apply takeN_dropN.
  - eapply N.lt_le_trans; [apply be_dec_bound; auto with wf|]. rewrite L. reflexivity.
Qed.

Lemma channel_handle_done_eq {A} (h : apps A) s a ka ch cur m r :
  match cur with None => new_transaction m | Some t => add_message t m end
  = Ok (mk_txn true false 0 (Some r)) ->
  channel_handle h s a ka ch cur m =
  let o := handle_finalized h s a ka ch r in
  match o_res o with
  | Ok _ => mk_outcome (srv_set (o_srv o) ch None) (o_app o) (o_packets o) (Ok tt)
  | Panic => o
  end.
Proof.
  intro E. unfold channel_handle. rewrite E. cbn [t_done t_error t_cancelled t_result].
  change (negb (0 =? 0)) with false. reflexivity.
Qed.

Lemma panic_facts {A} s ch (a : A) : step_facts s ch (mk_outcome s a [] Panic).
Proof. split; cbn; try easy. Qed.

Lemma hid_handle_facts {A} (h : apps A) s a ka ch rest :
  srv_inv s -> srv_max s + 1 < hid_broadcast -> ch < 4294967296 ->
  report_ok (le 4 ch ++ rest) ->
  step_facts s ch (hid_handle h s a ka (le 4 ch ++ rest)).
Proof.
  intros I Hm Hch [W L].
  rewrite len_le4 in L. apply wfb_app in W as [_ W].
  unfold hid_handle. rewrite read_le_app by exact Hch.
  destruct (chan_lookup ch (srv_channels s)) as [cur|] eqn:Hl.
  2:{ rewrite hid_error_spec. split; cbn [o_res o_srv o_packets]; try easy.
      - intros _. split; auto. exists 0%nat. repeat split; auto; try lia.
        rewrite init_ids_other; auto. left. intros ->.
        assert (chan_lookup hid_broadcast (srv_channels s) <> None) as K
          by (apply (inv_open _ I); auto).
        auto.
      - apply spec_packets_chan. }
  assert (Ho : chan_lookup ch (srv_channels s) <> None) by (rewrite Hl; easy).
  assert (NoInit : forall c, init_ids (spec_packets ch 0xBF [c]) = []).
  { intro c. apply init_ids_other; auto. right. split; [easy|]. vm_compute. discriminate. }
  destruct rest as [|b rest].
  - rewrite app_nil_r. rewrite ch_tooshort; auto using panic_facts.
    destruct cur as [t|]; auto.
    destruct (inv_pending _ I ch t Hl) as (cmd & n & d & q & -> & _). eauto.
  - rewrite len_cons in L.
    assert (Hb : b < 256) by (eapply wfb_byte; eauto).
    apply wfb_cons in W as [_ W].
    destruct (N.eq_dec b 0x91) as [->|Hc].
    { destruct cur as [t|].
      - destruct (inv_pending _ I ch t Hl) as (cmd & n & d & q & -> & _).
        rewrite ch_some_cancel by auto. apply set_facts; auto.
      - rewrite ch_none_cancel by auto. apply set_facts; auto. }
    destruct cur as [t|].
    + destruct (inv_pending _ I ch t Hl)
        as (cmd & n & d & q & -> & Hd & Hn & Hcmd & Hcc & Hq & Hlen).
      destruct (N.lt_ge_cases b 128) as [B|B];
        [destruct (N.eq_dec b q) as [->|Bq]|].
      * pose proof (add_message_next ch cmd n d q rest Hch B) as Em. cbn [app] in Em.
        destruct (N.leb_spec n (len (d ++ rest))).
        -- rewrite (channel_handle_done_eq h s a ka ch (Some (partial_txn ch cmd n d q)) _ _ Em).
           apply finish_facts; auto. rewrite takeN_len, len_app in *. lia.
        -- rewrite (channel_handle_more h s a ka ch (Some (partial_txn ch cmd n d q)) _ _ Em eq_refl).
           apply set_facts; auto.
           exists cmd, n, (d ++ rest), (q + 1). rewrite len_app in *. repeat split; auto; lia.
      * rewrite ch_some_badseq; auto.
        apply set_facts; auto using spec_packets_chan.
      * rewrite ch_some_badseq; auto.
        apply set_facts; auto using spec_packets_chan.
    + destruct (N.lt_ge_cases b 128) as [B|B].
      * rewrite ch_none_notcmd by auto. apply set_facts; auto using spec_packets_chan.
      * destruct (N.lt_ge_cases (len rest) 2) as [R|R].
        -- rewrite ch_none_short; auto using panic_facts.
        -- destruct (be2_split rest W R) as (n & r & -> & Hn).
           pose proof (new_transaction_first ch b n r Hch (conj B Hb) Hc Hn) as Em.
           cbn [app] in Em.
           rewrite len_app, be_len in L.
           destruct (N.leb_spec n (len r)).
           ++ rewrite (channel_handle_done_eq h s a ka ch None _ _ Em).
              apply finish_facts; auto. rewrite takeN_len in *. lia.
           ++ rewrite (channel_handle_more h s a ka ch None _ _ Em eq_refl).
              apply set_facts; auto.
              exists b, n, r, 0. repeat split; auto; lia.
Qed.

(* ---- histories ---- *)

Lemma hid_handle_short {A} (h : apps A) s a ka m :
  len m < 4 -> hid_handle h s a ka m = mk_outcome s a [] Panic.
Proof.
  intro H. unfold hid_handle, read_le. now replace (len m <? N.of_nat 4) with true by lia.
Qed.

Lemma run_facts {A} (h : apps A) : forall ms s a,
  srv_inv s -> Forall (fun x => report_ok (snd x)) ms ->
  srv_max s + len ms < hid_broadcast ->
  let o := hid_run h s a ms in
  exists k, (k <= length ms)%nat /\ init_ids (o_packets o) = idrange (srv_max s) k /\
    (o_res o = Ok tt -> srv_inv (o_srv o) /\ srv_max (o_srv o) = srv_max s + N.of_nat k).
Proof.
  induction ms as [|[ka m] ms IH]; intros s a I F Hm.
  - exists 0%nat. cbn. repeat split; auto; try lia; apply I.
  - rewrite len_cons in Hm. inversion_clear F as [|? ? Fm F']. cbn [snd] in Fm.
    cbn [hid_run]. destruct (N.lt_ge_cases (len m) 4) as [S|S].
    { rewrite hid_handle_short by auto. cbn. exists 0%nat. repeat split; auto; try lia; easy. }
    destruct (msg_split m S (proj1 Fm)) as (ch & rest & -> & Hch).
    destruct (hid_handle_facts h s a ka ch rest I ltac:(lia) Hch Fm) as [H1 H2 _].
    destruct (o_res (hid_handle h s a ka (le 4 ch ++ rest))) as [[]|] eqn:R.
    + destruct (H1 eq_refl) as (I' & k & Hk & Hmax & Hids & _).
      destruct (IH (o_srv (hid_handle h s a ka (le 4 ch ++ rest)))
                   (o_app (hid_handle h s a ka (le 4 ch ++ rest))) I' F' ltac:(lia))
        as (k' & Hk' & Hids' & Hr').
      exists (k + k')%nat. cbn [o_srv o_app o_packets o_res length].
      split; [lia|]. split.
      * rewrite init_ids_app, Hids, Hids', idrange_app. now rewrite Hmax.
      * intro H. destruct (Hr' H) as [Ia Ib]. split; [exact Ia|]. rewrite Ib. lia.
    + exists 0%nat. cbn [length]. repeat split; try lia; auto; congruence.
Qed.

(* C05 *)
Lemma channel_ids_fresh {A} (h : apps A) a ms :
  Forall (fun x => report_ok (snd x)) ms -> len ms < 4294967295 ->
  let ids := init_ids (o_packets (hid_run h new_server a ms)) in
  NoDup ids /\ Forall (fun id => id <> 0 /\ id < 0xFFFFFFFF) ids.
Proof.
  intros F L.
  destruct (run_facts h ms new_server a new_server_inv F L) as (k & Hk & Hids & _).
  cbv zeta. rewrite Hids. split; [apply nodup_idrange|].
  apply Forall_forall. intros x Hx. apply in_idrange in Hx. unfold len in L.
  cbn [new_server srv_max] in Hx. lia.
Qed.

Lemma run_open {A} (h : apps A) a ms ch :
  Forall (fun x => report_ok (snd x)) ms -> len ms < 4294967295 ->
  let o := hid_run h new_server a ms in
  o_res o = Ok tt ->
  srv_inv (o_srv o) /\
  (chan_lookup ch (srv_channels (o_srv o)) <> None <->
   ch = hid_broadcast \/ In ch (init_ids (o_packets o))).
Proof.
  intros F L o R.
  destruct (run_facts h ms new_server a new_server_inv F L) as (k & Hk & Hids & Hr).
  fold o in Hids, Hr. destruct (Hr R) as [I Hmax]. split; auto.
  rewrite (inv_open _ I), Hids, in_idrange, Hmax. cbn [new_server srv_max]. lia.
Qed.

(* C06 *)
Lemma unallocated_refused {A} (h : apps A) a ms ch rest ka :
  Forall (fun x => report_ok (snd x)) ms -> len ms < 4294967295 ->
  let o := hid_run h new_server a ms in
  o_res o = Ok tt ->
  ch < 4294967296 -> ch <> 0xFFFFFFFF -> ~ In ch (init_ids (o_packets o)) ->
  hid_handle h (o_srv o) (o_app o) ka (le 4 ch ++ rest) =
  mk_outcome (o_srv o) (o_app o) [spec_packet ch 0xBF [0x0B] 0] (Ok tt).
Proof.
  intros F L o R Hch Hb Hn.
  destruct (run_open h a ms ch F L R) as [I Ho]. fold o in I, Ho.
  unfold hid_handle. rewrite read_le_app by exact Hch.
  destruct (chan_lookup ch (srv_channels (o_srv o))) as [c|] eqn:E.
  - exfalso. destruct Ho as [Ho _]. destruct (Ho ltac:(easy)); auto.
  - rewrite hid_error_spec. reflexivity.
Qed.

(* C08 *)
Definition chan_inv (s : server) : Prop :=
  forall k t, chan_lookup k (srv_channels s) = Some (Some t) ->
    match t_result t with Some r => tr_chan r = k | None => True end.

Lemma step_txn_chan s ch cur rest :
  ch < 4294967296 -> chan_inv s -> chan_lookup ch (srv_channels s) = Some cur ->
  forall t, match cur with
            | None => new_transaction (le 4 ch ++ rest)
            | Some t => add_message t (le 4 ch ++ rest)
            end = Ok t ->
  match t_result t with Some r => tr_chan r = ch | None => True end.
Proof.
  intros Hch P Hl t. destruct cur as [t0|].
  - specialize (P _ _ Hl). unfold add_message.
    destruct (t_done t0); [intros [= <-]; exact Logic.I|].
    rewrite read_le_app by exact Hch. cbn [rbind].
    destruct (t_result t0) as [r|]; [|easy].
    destruct (negb (ch =? tr_chan r)); [intros [= <-]; exact Logic.I|].
    destruct (read_le 1 rest) as [[sq buf]|]; cbn [rbind]; [|easy].
    destruct (sq =? cmd_cancel); [intros [= <-]; exact Logic.I|].
    destruct (negb (N.land sq 128 =? 0)); [intros [= <-]; exact Logic.I|].
    destruct (negb (sq =? tr_seq r)); [intros [= <-]; exact Logic.I|].
    destruct (tr_plen r <=? len (tr_payload r ++ buf)); intros [= <-]; cbn; auto.
  - unfold new_transaction. rewrite read_le_app by exact Hch. cbn [rbind].
    destruct (read_le 1 rest) as [[c buf]|]; cbn [rbind]; [|easy].
    destruct (N.land c 128 =? 0); [intros [= <-]; exact Logic.I|].
    destruct (c =? cmd_cancel); [intros [= <-]; exact Logic.I|].
    destruct (read_be 2 buf) as [[n buf']|]; cbn [rbind]; [|easy].
    destruct (n <=? len buf'); intros [= <-]; reflexivity.
Qed.

Lemma chan_inv_set s ch v : chan_inv s ->
  match v with
  | Some t => match t_result t with Some r => tr_chan r = ch | None => True end
  | None => True
  end -> chan_inv (srv_set s ch v).
Proof.
  intros P Hv k t. cbn [srv_set srv_channels]. destruct (N.eq_dec ch k) as [<-|E].
  - rewrite chan_lookup_set_eq. now intros [= ->].
  - rewrite chan_lookup_set_neq by auto. apply P.
Qed.

Lemma finalized_chan_inv {A} (h : apps A) s a ka ch r :
  chan_inv s -> chan_inv (o_srv (handle_finalized h s a ka ch r)).
Proof.
  intro P. unfold handle_finalized, handle_broadcast, handle_data.
  destruct (ch =? hid_broadcast).
  - destruct (tr_cmd r =? cmd_init); [|destruct (tr_cmd r =? cmd_ping); exact P].
    assert (chan_inv (fst (new_channel s))) as Q.
    { apply (chan_inv_set s ((srv_max s + 1) mod 4294967296) None P Logic.I). }
    destruct (new_channel s) as [s' id]. destruct (_ <? 8); exact Q.
  - destruct (tr_cmd r =? cmd_msg); [destruct (app_u2f h a (tr_payload r)) as [? [?|]]; exact P|].
    destruct (tr_cmd r =? cmd_cbor); [destruct (app_ctap h a (tr_payload r)) as [? [?|]]; exact P|].
    destruct (tr_cmd r =? cmd_ping); exact P.
Qed.

Lemma handle_chan_inv {A} (h : apps A) s a ka m :
  wfb m -> chan_inv s -> chan_inv (o_srv (hid_handle h s a ka m)).
Proof.
  intros W P.
  destruct (N.lt_ge_cases (len m) 4) as [S|S].
  { rewrite hid_handle_short by auto. exact P. }
  destruct (msg_split m S W) as (ch & rest & -> & Hch).
  unfold hid_handle. rewrite read_le_app by exact Hch.
  destruct (chan_lookup ch (srv_channels s)) as [cur|] eqn:Hl; [|exact P].
  unfold channel_handle.
  pose proof (step_txn_chan s ch cur rest Hch P Hl) as Hr.
  set (t' := match cur with Some t => _ | None => _ end) in *.
  destruct t' as [t|]; [|exact P]. specialize (Hr t eq_refl).
  destruct (t_done t); [|now apply chan_inv_set].
  set (o := if negb (t_error t =? 0) then _ else _).
  assert (chan_inv (o_srv o)) as Q.
  { unfold o. destruct (negb (t_error t =? 0)); [exact P|].
    destruct (t_cancelled t); [exact P|]. destruct (t_result t); [|exact P].
    now apply finalized_chan_inv. }
  destruct (o_res o); [now apply chan_inv_set | exact Q].
Qed.

Lemma run_chan_inv {A} (h : apps A) : forall ms s a,
  Forall (fun x => wfb (snd x)) ms -> chan_inv s -> chan_inv (o_srv (hid_run h s a ms)).
Proof.
  induction ms as [|[ka m] ms IH]; intros s a F P; [exact P|].
  inversion_clear F as [|? ? Fm F']. cbn [snd] in Fm. cbn [hid_run].
  pose proof (handle_chan_inv h s a ka m Fm P).
  destruct (o_res (hid_handle h s a ka m)); auto. cbn [o_srv]. now apply IH.
Qed.

Lemma new_server_chan_inv : chan_inv new_server.
Proof. intros k t. cbn. destruct (_ =? k); easy. Qed.

Lemma all_on_channel {A} (h : apps A) s a ka m :
  wfb m -> chan_inv s ->
  Forall (fun p => takeN 4 p = takeN 4 m) (o_packets (hid_handle h s a ka m)).
Proof.
  intros W P.
  destruct (N.lt_ge_cases (len m) 4) as [S|S].
  { rewrite hid_handle_short by auto. constructor. }
  destruct (msg_split m S W) as (ch & rest & -> & Hch).
  rewrite takeN_exact by apply le_len.
  unfold hid_handle. rewrite read_le_app by exact Hch.
  destruct (chan_lookup ch (srv_channels s)) as [cur|] eqn:Hl;
    [|rewrite hid_error_spec; apply spec_packets_chan].
  unfold channel_handle.
  pose proof (step_txn_chan s ch cur rest Hch P Hl) as Hr.
  set (t' := match cur with Some t => _ | None => _ end) in *.
  destruct t' as [t|]; [|constructor].
  specialize (Hr t eq_refl).
  destruct (t_done t); [|constructor].
  assert (F : forall o : outcome A, Forall (fun p => takeN 4 p = le 4 ch) (o_packets o) ->
    Forall (fun p => takeN 4 p = le 4 ch) (o_packets
      match o_res o with
      | Ok _ => mk_outcome (srv_set (o_srv o) ch None) (o_app o) (o_packets o) (Ok tt)
      | Panic => o end)) by (intros o Ho; destruct (o_res o); auto).
  apply F.
  destruct (negb (t_error t =? 0)); [cbn [o_packets]; rewrite hid_error_spec; apply spec_packets_chan|].
  destruct (t_cancelled t); [constructor|].
  destruct (t_result t) as [r|]; [|constructor].
  unfold handle_finalized. destruct (N.eqb_spec ch hid_broadcast) as [E|E].
  - unfold handle_broadcast. destruct (tr_cmd r =? cmd_init).
    + destruct (new_channel s). destruct (_ <? 8); [constructor|].
      cbn [o_packets]. rewrite create_response_packets_spec by (vm_compute; reflexivity).
      rewrite E. apply spec_packets_chan.
    + destruct (tr_cmd r =? cmd_ping); [|constructor].
      cbn [o_packets]. rewrite create_response_packets_spec by (vm_compute; reflexivity).
      rewrite E. apply spec_packets_chan.
  - assert (K : Forall (fun p => takeN 4 p = le 4 ch) (concat (repeat (keepalive ch) ka))).
    { induction ka; cbn [repeat concat]; [constructor|]. apply Forall_app. split; auto.
      unfold keepalive. rewrite create_response_packets_spec by (vm_compute; reflexivity).
      apply spec_packets_chan. }
    unfold handle_data. rewrite Hr.
    destruct (tr_cmd r =? cmd_msg).
    { destruct (app_u2f h a (tr_payload r)) as [a' [x|]]; cbn [o_packets]; [|constructor].
      rewrite create_response_packets_spec by (vm_compute; reflexivity). apply spec_packets_chan. }
    destruct (tr_cmd r =? cmd_cbor).
    { destruct (app_ctap h a (tr_payload r)) as [a' [x|]]; cbn [o_packets]; [|auto].
      apply Forall_app. split; auto.
      rewrite create_response_packets_spec by (vm_compute; reflexivity). apply spec_packets_chan. }
    destruct (tr_cmd r =? cmd_ping); [|constructor].
    cbn [o_packets]. rewrite create_response_packets_spec by (vm_compute; reflexivity).
    apply spec_packets_chan.
Qed.
