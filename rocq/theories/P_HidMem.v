(* Proofs about the memory of the CTAPHID server (C156). *)
From Verif Require Import Base M_Util M_Hid S_Hid P_Hid1 P_Hid2 P_Hid3 P_Hid4 S_HidMem.
Open Scope N_scope.

Definition keys (s : server) : list N := map fst (srv_channels s).

Lemma keys_set k v l : (In k (map fst l) -> map fst (chan_set k v l) = map fst l) /\
  (~ In k (map fst l) -> map fst (chan_set k v l) = map fst l ++ [k]).
Proof.
  induction l as [|[k' v'] l [H1 H2]]; cbn [map fst chan_set In app].
  - split; easy.
  - destruct (N.eqb_spec k' k) as [->|E]; cbn [map fst app]; split; intro H; auto.
    + exfalso; auto.
    + rewrite H1; auto. destruct H; congruence.
    + rewrite H2; auto.
Qed.

Lemma nodup_set k v l : NoDup (map fst l) -> NoDup (map fst (chan_set k v l)).
Proof.
  intro D. destruct (keys_set k v l) as [H1 H2].
  destruct (in_dec N.eq_dec k (map fst l)) as [I|I].
  - now rewrite H1.
  - rewrite H2 by auto. apply (NoDup_Add (a := k) (l := map fst l)); [|auto].
    rewrite <- (app_nil_r (map fst l)) at 1. apply Add_app.
Qed.

Lemma nodup_srv_set s k v : NoDup (keys s) -> NoDup (keys (srv_set s k v)).
Proof. apply nodup_set. Qed.

Lemma nodup_finalized {A} (h : apps A) s a ka ch r : NoDup (keys s) -> NoDup (keys (o_srv (handle_finalized h s a ka ch r))).
Proof.
  intro D. unfold handle_finalized, handle_broadcast, handle_data.
  destruct (ch =? hid_broadcast).
  - destruct (tr_cmd r =? cmd_init).
    + cbn [new_channel]. destruct (len (tr_payload r ++ tr_spare r) <? 8); cbn [o_srv]; now apply nodup_set.
    + destruct (tr_cmd r =? cmd_ping); exact D.
  - destruct (tr_cmd r =? cmd_msg); [destruct (app_u2f h a (tr_payload r)) as [? []]; exact D|].
    destruct (tr_cmd r =? cmd_cbor); [destruct (app_ctap h a (tr_payload r)) as [? []]; exact D|].
    destruct (tr_cmd r =? cmd_ping); exact D.
Qed.

Lemma nodup_handle {A} (h : apps A) s a ka m : NoDup (keys s) -> NoDup (keys (o_srv (hid_handle h s a ka m))).
Proof.
  intro D. unfold hid_handle. destruct (read_le 4 m) as [[ch b]|]; [|exact D].
  destruct (chan_lookup ch (srv_channels s)) as [cur|]; [|exact D].
  unfold channel_handle. destruct (match cur with None => new_transaction m | Some t => add_message t m end) as [t|]; [|exact D].
  destruct (t_done t); [|now apply nodup_srv_set].
  destruct (negb (t_error t =? 0)); [now apply nodup_srv_set|].
  destruct (t_cancelled t); [now apply nodup_srv_set|].
  destruct (t_result t) as [r|]; [|exact D].
  pose proof (nodup_finalized h s a ka ch r D) as D'. cbv zeta.
  destruct (o_res (handle_finalized h s a ka ch r)); [now apply nodup_srv_set|exact D'].
Qed.

Lemma nodup_run {A} (h : apps A) : forall ms s a, NoDup (keys s) -> NoDup (keys (o_srv (hid_run h s a ms))).
Proof.
  induction ms as [|[ka m] ms IH]; intros s a D; [exact D|]. cbn [hid_run].
  pose proof (nodup_handle h s a ka m D) as D'.
  destruct (o_res (hid_handle h s a ka m)); [cbn [o_srv]; now apply IH|exact D'].
Qed.

Lemma lookup_key k l : chan_lookup k l <> None <-> In k (map fst l).
Proof.
  induction l as [|[k' v] l IH]; cbn [chan_lookup map fst In]; [easy|].
  destruct (N.eqb_spec k' k) as [->|E].
  - split; [now left|easy].
  - rewrite IH. split; [now right|]. intros [H|H]; congruence.
Qed.

Lemma lookup_in l : NoDup (map fst l) -> forall k v, In (k, v) l -> chan_lookup k l = Some v.
Proof.
  induction l as [|[k' v'] l IH]; intros D k v H; [easy|]. cbn [map fst] in D. inversion_clear D as [|? ? D1 D2].
  cbn [chan_lookup]. destruct H as [[= -> ->]|H].
  - now rewrite N.eqb_refl.
  - destruct (N.eqb_spec k' k) as [->|E]; [|now apply IH].
    exfalso. apply D1. change k with (fst (k, v)). now apply in_map.
Qed.

Lemma pending_kept k t : pending_ok k t -> kept_by (Some t) <= 7609 /\ kept_by (Some t) < 65535.
Proof. intros (cmd & n & d & q & -> & H). cbn. lia. Qed.

Lemma kept_bound l : (forall k v, In (k, v) l -> kept_by v <= 7609) -> kept l <= 7609 * len l.
Proof.
  induction l as [|[k v] l IH]; intro H; [cbn; lia|]. cbn [kept]. rewrite len_cons.
  pose proof (H k v (or_introl eq_refl)). assert (kept l <= 7609 * len l) by (apply IH; intros k' v' I; apply (H k'); now right). lia.
Qed.

Lemma all_kept {A} (h : apps A) a ms : Forall (fun x => report_ok (snd x)) ms -> len ms < 4294967295 ->
  let o := hid_run h new_server a ms in o_res o = Ok tt ->
  (forall ch v, In (ch, v) (srv_channels (o_srv o)) -> kept_by v <= 7609) /\
  len (srv_channels (o_srv o)) = 1 + len (init_ids (o_packets o)) /\ len (init_ids (o_packets o)) <= len ms /\
  kept (srv_channels (o_srv o)) <= 7609 * (1 + len (init_ids (o_packets o))).
Proof.
  intros F L o R.
  assert (NoDup (keys (o_srv o))) as D by (apply nodup_run; repeat constructor; easy).
  destruct (run_facts h ms new_server a new_server_inv F L) as (k & Hk & Hids & Hr).
  fold o in Hids, Hr. destruct (Hr R) as [I Hmax]. cbn [new_server srv_max] in *.
  assert (forall ch v, In (ch, v) (srv_channels (o_srv o)) -> kept_by v <= 7609) as B.
  { intros ch [t|] H; [|cbn; lia]. apply (pending_kept ch t). apply (inv_pending _ I). now apply lookup_in. }
  assert (length (srv_channels (o_srv o)) = S k) as S.
  { rewrite <- (map_length fst). change (length (keys (o_srv o)) = S k).
    replace (S k) with (length (hid_broadcast :: idrange 0 k)) by (cbn [length]; unfold idrange; rewrite map_length, seq_length; reflexivity).
    assert (forall x, In x (keys (o_srv o)) <-> In x (hid_broadcast :: idrange 0 k)) as X.
    { intro x. unfold keys. rewrite <- lookup_key, (inv_open _ I). cbn [In]. rewrite in_idrange, Hmax.
      split; intros [H|H]; auto; right; lia. }
    assert (NoDup (hid_broadcast :: idrange 0 k)) as D2.
    { constructor; [|apply nodup_idrange]. rewrite in_idrange. pose proof (inv_max _ I). lia. }
    apply Nat.le_antisymm; apply NoDup_incl_length; auto; intros x H; now apply X. }
  assert (len (init_ids (o_packets o)) = N.of_nat k) as K.
  { rewrite Hids. unfold len, idrange. now rewrite map_length, seq_length. }
  assert (len (srv_channels (o_srv o)) = 1 + N.of_nat k) as L' by (unfold len; rewrite S; lia).
  split; [exact B|]. rewrite K. split; [exact L'|]. split; [unfold len; lia|].
  rewrite <- L'. now apply kept_bound.
Qed.

(* ---- what the applications get ---- *)
Lemma Ok_inj {A} (x y : A) : Ok x = Ok y -> x = y.
Proof. now intros [= ->]. Qed.

Lemma payload_bound k cur m t r : report_ok m -> match cur with None => True | Some c => pending_ok k c end ->
  match cur with None => new_transaction m | Some c => add_message c m end = Ok t -> t_result t = Some r ->
  len (tr_payload r) <= 7609.
Proof.
  intros [W L] P E R.
  destruct (N.lt_ge_cases (len m) 4) as [S4|S4].
  { exfalso. assert (read_le 4 m = Panic) as Q by (unfold read_le; now replace (len m <? N.of_nat 4) with true by lia).
    destruct cur as [c|]; [|unfold new_transaction in E; rewrite Q in E; discriminate E].
    destruct P as (cmd & n & d & q & -> & P). unfold add_message, partial_txn in E. cbn [t_done] in E. rewrite Q in E. discriminate E. }
  destruct (msg_split m S4 W) as (ch & rest & -> & Hch).
  rewrite len_app, le_len in L. apply wfb_app in W as [_ W].
  destruct cur as [c|].
  - destruct P as (cmd & n & d & q & -> & P1 & P2 & P3 & P4 & P5 & P6).
    unfold add_message, partial_txn in E. cbn [t_done t_result] in E.
    rewrite read_le_app in E by exact Hch. cbn [rbind tr_chan] in E.
    destruct (negb (ch =? k)); [apply Ok_inj in E; subst t; discriminate R|].
    destruct rest as [|sq rest]; [discriminate E|]. rewrite read_le_1 in E. cbn [rbind] in E.
    destruct (sq =? cmd_cancel); [apply Ok_inj in E; subst t; discriminate R|].
    apply wfb_cons in W as [sb _]. rewrite len_cons in L.
    rewrite land128 in E by exact sb. destruct (N.ltb_spec sq 128) as [S1|S1]; cbn [negb] in E; [|apply Ok_inj in E; subst t; discriminate R].
    cbn [tr_seq] in E. destruct (N.eqb_spec sq q) as [S2|S2]; cbn [negb] in E; [|apply Ok_inj in E; subst t; discriminate R].
    cbn [tr_payload tr_plen] in E.
    assert (len (d ++ rest) <= 7609) as B by (rewrite len_app; lia).
    destruct (n <=? len (d ++ rest)) eqn:C; apply Ok_inj in E; subst t; cbn [t_result] in R; injection R as <-; cbn [tr_payload].
    + rewrite takeN_len. lia.
    + exact B.
  - unfold new_transaction in E. rewrite read_le_app in E by exact Hch. cbn [rbind] in E.
    destruct rest as [|b rest]; [discriminate E|]. rewrite read_le_1 in E. cbn [rbind] in E. rewrite len_cons in L.
    destruct (N.land b 128 =? 0); [apply Ok_inj in E; subst t; discriminate R|].
    destruct (b =? cmd_cancel); [apply Ok_inj in E; subst t; discriminate R|].
    unfold read_be in E. destruct (len rest <? N.of_nat 2); [discriminate E|]. cbn [rbind] in E.
    assert (len (skipn 2 rest) <= 64) as B by (unfold len in *; rewrite skipn_length; lia).
    destruct (_ <=? len (skipn 2 rest)); apply Ok_inj in E; subst t; cbn [t_result] in R; injection R as <-; cbn [tr_payload]; [rewrite takeN_len; etransitivity; [apply N.le_min_r|]|]; (etransitivity; [exact B|discriminate]).
Qed.

Lemma same_finalized {A} (h h' : apps A) s a ka ch r : same_up_to 7609 h h' -> len (tr_payload r) <= 7609 ->
  handle_finalized h s a ka ch r = handle_finalized h' s a ka ch r.
Proof.
  intros S L. unfold handle_finalized, handle_data. destruct (S a (tr_payload r) L) as [-> ->]. reflexivity.
Qed.

Lemma same_handle {A} (h h' : apps A) s a ka m : same_up_to 7609 h h' -> srv_inv s -> report_ok m ->
  hid_handle h s a ka m = hid_handle h' s a ka m.
Proof.
  intros S I Rm. unfold hid_handle. destruct (read_le 4 m) as [[ch b]|]; [|reflexivity].
  destruct (chan_lookup ch (srv_channels s)) as [cur|] eqn:Lk; [|reflexivity].
  unfold channel_handle.
  destruct (match cur with None => new_transaction m | Some t => add_message t m end) as [t|] eqn:E; [|reflexivity].
  destruct (t_done t); [|reflexivity].
  destruct (t_result t) as [r|] eqn:Rt; [|reflexivity].
  rewrite (same_finalized h h' s a ka ch r S); [reflexivity|].
  apply (payload_bound ch cur m t r Rm); auto. destruct cur; [|easy]. now apply (inv_pending _ I).
Qed.

Lemma same_run {A} (h h' : apps A) : same_up_to 7609 h h' -> forall ms s a,
  srv_inv s -> Forall (fun x => report_ok (snd x)) ms -> srv_max s + len ms < hid_broadcast ->
  hid_run h s a ms = hid_run h' s a ms.
Proof.
  intros S ms. induction ms as [|[ka m] ms IH]; intros s a I F Hm; [reflexivity|].
  rewrite len_cons in Hm. inversion_clear F as [|? ? Fm F']. cbn [snd] in Fm. cbn [hid_run].
  rewrite <- (same_handle h h' s a ka m S I Fm).
  destruct (o_res (hid_handle h s a ka m)) as [[]|] eqn:R; [|reflexivity].
  destruct (N.lt_ge_cases (len m) 4) as [Sh|Sh].
  { rewrite hid_handle_short in R by auto. discriminate R. }
  destruct (msg_split m Sh (proj1 Fm)) as (ch & rest & -> & Hch).
  destruct (hid_handle_facts h s a ka ch rest I ltac:(lia) Hch Fm) as [H1 _ _].
  destruct (H1 R) as (I' & k & Hk & Hmax & _).
  rewrite (IH _ _ I' F') by lia. reflexivity.
Qed.

(* ---- many channels ---- *)
Lemma kept_set k v w : forall l, chan_lookup k l = Some v -> kept (chan_set k w l) + kept_by v = kept l + kept_by w.
Proof.
  induction l as [|[k' v'] l IH]; cbn [chan_lookup chan_set kept]; [easy|].
  destruct (k' =? k); cbn [kept]; [intros [= ->]; lia|]. intro H. specialize (IH H). lia.
Qed.
Lemma kept_new k w : forall l, chan_lookup k l = None -> kept (chan_set k w l) = kept l + kept_by w.
Proof.
  induction l as [|[k' v'] l IH]; cbn [chan_lookup chan_set kept]; [lia|].
  destruct (k' =? k); cbn [kept]; [easy|]. intro H. rewrite IH by auto. lia.
Qed.

Definition filler : list bytes := repeat (zeros 59) 128.
Definition hold (id : N) : list bytes :=
  (le 4 0xFFFFFFFF ++ [0x86] ++ be 2 8 ++ zeros 8 ++ zeros 49) :: host_request id 0x90 65535 (zeros 57) filler.
Fixpoint hold_all (id : N) (n : nat) : list bytes :=
  match n with O => [] | S n => hold id ++ hold_all (id + 1) n end.

Lemma init_state {A} (h : apps A) s a ka : srv_inv s -> srv_max s + 1 < hid_broadcast -> idle s hid_broadcast ->
  hid_handle h s a ka (le 4 0xFFFFFFFF ++ [0x86] ++ be 2 8 ++ zeros 8 ++ zeros 49) =
  mk_outcome (srv_set (fst (new_channel s)) 0xFFFFFFFF None) a
    (spec_packets 0xFFFFFFFF 0x86 (zeros 8 ++ le 4 (srv_max s + 1) ++ [2; 0; 0; 1; 4])) (Ok tt).
Proof.
  intros I Hm Hi. destruct (new_channel_inv s I Hm) as (I' & Hid & Hmax & Hnew & Hold).
  rewrite (hid_handle_open h s a ka 0xFFFFFFFF _ None) by (auto; reflexivity).
  pose proof (new_transaction_first 0xFFFFFFFF 0x86 8 (zeros 8 ++ zeros 49) ltac:(reflexivity)
    ltac:(lia) ltac:(easy) ltac:(reflexivity)) as Em.
  replace (8 <=? len (zeros 8 ++ zeros 49)) with true in Em by reflexivity.
  rewrite (channel_handle_done_eq h s a ka _ None _ _ Em).
  unfold handle_finalized. change (4294967295 =? hid_broadcast) with true. cbv iota.
  unfold handle_broadcast. cbn [tr_cmd tr_payload tr_spare].
  change (134 =? cmd_init) with true. cbv iota.
  destruct (new_channel s) as [s' id]. cbn [fst snd] in *. subst id.
  rewrite takeN_dropN. replace (len (zeros 8 ++ zeros 49) <? 8) with false by reflexivity.
  cbv zeta. cbn [o_res o_srv o_app o_packets].
  rewrite create_response_packets_spec by (vm_compute; reflexivity).
  now rewrite takeN_exact by auto.
Qed.

Lemma filler_len : len (concat filler) = 7552.
Proof. vm_compute. reflexivity. Qed.

Lemma hold_step {A} (h : apps A) s a kas : srv_inv s -> srv_max s + 1 < hid_broadcast -> idle s hid_broadcast ->
  length kas = 130%nat ->
  let o := hid_run h s a (combine kas (hold (srv_max s + 1))) in
  o_res o = Ok tt /\ o_app o = a /\ srv_inv (o_srv o) /\ srv_max (o_srv o) = srv_max s + 1 /\ idle (o_srv o) hid_broadcast /\
  kept (srv_channels (o_srv o)) = kept (srv_channels s) + 7609.
Proof.
  intros I Hm Hi Hk. destruct kas as [|ka kas]; [discriminate|].
  destruct (new_channel_inv s I Hm) as (I' & Hid & Hmax & Hnew & Hold).
  unfold hold. cbn [combine hid_run]. rewrite (init_state h s a ka I Hm Hi). cbn [o_res o_srv o_app o_packets].
  set (s1 := fst (new_channel s)) in *. unfold hid_broadcast in *.
  assert (chan_lookup (srv_max s + 1) (srv_channels s) = None) as Hf.
  { destruct (chan_lookup (srv_max s + 1) (srv_channels s)) eqn:K; auto. exfalso.
    assert (chan_lookup (srv_max s + 1) (srv_channels s) <> None) as K' by (rewrite K; easy).
    apply (inv_open _ I) in K'. unfold hid_broadcast in K'. lia. }
  assert (chan_lookup 4294967295 (srv_channels s1) = Some None) as Hb by (rewrite Hold by lia; exact Hi).
  rewrite (srv_set_same s1 4294967295 None Hb).
  rewrite (request_silent h s1 a (srv_max s + 1) 0x90 65535 (zeros 57) filler kas);
    [|lia|lia|easy|reflexivity|exact Hnew|vm_compute; discriminate| |rewrite filler_len; reflexivity].
  2:{ unfold filler. rewrite repeat_length. cbn [length] in Hk. lia. }
  cbn [o_res o_srv o_app o_packets].
  set (t := partial_txn (srv_max s + 1) 144 65535 (zeros 57 ++ concat filler) (len filler)).
  assert (len (zeros 57 ++ concat filler) = 7609) as L by (rewrite len_app, filler_len; reflexivity).
  assert (pending_ok (srv_max s + 1) t) as P.
  { exists 144, 65535, (zeros 57 ++ concat filler), (len filler). rewrite L.
    change (len filler) with 128. repeat split; try reflexivity; try discriminate; lia. }
  repeat split.
  - apply (srv_inv_set s1 (srv_max s + 1) (Some t) I'); [rewrite Hnew; discriminate|exact P].
  - apply (srv_inv_set s1 (srv_max s + 1) (Some t) I'); [rewrite Hnew; discriminate|exact P].
  - apply (srv_inv_set s1 (srv_max s + 1) (Some t) I'); [rewrite Hnew; discriminate|exact P].
  - apply (srv_inv_set s1 (srv_max s + 1) (Some t) I'); [rewrite Hnew; discriminate|exact P].
  - exact Hmax.
  - unfold idle. cbn [srv_set srv_channels]. rewrite chan_lookup_set_neq by lia. exact Hb.
  - cbn [srv_set srv_channels]. pose proof (kept_set (srv_max s + 1) None (Some t) _ Hnew) as K1.
    assert (kept (srv_channels s1) = kept (srv_channels s)) as K2.
    { unfold s1, new_channel. cbn [fst srv_channels]. replace ((srv_max s + 1) mod 4294967296) with (srv_max s + 1) by lia.
      rewrite kept_new by exact Hf. cbn. lia. }
    assert (kept_by (Some t) = 7609) as K3 by exact L. rewrite K3 in K1. change (kept_by None) with 0 in K1. change (kept (chan_set (srv_max s + 1) (Some t) (srv_channels s1)) = kept (srv_channels s) + 7609). clear - K1 K2. lia.
Qed.

Lemma hold_len id : length (hold id) = 130%nat.
Proof. reflexivity. Qed.

Lemma report_hold id : id < 4294967296 -> Forall report_ok (hold id).
Proof.
  intro H. unfold hold, host_request. constructor; [split; [repeat constructor|vm_compute; discriminate]|].
  constructor.
  - split.
    + apply Forall_app. split; [apply le_wf|repeat constructor].
    + rewrite len_app, le_len. vm_compute. discriminate.
  - assert (forall n i, i + N.of_nat n <= 128 -> Forall report_ok (host_continuations id i (repeat (zeros 59) n))) as G.
    { induction n as [|n IH]; intros i Hi; cbn [repeat host_continuations]; [constructor|].
      constructor; [|apply IH; lia]. split.
      - apply Forall_app. split; [apply le_wf|]. apply wfb_cons. split; [lia|]. apply wfb_zeros.
      - rewrite len_app, le_len. cbn [app]. rewrite len_cons. vm_compute. discriminate. }
    apply (G 128%nat 0). vm_compute. discriminate.
Qed.

Lemma hold_run {A} (h : apps A) : forall n s a, srv_inv s -> srv_max s + N.of_nat n < hid_broadcast -> idle s hid_broadcast ->
  let o := hid_run h s a (combine (repeat 0%nat (130 * n)) (hold_all (srv_max s + 1) n)) in
  o_res o = Ok tt /\ kept (srv_channels (o_srv o)) = kept (srv_channels s) + 7609 * N.of_nat n.
Proof.
  induction n as [|n IH]; intros s a I Hm Hi o.
  - unfold o. cbn. split; [reflexivity|lia].
  - unfold o. cbn [hold_all]. replace (130 * S n)%nat with (130 + 130 * n)%nat by lia. rewrite repeat_app.
    assert (forall (l1 : list nat) l2 (m1 : list bytes) m2, length l1 = length m1 -> combine (l1 ++ l2) (m1 ++ m2) = combine l1 m1 ++ combine l2 m2) as C.
    { induction l1 as [|x l1 IHl]; intros l2 [|y m1] m2 E; try discriminate E; [reflexivity|]. cbn [app combine]. f_equal. apply IHl. now injection E. }
    rewrite C by (rewrite hold_len; apply repeat_length). rewrite hid_run_app.
    destruct (hold_step h s a (repeat 0%nat 130) I ltac:(lia) Hi (repeat_length _ _)) as (R1 & R2 & R3 & R4 & R5 & R6).
    cbv zeta. rewrite R1. cbn [o_res o_srv].
    rewrite <- R4.
    destruct (IH (o_srv (hid_run h s a (combine (repeat 0%nat 130) (hold (srv_max s + 1)))))
                 (o_app (hid_run h s a (combine (repeat 0%nat 130) (hold (srv_max s + 1))))) R3 ltac:(rewrite R4; lia) R5) as (Q1 & Q2).
    rewrite R4 in *. split; [exact Q1|]. rewrite Q2, R6. lia.
Qed.

Lemma hold_all_len : forall n id, length (hold_all id n) = (130 * n)%nat.
Proof.
  induction n as [|n IH]; intro id; [reflexivity|]. cbn [hold_all]. rewrite app_length, IH, hold_len. lia.
Qed.

Lemma held {A} (h : apps A) a n : n < 4294967295 -> exists ms, Forall (fun x => report_ok (snd x)) ms /\ len ms = 130 * n /\
  let o := hid_run h new_server a ms in o_res o = Ok tt /\ kept (srv_channels (o_srv o)) = 7609 * n.
Proof.
  intro B. exists (combine (repeat 0%nat (130 * N.to_nat n)) (hold_all 1 (N.to_nat n))).
  assert (forall k id, id + N.of_nat k <= 4294967296 -> Forall report_ok (hold_all id k)) as G.
  { induction k as [|k IH]; intros id H; cbn [hold_all]; [constructor|]. apply Forall_app. split; [apply report_hold; lia|apply IH; lia]. }
  split; [|split].
  - specialize (G (N.to_nat n) 1 ltac:(lia)). apply Forall_forall. intros [x m] Hx. apply in_combine_r in Hx.
    exact (proj1 (Forall_forall _ _) G m Hx).
  - unfold len. rewrite combine_length, repeat_length, hold_all_len. lia.
  - destruct (hold_run h (N.to_nat n) new_server a new_server_inv ltac:(cbn [new_server srv_max]; unfold hid_broadcast; lia) eq_refl) as (R1 & R2).
    split; [exact R1|]. etransitivity; [exact R2|]. cbn [new_server srv_channels kept kept_by]. lia.
Qed.
