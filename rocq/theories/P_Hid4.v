(* Proofs about the CTAPHID server: C05 (INIT reply), C07, C09, C10, C11. *)
From Verif Require Import Base M_Util M_Hid S_Hid P_Hid1 P_Hid2 P_Hid3.

Definition idle (s : server) (ch : N) : Prop := chan_lookup ch (srv_channels s) = Some None.

(* ---- C05: the reply to INIT ---- *)

Lemma init_reply_id {A} (h : apps A) s a ka nonce junk :
  srv_inv s -> srv_max s + 1 < hid_broadcast -> idle s hid_broadcast -> len nonce = 8 ->
  let o := hid_handle h s a ka (le 4 0xFFFFFFFF ++ [0x86] ++ be 2 8 ++ nonce ++ junk) in
  let id := srv_max s + 1 in
    o_packets o = spec_packets 0xFFFFFFFF 0x86 (nonce ++ le 4 id ++ [2; 0; 0; 1; 4]) /\
    o_res o = Ok tt /\ o_app o = a /\
    chan_lookup id (srv_channels s) = None /\ id <> 0xFFFFFFFF /\ id <> 0 /\
    idle (o_srv o) id /\ idle (o_srv o) 0xFFFFFFFF.
Proof.
  intros I Hm Hi Hn o id. unfold id in *. clear id.
  destruct (new_channel_inv s I Hm) as (I' & Hid & Hmax & Hnew & Hold).
  assert (o = mk_outcome (srv_set (fst (new_channel s)) 0xFFFFFFFF None) a
    (spec_packets 0xFFFFFFFF 0x86 (nonce ++ le 4 (srv_max s + 1) ++ [2; 0; 0; 1; 4])) (Ok tt)) as E.
  { unfold o. rewrite (hid_handle_open h s a ka 0xFFFFFFFF _ None) by (auto; reflexivity).
    pose proof (new_transaction_first 0xFFFFFFFF 0x86 8 (nonce ++ junk) ltac:(reflexivity)
      ltac:(lia) ltac:(easy) ltac:(reflexivity)) as Em.
    replace (8 <=? len (nonce ++ junk)) with true in Em by (rewrite len_app; lia).
    rewrite (channel_handle_done_eq h s a ka _ None _ _ Em).
    { unfold handle_finalized. change (4294967295 =? hid_broadcast) with true. cbv iota.
      unfold handle_broadcast. cbn [tr_cmd tr_payload tr_spare].
      change (134 =? cmd_init) with true. cbv iota.
      destruct (new_channel s) as [s' id]. cbn [fst snd] in *. subst id.
      rewrite takeN_dropN.
      replace (len (nonce ++ junk) <? 8) with false by (rewrite len_app; lia).
      cbv zeta. cbn [o_res o_srv o_app o_packets].
      rewrite create_response_packets_spec by (vm_compute; reflexivity).
      now rewrite takeN_exact by auto. } }
  rewrite E. unfold idle, hid_broadcast in *. cbn [o_packets o_res o_app o_srv srv_set srv_channels].
  repeat split; auto; try lia.
  - destruct (chan_lookup (srv_max s + 1) (srv_channels s)) eqn:K; auto. exfalso.
    assert (chan_lookup (srv_max s + 1) (srv_channels s) <> None) as K' by (rewrite K; easy).
    apply (inv_open _ I) in K'. unfold hid_broadcast in K'. lia.
  - rewrite chan_lookup_set_neq by lia. exact Hnew.
  - apply chan_lookup_set_eq.
Qed.

Lemma init_reply {A} (h : apps A) s a ka nonce junk :
  srv_inv s -> srv_max s + 1 < hid_broadcast -> idle s hid_broadcast -> len nonce = 8 ->
  let o := hid_handle h s a ka (le 4 0xFFFFFFFF ++ [0x86] ++ be 2 8 ++ nonce ++ junk) in
  exists id,
    o_packets o = spec_packets 0xFFFFFFFF 0x86 (nonce ++ le 4 id ++ [2; 0; 0; 1; 4]) /\
    o_res o = Ok tt /\ o_app o = a /\
    chan_lookup id (srv_channels s) = None /\ id <> 0xFFFFFFFF /\ id <> 0 /\
    idle (o_srv o) id /\ idle (o_srv o) 0xFFFFFFFF.
Proof. intros I Hm Hi Hn o. exists (srv_max s + 1). now apply init_reply_id. Qed.

(* ---- C07 ---- *)

Lemma isolation {A} (h : apps A) s a ka ch rest c :
  srv_inv s -> srv_max s + 1 < hid_broadcast -> ch < 4294967296 ->
  report_ok (le 4 ch ++ rest) ->
  let o := hid_handle h s a ka (le 4 ch ++ rest) in
  o_res o = Ok tt -> c <> ch -> chan_lookup c (srv_channels s) <> None ->
  chan_lookup c (srv_channels (o_srv o)) = chan_lookup c (srv_channels s).
Proof.
  intros I Hm Hch Hr o R Hc Ho.
  destruct (hid_handle_facts h s a ka ch rest I Hm Hch Hr) as [H _ _].
  destruct (H R) as (_ & k & _ & _ & _ & F). apply F; auto.
  apply (inv_open _ I) in Ho. unfold hid_broadcast in *. lia.
Qed.

(* The response of the applications does not depend on their state. *)
Definition stateless {A} (h : apps A) : Prop :=
  (forall a a' p, snd (app_ctap h a p) = snd (app_ctap h a' p)) /\
  (forall a a' p, snd (app_u2f h a p) = snd (app_u2f h a' p)).

Lemma channel_local {A} (h : apps A) s1 s2 a1 a2 ka ch cur m :
  stateless h -> ch <> hid_broadcast ->
  chan_lookup ch (srv_channels s1) = Some cur -> chan_lookup ch (srv_channels s2) = Some cur ->
  let o1 := channel_handle h s1 a1 ka ch cur m in
  let o2 := channel_handle h s2 a2 ka ch cur m in
  o_packets o1 = o_packets o2 /\ o_res o1 = o_res o2 /\
  chan_lookup ch (srv_channels (o_srv o1)) = chan_lookup ch (srv_channels (o_srv o2)).
Proof.
  intros [S1 S2] Hb L1 L2. unfold channel_handle.
  set (t' := match cur with Some t => _ | None => _ end).
  destruct t' as [t|]; [|cbn; rewrite L1, L2; auto].
  destruct (t_done t).
  2:{ cbn. rewrite !chan_lookup_set_eq. auto. }
  destruct (negb (t_error t =? 0)).
  { cbn [o_res o_srv o_app o_packets srv_set srv_channels]. rewrite !chan_lookup_set_eq. auto. }
  destruct (t_cancelled t).
  { cbn [o_res o_srv o_app o_packets srv_set srv_channels]. rewrite !chan_lookup_set_eq. auto. }
  destruct (t_result t) as [r|].
  2:{ cbn. rewrite L1, L2. auto. }
  unfold handle_finalized. replace (ch =? hid_broadcast) with false by lia.
  unfold handle_data.
  specialize (S1 a1 a2 (tr_payload r)). specialize (S2 a1 a2 (tr_payload r)).
  destruct (tr_cmd r =? cmd_msg).
  { destruct (app_u2f h a1 _) as [b1 [x1|]], (app_u2f h a2 _) as [b2 [x2|]]; cbn [snd] in S2;
      try discriminate; cbn [o_res o_srv o_app o_packets srv_set srv_channels].
    - injection S2 as ->. rewrite !chan_lookup_set_eq. auto.
    - rewrite L1, L2. auto. }
  destruct (tr_cmd r =? cmd_cbor).
  { destruct (app_ctap h a1 _) as [b1 [x1|]], (app_ctap h a2 _) as [b2 [x2|]]; cbn [snd] in S1;
      try discriminate; cbn [o_res o_srv o_app o_packets srv_set srv_channels].
    - injection S1 as ->. rewrite !chan_lookup_set_eq. auto.
    - rewrite L1, L2. auto. }
  destruct (tr_cmd r =? cmd_ping); cbn [o_res o_srv o_app o_packets srv_set srv_channels].
  - rewrite !chan_lookup_set_eq. auto.
  - rewrite L1, L2. auto.
Qed.

Lemma on_channel_le k ch rest : ch < 4294967296 -> k < 4294967296 ->
  on_channel k (le 4 ch ++ rest) = (ch =? k).
Proof.
  intros H1 H2. unfold on_channel. rewrite takeN_exact by apply le_len.
  destruct (N.eqb_spec ch k) as [->|E]; [apply bytes_eqb_refl|].
  apply bytes_eqb_neq. intro K. apply E. now apply (le_inj 4).
Qed.

Lemma filter_all {X} (f : X -> bool) l : Forall (fun x => f x = true) l -> filter f l = l.
Proof. induction 1; cbn; auto. rewrite H. now f_equal. Qed.
Lemma filter_none {X} (f : X -> bool) l : Forall (fun x => f x = false) l -> filter f l = [].
Proof. induction 1; cbn; auto. now rewrite H. Qed.

Lemma interleaving {A} (h : apps A) k :
  stateless h -> k < 4294967296 -> k <> hid_broadcast ->
  forall ms s1 s2 a1 a2,
  srv_inv s1 -> srv_max s1 + len ms < hid_broadcast ->
  Forall (fun x => report_ok (snd x)) ms ->
  chan_lookup k (srv_channels s1) <> None ->
  chan_lookup k (srv_channels s1) = chan_lookup k (srv_channels s2) ->
  let o1 := hid_run h s1 a1 ms in
  let o2 := hid_run h s2 a2 (filter (fun x => on_channel k (snd x)) ms) in
  o_res o1 = Ok tt ->
  filter (on_channel k) (o_packets o1) = o_packets o2 /\ o_res o2 = Ok tt /\
  chan_lookup k (srv_channels (o_srv o1)) = chan_lookup k (srv_channels (o_srv o2)).
Proof.
  intros St Hk Hb. induction ms as [|[ka m] ms IH]; intros s1 s2 a1 a2 I Hm F Ho He o1 o2 R.
  - cbn. auto.
  - rewrite len_cons in Hm. inversion_clear F as [|? ? Fm F']. cbn [snd] in Fm.
    cbn [hid_run] in o1.
    destruct (N.lt_ge_cases (len m) 4) as [Sh|Sh].
    { exfalso. unfold o1 in R. rewrite hid_handle_short in R by auto. discriminate. }
    destruct (msg_split m Sh (proj1 Fm)) as (ch & rest & -> & Hch).
    assert (o_res (hid_handle h s1 a1 ka (le 4 ch ++ rest)) = Ok tt) as R1.
    { unfold o1 in R. destruct (o_res (hid_handle h s1 a1 ka (le 4 ch ++ rest))) as [[]|] eqn:E; auto.
      rewrite <- E. exact R. }
    destruct (hid_handle_facts h s1 a1 ka ch rest I ltac:(lia) Hch Fm) as [H1 _ HC].
    destruct (H1 R1) as (I' & kk & Hkk & Hmax & _ & Hold).
    unfold o1 in R |- *. rewrite R1 in R |- *. cbv zeta in R |- *.
    cbn [o_res o_packets o_srv] in R |- *. rewrite filter_app.
    unfold o2. cbn [filter snd]. rewrite on_channel_le by auto.
    destruct (N.eqb_spec ch k) as [->|E].
    + cbn [hid_run].
      destruct (chan_lookup k (srv_channels s1)) as [cur|] eqn:L1; [|easy].
      symmetry in He.
      rewrite (hid_handle_open h s1 a1 ka k rest cur Hch L1) in *.
      rewrite (hid_handle_open h s2 a2 ka k rest cur Hch He).
      destruct (channel_local h s1 s2 a1 a2 ka k cur (le 4 k ++ rest) St Hb L1 He) as (P1 & P2 & P3).
      set (oa := channel_handle h s1 a1 ka k cur (le 4 k ++ rest)) in *.
      set (ob := channel_handle h s2 a2 ka k cur (le 4 k ++ rest)) in *.
      rewrite <- P2, R1. cbv zeta. cbn [o_res o_packets o_srv].
      destruct (IH (o_srv oa) (o_srv ob) (o_app oa) (o_app ob)) as (Q1 & Q2 & Q3); auto.
      * lia.
      * apply (inv_open _ I'). rewrite Hmax.
        assert (chan_lookup k (srv_channels s1) <> None) as K by (rewrite L1; easy).
        apply (inv_open _ I) in K. lia.
      * repeat split; auto. rewrite Q1, P1. f_equal. rewrite <- P1. apply filter_all.
        eapply Forall_impl; [|apply HC]. intros p Hp. cbn in Hp. unfold on_channel.
        rewrite Hp. apply bytes_eqb_refl.
    + assert (k <> srv_max s1 + 1) as Hk1
        by (apply (inv_open _ I) in Ho; unfold hid_broadcast in *; lia).
      specialize (Hold k (not_eq_sym E) Hk1).
      destruct (IH (o_srv (hid_handle h s1 a1 ka (le 4 ch ++ rest))) s2
        (o_app (hid_handle h s1 a1 ka (le 4 ch ++ rest))) a2) as (Q1 & Q2 & Q3); auto.
      * lia.
      * rewrite Hold. exact Ho.
      * rewrite Hold. exact He.
      * repeat split; auto. rewrite Q1. rewrite filter_none; [reflexivity|].
        eapply Forall_impl; [|apply HC]. intros p Hp. cbn in Hp. unfold on_channel.
        rewrite Hp. apply bytes_eqb_neq. intro K. apply E. now apply (le_inj 4).
Qed.

(* ---- C09 ---- *)

Lemma bad_continuation {A} (h : apps A) s a ch cmd n first rest kas ka b junk :
  ch < 4294967296 -> 128 <= cmd < 256 -> cmd <> 0x91 -> n < 65536 -> idle s ch ->
  len rest <= 128 -> length kas = S (length rest) ->
  len first + len (concat rest) < n ->
  b < 256 -> b <> 0x91 -> (128 <= b \/ b <> len rest) ->
  let o := hid_run h s a (combine kas (host_request ch cmd n first rest)
                          ++ [(ka, le 4 ch ++ [b] ++ junk)]) in
  o = mk_outcome s a [spec_packet ch 0xBF [4] 0] (Ok tt).
Proof.
  intros Hch Hc Hcc Hn Hl Hr Hk Hd Hb1 Hb2 Hb3 o. unfold o.
  rewrite hid_run_app, (request_silent h s a ch cmd n first rest kas); auto.
  cbv zeta. cbn [o_res o_srv o_app o_packets app hid_run].
  rewrite (hid_handle_open h _ a ka ch _ (Some (partial_txn ch cmd n (first ++ concat rest) (len rest))))
    by (auto; apply chan_lookup_set_eq).
  rewrite ch_some_badseq by auto. cbn [o_res o_srv o_app o_packets app].
  rewrite srv_set_set, srv_set_same by exact Hl. reflexivity.
Qed.

Lemma stray_continuation {A} (h : apps A) s a ka ch b junk :
  ch < 4294967296 -> b < 128 -> idle s ch ->
  hid_handle h s a ka (le 4 ch ++ [b] ++ junk) =
  mk_outcome s a [spec_packet ch 0xBF [1] 0] (Ok tt).
Proof.
  intros Hch Hb Hl. rewrite (hid_handle_open h s a ka ch _ None) by auto.
  cbn [app]. rewrite ch_none_notcmd by auto. rewrite srv_set_same by exact Hl. reflexivity.
Qed.

Lemma cancel_request {A} (h : apps A) s a ch cmd n first rest kas ka junk :
  ch < 4294967296 -> 128 <= cmd < 256 -> cmd <> 0x91 -> n < 65536 -> idle s ch ->
  len rest <= 128 -> length kas = S (length rest) ->
  len first + len (concat rest) < n ->
  hid_run h s a (combine kas (host_request ch cmd n first rest)
                          ++ [(ka, le 4 ch ++ [0x91] ++ junk)])
  = mk_outcome s a [] (Ok tt).
Proof.
  intros Hch Hc Hcc Hn Hl Hr Hk Hd.
  rewrite hid_run_app, (request_silent h s a ch cmd n first rest kas); auto.
  cbv zeta. cbn [o_res o_srv o_app o_packets app hid_run].
  rewrite (hid_handle_open h _ a ka ch _ (Some (partial_txn ch cmd n (first ++ concat rest) (len rest))))
    by (auto; apply chan_lookup_set_eq).
  rewrite ch_some_cancel by auto. cbn [o_res o_srv o_app o_packets app].
  rewrite srv_set_set, srv_set_same by exact Hl. reflexivity.
Qed.

Lemma cancel_idle {A} (h : apps A) s a ka ch junk :
  ch < 4294967296 -> idle s ch ->
  hid_handle h s a ka (le 4 ch ++ [0x91] ++ junk) = mk_outcome s a [] (Ok tt).
Proof.
  intros Hch Hl. rewrite (hid_handle_open h s a ka ch _ None) by auto.
  cbn [app]. rewrite ch_none_cancel by auto. now rewrite srv_set_same.
Qed.

(* ---- C10 ---- *)

Definition allowed (ch cmd : N) : Prop :=
  cmd = 0x81 \/ ch = hid_broadcast /\ cmd = 0x86 \/
  ch <> hid_broadcast /\ (cmd = 0x83 \/ cmd = 0x90).

Definition careful_inv (s : server) : Prop :=
  forall k t, chan_lookup k (srv_channels s) = Some (Some t) ->
    exists cmd n d q, t = partial_txn k cmd n d q /\ allowed k cmd.

Lemma careful_inv_set s ch v : careful_inv s ->
  match v with
  | Some t => exists cmd n d q, t = partial_txn ch cmd n d q /\ allowed ch cmd
  | None => True
  end -> careful_inv (srv_set s ch v).
Proof.
  intros P Hv k t. cbn [srv_set srv_channels]. destruct (N.eq_dec ch k) as [<-|E].
  - rewrite chan_lookup_set_eq. now intros [= ->].
  - rewrite chan_lookup_set_neq by auto. apply P.
Qed.

Definition no_panic {A} (h : apps A) : Prop :=
  (forall a p, snd (app_ctap h a p) <> Panic) /\ (forall a p, snd (app_u2f h a p) <> Panic).

Lemma finalized_careful {A} (h : apps A) s a ka ch cmd n q d spare :
  no_panic h -> careful_inv s -> allowed ch cmd -> 8 <= len d + len spare ->
  let o := handle_finalized h s a ka ch (mk_tresult ch cmd n q d spare) in
  o_res o = Ok tt /\ careful_inv (o_srv o).
Proof.
  intros [P1 P2] I Al L. unfold handle_finalized.
  destruct (N.eqb_spec ch hid_broadcast) as [E|E].
  - unfold handle_broadcast. cbn [tr_cmd tr_payload tr_spare].
    destruct (N.eqb_spec cmd cmd_init).
    + assert (careful_inv (fst (new_channel s))) as Q
        by apply (careful_inv_set s ((srv_max s + 1) mod 4294967296) None I Logic.I).
      destruct (new_channel s) as [s' id].
      replace (len (d ++ spare) <? 8) with false by (rewrite len_app; lia). auto.
    + destruct (N.eqb_spec cmd cmd_ping); [auto|].
      exfalso. unfold allowed, cmd_init, cmd_ping in *. lia.
  - unfold handle_data. cbn [tr_cmd tr_payload tr_chan].
    specialize (P1 a d). specialize (P2 a d).
    destruct (N.eqb_spec cmd cmd_msg).
    { destruct (app_u2f h a d) as [a' [r|]]; cbn in *; auto; easy. }
    destruct (N.eqb_spec cmd cmd_cbor).
    { destruct (app_ctap h a d) as [a' [r|]]; cbn in *; auto; easy. }
    destruct (N.eqb_spec cmd cmd_ping); [auto|].
    exfalso. unfold allowed, cmd_msg, cmd_cbor, cmd_ping in *. lia.
Qed.

Lemma finish_careful {A} (o : outcome A) ch :
  o_res o = Ok tt /\ careful_inv (o_srv o) ->
  let o' := match o_res o with
     | Ok _ => mk_outcome (srv_set (o_srv o) ch None) (o_app o) (o_packets o) (Ok tt)
     | Panic => o
     end in
  o_res o' = Ok tt /\ careful_inv (o_srv o').
Proof.
  intros [R I]. rewrite R. cbn. split; auto. now apply careful_inv_set.
Qed.

Lemma le4_broadcast ch : ch < 4294967296 ->
  (le 4 ch = [255; 255; 255; 255] <-> ch = hid_broadcast).
Proof.
  intro H. split; intro E.
  - apply (le_inj 4); auto; reflexivity.
  - now subst.
Qed.

Lemma nth4_le4 ch b rest : nth 4 (le 4 ch ++ b :: rest) 0 = b.
Proof. reflexivity. Qed.

Lemma careful_step {A} (h : apps A) s a ka m :
  no_panic h -> careful_inv s -> careful m ->
  o_res (hid_handle h s a ka m) = Ok tt /\ careful_inv (o_srv (hid_handle h s a ka m)).
Proof.
  intros NP I (W & L & C).
  destruct (msg_split m ltac:(lia) W) as (ch & rest & -> & Hch).
  rewrite len_le4 in L. apply wfb_app in W as [_ W].
  destruct rest as [|b rest]; [rewrite len_nil in L; lia|]. rewrite len_cons in L.
  rewrite nth4_le4, takeN_exact in C by apply le_len.
  rewrite le4_broadcast in C by auto.
  unfold hid_handle. rewrite read_le_app by exact Hch.
  destruct (chan_lookup ch (srv_channels s)) as [cur|] eqn:Hl; [|auto].
  assert (Hb : b < 256) by (eapply wfb_byte; eauto).
  apply wfb_cons in W as [_ W].
  destruct (N.eq_dec b 0x91) as [->|Hc].
  { destruct cur as [t|].
    - destruct (I ch t Hl) as (cmd & n & d & q & -> & _).
      rewrite ch_some_cancel by auto. split; auto. now apply careful_inv_set.
    - rewrite ch_none_cancel by auto. split; auto. now apply careful_inv_set. }
  destruct cur as [t|].
  - destruct (I ch t Hl) as (cmd & n & d & q & -> & Al).
    destruct (N.lt_ge_cases b 128) as [B|B];
      [destruct (N.eq_dec b q) as [->|Bq]|].
    + pose proof (add_message_next ch cmd n d q rest Hch B) as Em. cbn [app] in Em.
      destruct (N.leb_spec n (len (d ++ rest))).
      * rewrite (channel_handle_done_eq h s a ka ch (Some (partial_txn ch cmd n d q)) _ _ Em).
        apply finish_careful, finalized_careful; auto.
        rewrite len_app, len_zeros. lia.
      * rewrite (channel_handle_more h s a ka ch (Some (partial_txn ch cmd n d q)) _ _ Em eq_refl).
        split; auto. apply careful_inv_set; auto. eauto 8.
    + rewrite ch_some_badseq; auto. split; auto. now apply careful_inv_set.
    + rewrite ch_some_badseq; auto. split; auto. now apply careful_inv_set.
  - destruct (N.lt_ge_cases b 128) as [B|B].
    + rewrite ch_none_notcmd by auto. split; auto. now apply careful_inv_set.
    + destruct (be2_split rest W ltac:(lia)) as (n & r & -> & Hn).
      pose proof (new_transaction_first ch b n r Hch (conj B Hb) Hc Hn) as Em.
      cbn [app] in Em. rewrite len_app, be_len in L.
      assert (allowed ch b) as Al by (unfold allowed; lia).
      destruct (N.leb_spec n (len r)).
      * rewrite (channel_handle_done_eq h s a ka ch None _ _ Em).
        apply finish_careful, finalized_careful; auto.
        rewrite takeN_len, dropN_len. lia.
      * rewrite (channel_handle_more h s a ka ch None _ _ Em eq_refl).
        split; auto. apply careful_inv_set; auto. eauto 8.
Qed.

Lemma careful_run {A} (h : apps A) : no_panic h -> forall ms s a,
  careful_inv s -> Forall (fun x => careful (snd x)) ms -> o_res (hid_run h s a ms) = Ok tt.
Proof.
  intro NP. induction ms as [|[ka m] ms IH]; intros s a I F; [reflexivity|].
  inversion_clear F as [|? ? Fm F']. cbn [hid_run].
  destruct (careful_step h s a ka m NP I Fm) as [R I']. rewrite R. cbn. now apply IH.
Qed.

Lemma new_server_careful : careful_inv new_server.
Proof. intros k t. cbn. destruct (_ =? k); easy. Qed.

(* Any request with an unknown command kills the process. *)
Lemma unknown_command_panics {A} (h : apps A) s a ka ch cmd n data :
  ch < 4294967296 -> 128 <= cmd < 256 -> cmd <> 0x91 -> ~ allowed ch cmd ->
  idle s ch -> n < 65536 -> n <= len data ->
  o_res (hid_handle h s a ka (le 4 ch ++ [cmd] ++ be 2 n ++ data)) = Panic.
Proof.
  intros Hch Hc Hcc Ha Hl Hn Hd.
  rewrite (hid_handle_open h s a ka ch _ None) by auto.
  pose proof (new_transaction_first ch cmd n data Hch Hc Hcc Hn) as Em.
  replace (n <=? len data) with true in Em by lia.
  rewrite (channel_handle_done_eq h s a ka ch None _ _ Em).
  unfold handle_finalized, allowed in *.
  destruct (N.eqb_spec ch hid_broadcast) as [E|E].
  - unfold handle_broadcast. cbn [tr_cmd]. unfold cmd_init, cmd_ping.
    replace (cmd =? 134) with false by lia. now replace (cmd =? 129) with false by lia.
  - unfold handle_data. cbn [tr_cmd]. unfold cmd_msg, cmd_cbor, cmd_ping.
    replace (cmd =? 131) with false by lia. replace (cmd =? 144) with false by lia.
    now replace (cmd =? 129) with false by lia.
Qed.

(* ---- C11 ---- *)

Lemma empty_ping_unanswered {A} (h : apps A) s a ka ch junk :
  ch < 4294967296 -> idle s ch ->
  hid_handle h s a ka (le 4 ch ++ [0x81] ++ be 2 0 ++ junk) = mk_outcome s a [] (Ok tt).
Proof.
  intros Hch Hl.
  assert (dispatchable ch 0x81) as Hd by (split; cbn; auto).
  destruct (request_reassembly h s a ch 0x81 0 junk [] [ka] Hch Hd ltac:(lia) Hl) as [T S];
    try (cbn; lia || easy).
  { split; [lia|easy]. }
  cbn [host_request host_continuations combine hid_run] in T, S. cbv zeta in T, S.
  rewrite !app_nil_r in *. cbn [o_res o_srv o_app o_packets] in T, S.
  rewrite run_one in T, S.
  unfold host_request, triple in *.
  destruct (hid_handle h s a ka (le 4 ch ++ [0x81] ++ be 2 0 ++ junk)) as [s' a' p' r'].
  cbn [o_res o_srv o_app o_packets] in *. rewrite takeN_0 in T.
  unfold spec_reply in T. change (129 =? 129) with true in T. cbv iota in T.
  injection T as -> -> ->. rewrite S by auto. reflexivity.
Qed.

Lemma host_await_keepalives ch ka rest :
  host_await ch (concat (repeat (spec_packets ch 0xBB [2]) ka) ++ rest) = host_await ch rest.
Proof.
  induction ka as [|k IH]; [reflexivity|].
  cbn [repeat concat]. rewrite spec_packets_single by (vm_compute; split; discriminate).
  cbn [app host_await]. rewrite spec_packet_chan, bytes_eqb_refl, spec_packet_nth by lia.
  exact IH.
Qed.

Lemma host_await_reply ch cmd p : cmd <> 0xBB ->
  host_await ch (spec_packets ch cmd p) = host_receive ch (spec_packets ch cmd p).
Proof.
  intro Hc. unfold spec_packets. destruct (N.to_nat (spec_count (len p))) as [|n]; [reflexivity|].
  cbn [seq map host_await]. rewrite spec_packet_nth by lia. cbn [spec_byte].
  replace (cmd =? 187) with false by lia. now rewrite andb_false_r.
Qed.

(* A whole transaction as the host sees it. *)
Lemma transaction {A} (h : apps A) s a ch cmd p kas a' r :
  ch < 4294967296 -> ch <> 0xFFFFFFFF -> cmd = 0x90 \/ cmd = 0x83 -> len p <= 7609 ->
  idle s ch ->
  length kas = length (host_send ch cmd p) ->
  (if cmd =? 0x90 then app_ctap h a p else app_u2f h a p) = (a', Ok r) ->
  1 <= len r <= 7609 ->
  let o := hid_run h s a (combine kas (host_send ch cmd p)) in
  host_await ch (o_packets o) = Some (cmd, r) /\ o_app o = a' /\ o_srv o = s /\ o_res o = Ok tt.
Proof.
  intros Hch Hb Hcmd Hp Hl Hk Happ Hr.
  destruct (host_send_request ch cmd p) as [f [rs [z [E [Hc [Hcm Hrs]]]]]]; [lia|].
  rewrite E in *.
  assert (length kas = S (length rs)) as Hk'.
  { rewrite Hk. unfold host_request. cbn [length]. f_equal.
    clear. generalize 0. induction rs; intro i; cbn; auto. }
  assert (dispatchable ch cmd) as Hd.
  { split; [destruct Hcmd; subst; cbn; auto|]. unfold hid_broadcast. easy. }
  destruct (request_reassembly h s a ch cmd (len p) f rs kas Hch Hd ltac:(lia) Hl Hrs Hcm Hk')
    as [T S].
  rewrite Hc, takeN_exact in T by reflexivity.
  unfold triple, spec_reply in T. cbv zeta in *.
  destruct Hcmd as [->| ->].
  - change (144 =? 129) with false in T. change (144 =? 131) with false in T.
    change (144 =? 144) with true in Happ. cbv iota in T, Happ. rewrite Happ in T.
    injection T as T1 T2 T3. rewrite T2. repeat split; auto.
    rewrite host_await_keepalives, host_await_reply by easy.
    apply host_receive_ok; auto; lia.
  - change (131 =? 129) with false in T. change (131 =? 131) with true in T.
    change (131 =? 144) with false in Happ. cbv iota in T, Happ. rewrite Happ in T.
    injection T as T1 T2 T3. rewrite T2. repeat split; auto.
    rewrite host_await_reply by easy.
    apply host_receive_ok; auto; lia.
Qed.
