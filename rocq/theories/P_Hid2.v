(* Proofs about the CTAPHID server: C03..C11. *)
From Verif Require Import Base M_Util M_Hid S_Hid P_Hid1.

Lemma takeN_nat {A} n (l : list A) : takeN (N.of_nat n) l = firstn n l.
Proof. unfold takeN. now rewrite Nat2N.id. Qed.
Lemma dropN_nat {A} n (l : list A) : dropN (N.of_nat n) l = skipn n l.
Proof. unfold dropN. now rewrite Nat2N.id. Qed.

Lemma read_le_app n v rest :
  v < 256 ^ N.of_nat n -> read_le n (le n v ++ rest) = Ok (v, rest).
Proof.
  intro H. unfold read_le. rewrite len_app, le_len.
  replace (N.of_nat n + len rest <? N.of_nat n) with false by lia.
  rewrite <- takeN_nat, <- dropN_nat, takeN_exact, dropN_exact by apply le_len.
  now rewrite le_dec_le_small.
Qed.

Lemma read_be_app n v rest :
  v < 256 ^ N.of_nat n -> read_be n (be n v ++ rest) = Ok (v, rest).
Proof.
  intro H. unfold read_be. rewrite len_app, be_len.
  replace (N.of_nat n + len rest <? N.of_nat n) with false by lia.
  rewrite <- takeN_nat, <- dropN_nat, takeN_exact, dropN_exact by apply be_len.
  now rewrite be_dec_be_small.
Qed.

Lemma read_le_1 x rest : read_le 1 (x :: rest) = Ok (x, rest).
Proof.
  unfold read_le. rewrite len_cons. replace (1 + len rest <? N.of_nat 1) with false by lia.
  cbn [firstn skipn le_dec]. do 2 f_equal. lia.
Qed.

Lemma read_le4_ok m : 4 <= len m -> read_le 4 m = Ok (le_dec (takeN 4 m), dropN 4 m).
Proof.
  intro H. unfold read_le. replace (len m <? N.of_nat 4) with false by lia. reflexivity.
Qed.

Lemma msg_split m : 4 <= len m -> wfb m ->
  exists ch rest, m = le 4 ch ++ rest /\ ch < 4294967296.
Proof.
  intros H W. exists (le_dec (takeN 4 m)), (dropN 4 m).
  assert (len (takeN 4 m) = 4) as L by (rewrite takeN_len; lia).
  assert (length (takeN 4 m) = 4%nat) as L' by (rewrite length_len, L; reflexivity).
  split.
  - rewrite <- L', le_le_dec by auto with wf. symmetry. apply takeN_dropN.
  - eapply N.lt_le_trans; [apply le_dec_bound; auto with wf|]. rewrite L. reflexivity.
Qed.

(* ---- the channel map ---- *)

Lemma chan_lookup_set_eq k v l : chan_lookup k (chan_set k v l) = Some v.
Proof.
  induction l as [|[k' v'] l IH]; cbn [chan_set chan_lookup].
  - now rewrite N.eqb_refl.
  - destruct (k' =? k) eqn:E; cbn [chan_lookup]; rewrite E; auto.
Qed.

Lemma chan_lookup_set_neq k k' v l : k <> k' ->
  chan_lookup k' (chan_set k v l) = chan_lookup k' l.
Proof.
  intro H. induction l as [|[k0 v0] l IH]; cbn [chan_set chan_lookup].
  - replace (k =? k') with false by lia. reflexivity.
  - destruct (N.eqb_spec k0 k); cbn [chan_lookup].
    + subst. replace (k =? k') with false by lia. reflexivity.
    + destruct (k0 =? k'); auto.
Qed.

Lemma chan_set_same k v l : chan_lookup k l = Some v -> chan_set k v l = l.
Proof.
  induction l as [|[k0 v0] l IH]; cbn [chan_set chan_lookup]; [easy|].
  destruct (N.eqb_spec k0 k); intro H.
  - congruence.
  - f_equal. auto.
Qed.

Lemma chan_set_set k v w l : chan_set k v (chan_set k w l) = chan_set k v l.
Proof.
  induction l as [|[k0 v0] l IH]; cbn [chan_set].
  - now rewrite N.eqb_refl.
  - destruct (k0 =? k) eqn:E; cbn [chan_set]; rewrite E; congruence.
Qed.

Lemma srv_set_same s k v : chan_lookup k (srv_channels s) = Some v -> srv_set s k v = s.
Proof. intro H. destruct s; unfold srv_set; cbn in *. now rewrite chan_set_same. Qed.

Lemma srv_set_set s k v w : srv_set (srv_set s k w) k v = srv_set s k v.
Proof. destruct s; unfold srv_set; cbn. now rewrite chan_set_set. Qed.

Lemma srv_lookup_set_eq s k v : chan_lookup k (srv_channels (srv_set s k v)) = Some v.
Proof. apply chan_lookup_set_eq. Qed.

Lemma hid_error_spec ch code : hid_error ch code = spec_packets ch 0xBF [code].
Proof. apply create_response_packets_spec. reflexivity. Qed.

Lemma hid_run_app {A} (h : apps A) ms1 : forall s a ms2,
  hid_run h s a (ms1 ++ ms2) =
  let o := hid_run h s a ms1 in
  match o_res o with
  | Panic => o
  | Ok _ => let o' := hid_run h (o_srv o) (o_app o) ms2 in
            mk_outcome (o_srv o') (o_app o') (o_packets o ++ o_packets o') (o_res o')
  end.
Proof.
  induction ms1 as [|[ka m] ms1 IH]; intros s a ms2; cbn [app hid_run].
  - cbn. destruct (hid_run h s a ms2); reflexivity.
  - destruct (o_res (hid_handle h s a ka m)) as [[]|] eqn:E; cbn; [|now rewrite E].
    rewrite IH. cbn.
    destruct (o_res (hid_run h _ _ ms1)) eqn:E2; cbn; rewrite ?E2; auto.
    now rewrite app_assoc.
Qed.

(* ------------------------------------------------------------------ *)
(* C03: a request in packets                                           *)

(* The transaction after the initial packet and some continuations. *)
Definition partial_txn (ch cmd n : N) (data : bytes) (seqno : N) : txn :=
  mk_txn false false 0 (Some (mk_tresult ch cmd n seqno data [])).

Lemma land128 c : c < 256 -> (N.land c 128 =? 0) = (c <? 128).
Proof.
  intro H.
  assert (E : forallb (fun x => Bool.eqb (N.land (N.of_nat x) 128 =? 0) (N.of_nat x <? 128))
                (seq 0 256) = true) by (vm_compute; reflexivity).
  rewrite forallb_forall in E. specialize (E (N.to_nat c)).
  rewrite in_seq, N2Nat.id in E. apply Bool.eqb_prop, E. lia.
Qed.

Lemma new_transaction_first ch cmd n first :
  ch < 4294967296 -> 128 <= cmd < 256 -> cmd <> cmd_cancel -> n < 65536 ->
  new_transaction (le 4 ch ++ [cmd] ++ be 2 n ++ first) =
  Ok (if n <=? len first
      then mk_txn true false 0 (Some (mk_tresult ch cmd n 0 (takeN n first) (dropN n first)))
      else partial_txn ch cmd n first 0).
Proof.
  intros Hch Hcmd Hcan Hn. unfold new_transaction.
  rewrite read_le_app by exact Hch. cbn [rbind app]. rewrite read_le_1. cbn [rbind].
  rewrite land128 by lia. replace (cmd <? 128) with false by lia.
  replace (cmd =? cmd_cancel) with false by lia.
  rewrite read_be_app by exact Hn. cbn [rbind].
  destruct (n <=? len first); reflexivity.
Qed.

Lemma add_message_next ch cmd n data i c :
  ch < 4294967296 -> i < 128 ->
  add_message (partial_txn ch cmd n data i) (le 4 ch ++ [i] ++ c) =
  Ok (if n <=? len (data ++ c)
      then mk_txn true false 0 (Some (mk_tresult ch cmd n i (takeN n (data ++ c))
                                        (dropN n (data ++ c) ++ zeros 8)))
      else partial_txn ch cmd n (data ++ c) (i + 1)).
Proof.
  intros Hch Hi. unfold add_message, partial_txn. cbn [t_done t_result].
  rewrite read_le_app by exact Hch. cbn [rbind tr_chan]. rewrite N.eqb_refl. cbn [negb app].
  rewrite read_le_1. cbn [rbind].
  replace (i =? cmd_cancel) with false by (unfold cmd_cancel; lia).
  rewrite land128 by lia. replace (i <? 128) with true by lia. cbn [negb tr_seq].
  rewrite N.eqb_refl. cbn [negb tr_payload tr_plen t_cancelled t_error tr_cmd].
  replace ((i + 1) mod 256) with (i + 1) by lia.
  destruct (n <=? len (data ++ c)); reflexivity.
Qed.

(* Finalisation on a data channel is the specified reply. *)
Definition triple {A} (o : outcome A) := (o_app o, o_packets o, o_res o).

Lemma handle_data_spec {A} (h : apps A) s a ka ch cmd n q d spare :
  In cmd [0x81; 0x83; 0x90] ->
  let o := handle_data h s a ka ch (mk_tresult ch cmd n q d spare) in
  triple o = spec_reply (app_ctap h) (app_u2f h) a ch cmd ka d /\ o_srv o = s.
Proof.
  intro H. unfold handle_data, spec_reply, triple. cbn [tr_cmd tr_payload tr_chan].
  unfold cmd_msg, cmd_cbor, cmd_ping, keepalive.
  rewrite !create_response_packets_spec by (vm_compute; reflexivity).
  destruct H as [<-|[<-|[<-|[]]]].
  - split; reflexivity.
  - change (131 =? 131) with true. change (131 =? 129) with false.
    cbv iota. destruct (app_u2f h a d) as [a' [r|]]; cbn; split; try reflexivity.
    now rewrite create_response_packets_spec by (vm_compute; reflexivity).
  - change (144 =? 144) with true. change (144 =? 129) with false. change (144 =? 131) with false.
    cbv iota. destruct (app_ctap h a d) as [a' [r|]]; cbn; split; try reflexivity.
    now rewrite create_response_packets_spec by (vm_compute; reflexivity).
Qed.

Definition dispatchable (ch cmd : N) : Prop :=
  In cmd [0x81; 0x83; 0x90] /\ (ch = hid_broadcast -> cmd = 0x81).

Lemma handle_finalized_spec {A} (h : apps A) s a ka ch cmd n q d spare :
  dispatchable ch cmd ->
  let o := handle_finalized h s a ka ch (mk_tresult ch cmd n q d spare) in
  triple o = spec_reply (app_ctap h) (app_u2f h) a ch cmd ka d /\ o_srv o = s.
Proof.
  intros [Hin Hb]. unfold handle_finalized.
  destruct (N.eqb_spec ch hid_broadcast) as [E|E].
  - rewrite Hb by auto. subst ch. unfold handle_broadcast, triple. cbn [tr_cmd tr_payload].
    change (129 =? cmd_init) with false. change (129 =? cmd_ping) with true. cbv iota zeta.
    cbn [o_app o_packets o_res o_srv].
    rewrite create_response_packets_spec by (vm_compute; reflexivity). split; reflexivity.
  - now apply handle_data_spec.
Qed.

(* One message on an open channel. *)
Lemma hid_handle_open {A} (h : apps A) s a ka ch rest cur :
  ch < 4294967296 -> chan_lookup ch (srv_channels s) = Some cur ->
  hid_handle h s a ka (le 4 ch ++ rest) = channel_handle h s a ka ch cur (le 4 ch ++ rest).
Proof.
  intros Hch Hl. unfold hid_handle. rewrite read_le_app by exact Hch. now rewrite Hl.
Qed.

Lemma channel_handle_done {A} (h : apps A) s a ka ch cmd n q d spare cur m s0 :
  dispatchable ch cmd ->
  match cur with None => new_transaction m | Some t => add_message t m end
  = Ok (mk_txn true false 0 (Some (mk_tresult ch cmd n q d spare))) ->
  srv_set s ch None = s0 ->
  let o := channel_handle h s a ka ch cur m in
  triple o = spec_reply (app_ctap h) (app_u2f h) a ch cmd ka d /\
  (o_res o = Ok tt -> o_srv o = s0).
Proof.
  intros Hdis E Hs. unfold channel_handle. rewrite E. cbn [t_done t_error t_cancelled t_result].
  change (negb (0 =? 0)) with false. cbv iota.
  destruct (handle_finalized_spec h s a ka ch cmd n q d spare Hdis) as [T S].
  cbv zeta. destruct (o_res (handle_finalized h s a ka ch _)) as [[]|] eqn:R.
  - unfold triple in *. cbn. rewrite S, <- R. split; auto.
  - split; [exact T | now rewrite R].
Qed.

Lemma channel_handle_more {A} (h : apps A) s a ka ch cur m t :
  match cur with None => new_transaction m | Some t => add_message t m end = Ok t ->
  t_done t = false ->
  channel_handle h s a ka ch cur m = mk_outcome (srv_set s ch (Some t)) a [] (Ok tt).
Proof. intros E D. unfold channel_handle. now rewrite E, D. Qed.

Lemma removelast_cons {A} (c : A) r : r <> [] -> removelast (c :: r) = c :: removelast r.
Proof. now destruct r. Qed.

Lemma run_one {A} (o : outcome A) :
  match o_res o with
  | Ok _ => mk_outcome (o_srv o) (o_app o) (o_packets o) (Ok tt)
  | Panic => o
  end = o.
Proof. now destruct o as [s a p [[]|]]. Qed.

Lemma request_continue {A} (h : apps A) ch cmd n :
  ch < 4294967296 -> dispatchable ch cmd ->
  forall rest kas i data s s0 a,
  chan_lookup ch (srv_channels s) = Some (Some (partial_txn ch cmd n data i)) ->
  srv_set s ch None = s0 ->
  i + len rest <= 128 -> length kas = length rest -> rest <> [] ->
  len data < n ->
  completes n data rest ->
  let o := hid_run h s a (combine kas (host_continuations ch i rest)) in
  triple o = spec_reply (app_ctap h) (app_u2f h) a ch cmd (last kas 0%nat)
               (takeN n (data ++ concat rest)) /\
  (o_res o = Ok tt -> o_srv o = s0).
Proof.
  intros Hch Hdis rest. induction rest as [|c rest IH];
    intros kas i data s s0 a Hl Hs Hi Hk Hne Hd [C1 C2]; [easy|].
  destruct kas as [|ka kas]; [easy|]. simpl in Hk.
  rewrite len_cons in Hi.
  cbn [host_continuations combine hid_run].
  rewrite (hid_handle_open h s a ka ch _ _ Hch Hl).
  pose proof (add_message_next ch cmd n data i c Hch ltac:(lia)) as Em.
  destruct (N.leb_spec n (len (data ++ c))) as [L|L].
  - (* finished: no packet is left *)
    assert (rest = []) as ->.
    { destruct rest as [|c2 rest]; auto. exfalso.
      specialize (C2 ltac:(easy)). rewrite removelast_cons in C2 by easy.
      cbn [concat] in C2.
      rewrite !len_app in *. lia. }
    destruct kas; [|simpl in Hk; lia].
    destruct (channel_handle_done h s a ka ch cmd n _ _ _ (Some (partial_txn ch cmd n data i)) _ s0 Hdis Em Hs) as [T R].
    cbn [concat host_continuations combine hid_run last o_srv o_app o_packets o_res] in *.
    cbv zeta. rewrite !app_nil_r, run_one. split; auto.
  - assert (rest <> []) as Hne'.
    { intros ->. cbn [concat] in C1. rewrite app_nil_r in C1. rewrite len_app in *. lia. }
    rewrite (channel_handle_more h s a ka ch (Some (partial_txn ch cmd n data i)) _ _ Em eq_refl).
    cbv zeta. cbn [o_res o_srv o_app o_packets app].
    assert (last (ka :: kas) 0%nat = last kas 0%nat) as ->
      by (destruct kas; [destruct rest; simpl in Hk; easy | reflexivity]).
    specialize (IH kas (i + 1) (data ++ c) (srv_set s ch (Some (partial_txn ch cmd n (data ++ c) (i + 1)))) s0 a).
    destruct IH as [T R]; auto.
    + apply chan_lookup_set_eq.
    + now rewrite srv_set_set.
    + lia.
    + split.
      * cbn [concat] in C1. rewrite !len_app in *. lia.
      * intros _. specialize (C2 ltac:(easy)).
        destruct rest as [|c2 rest]; [easy|].
        rewrite removelast_cons in C2 by easy.
        cbn [concat] in C2. rewrite !len_app in *. lia.
    + cbn [concat]. rewrite app_assoc. auto.
Qed.

Lemma request_reassembly {A} (h : apps A) s a ch cmd n first rest kas :
  ch < 4294967296 -> dispatchable ch cmd -> n < 65536 ->
  chan_lookup ch (srv_channels s) = Some None ->
  len rest <= 128 -> completes n first rest -> length kas = S (length rest) ->
  let o := hid_run h s a (combine kas (host_request ch cmd n first rest)) in
  triple o = spec_reply (app_ctap h) (app_u2f h) a ch cmd (last kas 0%nat)
               (takeN n (first ++ concat rest)) /\
  (o_res o = Ok tt -> o_srv o = s).
Proof.
  intros Hch Hdis Hn Hl Hr [C1 C2] Hk.
  destruct kas as [|ka kas]; [easy|]. simpl in Hk.
  unfold host_request. cbn [combine hid_run].
  rewrite (hid_handle_open h s a ka ch _ _ Hch Hl).
  assert (128 <= cmd < 256 /\ cmd <> cmd_cancel) as [Hc Hcc]
    by (destruct Hdis as [[<-|[<-|[<-|[]]]] _]; vm_compute; repeat split; easy).
  pose proof (new_transaction_first ch cmd n first Hch Hc Hcc Hn) as Em.
  destruct (N.leb_spec n (len first)) as [L|L].
  - assert (rest = []) as ->.
    { destruct rest as [|c2 rest]; auto. exfalso. specialize (C2 ltac:(easy)). lia. }
    destruct kas; [|simpl in Hk; lia].
    destruct (channel_handle_done h s a ka ch cmd n _ _ _ None _ s Hdis Em
      (srv_set_same _ _ _ Hl)) as [T R].
    cbn [concat host_continuations combine hid_run last o_srv o_app o_packets o_res] in *.
    cbv zeta. rewrite !app_nil_r, run_one. split; auto.
  - assert (rest <> []) as Hne'.
    { intros ->. cbn [concat] in C1. rewrite len_nil in C1. lia. }
    rewrite (channel_handle_more h s a ka ch None _ _ Em eq_refl).
    cbv zeta. cbn [o_res o_srv o_app o_packets app].
    assert (last (ka :: kas) 0%nat = last kas 0%nat) as ->
      by (destruct kas; [destruct rest; simpl in Hk; easy | reflexivity]).
    destruct (request_continue h ch cmd n Hch Hdis rest kas 0 first
      (srv_set s ch (Some (partial_txn ch cmd n first 0))) s a) as [T R]; auto.
    + apply chan_lookup_set_eq.
    + rewrite srv_set_set. now apply srv_set_same.
    + split; auto.
Qed.

(* Any incomplete prefix is silent, and leaves the expected partial request. *)
Lemma continuations_silent {A} (h : apps A) ch cmd n :
  ch < 4294967296 ->
  forall rest kas i data s a,
  chan_lookup ch (srv_channels s) = Some (Some (partial_txn ch cmd n data i)) ->
  i + len rest <= 128 -> length kas = length rest ->
  len data + len (concat rest) < n ->
  hid_run h s a (combine kas (host_continuations ch i rest)) =
  mk_outcome (srv_set s ch (Some (partial_txn ch cmd n (data ++ concat rest) (i + len rest))))
    a [] (Ok tt).
Proof.
  intros Hch rest. induction rest as [|c rest IH]; intros kas i data s a Hl Hi Hk Hd.
  - destruct kas; [|easy]. cbn [concat host_continuations combine hid_run]. rewrite app_nil_r.
    rewrite len_nil, N.add_0_r. now rewrite srv_set_same.
  - destruct kas as [|ka kas]; [easy|]. simpl in Hk. rewrite len_cons in *.
    cbn [concat] in *. rewrite len_app in Hd.
    cbn [host_continuations combine hid_run].
    rewrite (hid_handle_open h s a ka ch _ _ Hch Hl).
    unfold channel_handle. rewrite (add_message_next ch cmd n data i c Hch ltac:(lia)).
    replace (n <=? len (data ++ c)) with false by (rewrite len_app; lia).
    cbn [partial_txn t_done o_res o_srv o_app o_packets app].
    rewrite (IH kas (i + 1) (data ++ c)); auto.
    + cbn. rewrite srv_set_set. rewrite <- app_assoc.
      now replace (i + 1 + len rest) with (i + (1 + len rest)) by lia.
    + apply chan_lookup_set_eq.
    + lia.
    + rewrite len_app. lia.
Qed.

Lemma request_silent {A} (h : apps A) s a ch cmd n first rest kas :
  ch < 4294967296 -> 128 <= cmd < 256 -> cmd <> cmd_cancel -> n < 65536 ->
  chan_lookup ch (srv_channels s) = Some None ->
  len rest <= 128 -> length kas = S (length rest) ->
  len first + len (concat rest) < n ->
  hid_run h s a (combine kas (host_request ch cmd n first rest)) =
  mk_outcome (srv_set s ch (Some (partial_txn ch cmd n (first ++ concat rest) (len rest))))
    a [] (Ok tt).
Proof.
  intros Hch Hc Hcc Hn Hl Hr Hk Hd.
  destruct kas as [|ka kas]; [easy|]. simpl in Hk.
  unfold host_request. cbn [combine hid_run].
  rewrite (hid_handle_open h s a ka ch _ _ Hch Hl).
  unfold channel_handle. rewrite (new_transaction_first ch cmd n first Hch Hc Hcc Hn).
  replace (n <=? len first) with false by lia.
  cbn [partial_txn t_done o_res o_srv o_app o_packets app].
  rewrite (continuations_silent h ch cmd n Hch rest kas 0 first); auto.
  - cbn. now rewrite srv_set_set.
  - apply chan_lookup_set_eq.
Qed.

(* ------------------------------------------------------------------ *)
(* C04: what a conforming host sends                                   *)

Lemma split59_spec : forall fuel p, (length p <= fuel)%nat ->
  exists z, concat (split59 fuel p) = p ++ z /\
  len (split59 fuel p) = (len p + 58) / 59 /\
  (split59 fuel p <> [] -> len (concat (removelast (split59 fuel p))) < len p).
Proof.
  induction fuel as [|fuel IH]; intros p Hf.
  - destruct p; [|simpl in Hf; lia]. exists []. cbn. repeat split; easy.
  - destruct p as [|x p'] eqn:E.
    + exists []. cbn. repeat split; easy.
    + rewrite <- E in *.
      assert (split59 (S fuel) p
        = (firstn 59 p ++ repeat 0 (59 - length p)) :: split59 fuel (skipn 59 p)) as ->
        by (rewrite E; reflexivity).
      assert (0 < len p) as Hp by (rewrite E, len_cons; lia).
      destruct (IH (skipn 59 p)) as [z [C [L R]]].
      { rewrite skipn_length. assert (length p = S (length p')) by (rewrite E; reflexivity). lia. }
      change (skipn 59 p) with (dropN 59 p) in *. change (firstn 59 p) with (takeN 59 p) in *.
      rewrite dropN_len in *.
      cbn [concat]. rewrite C, len_cons, L.
      destruct (N.le_gt_cases (len p) 59) as [S|S].
      * rewrite (dropN_all p), (takeN_all p) by lia.
        exists (repeat 0 (59 - length p) ++ z). repeat split.
        -- now rewrite app_nil_l, app_assoc.
        -- lia.
        -- intros _.
           assert (split59 fuel [] = []) as -> by (destruct fuel; reflexivity).
           cbn. rewrite len_nil. lia.
      * exists z. replace (59 - length p)%nat with 0%nat by (rewrite length_len; lia).
        cbn [repeat]. rewrite app_nil_r. repeat split.
        -- now rewrite app_assoc, takeN_dropN.
        -- lia.
        -- intros _.
           assert (split59 fuel (dropN 59 p) <> []) as NE.
           { intro K. rewrite K in L. rewrite len_nil in L. lia. }
           rewrite removelast_cons by auto. cbn [concat]. rewrite len_app, takeN_len.
           specialize (R NE). lia.
Qed.

Lemma host_send_request ch cmd p : len p <= 7609 ->
  exists first rest z, host_send ch cmd p = host_request ch cmd (len p) first rest /\
  first ++ concat rest = p ++ z /\ completes (len p) first rest /\ len rest <= 128.
Proof.
  intro Hp. unfold host_send.
  destruct (split59_spec (length p) (skipn 57 p)) as [z [C [L R]]].
  { rewrite skipn_length. lia. }
  change (skipn 57 p) with (dropN 57 p) in *. change (firstn 57 p) with (takeN 57 p) in *.
  rewrite dropN_len in *.
  set (rest := split59 (length p) (dropN 57 p)) in *.
  exists (takeN 57 p ++ repeat 0 (57 - length p)), rest,
    (if len p <=? 57 then repeat 0 (57 - length p) ++ z else z).
  split; [reflexivity|].
  assert (len (concat rest) = len p - 57 + len z) as LC
    by (rewrite C, len_app, dropN_len; lia).
  assert (len (takeN 57 p ++ repeat 0 (57 - length p)) = 57) as LF.
  { rewrite len_app, takeN_len. change (repeat 0 (57 - length p)) with (zeros (57 - length p)).
    rewrite len_zeros, length_len. lia. }
  repeat split.
  - rewrite C. destruct (N.leb_spec (len p) 57).
    + rewrite takeN_all, dropN_all by lia. now rewrite app_nil_l, app_assoc.
    + replace (57 - length p)%nat with 0%nat by (rewrite length_len; lia).
      cbn [repeat]. now rewrite app_nil_r, app_assoc, takeN_dropN.
  - lia.
  - intro NE. specialize (R NE). lia.
  - lia.
Qed.

Lemma ping_echo {A} (h : apps A) s a ch p kas :
  ch < 4294967296 -> 1 <= len p <= 7609 ->
  chan_lookup ch (srv_channels s) = Some None ->
  length kas = length (host_send ch 0x81 p) ->
  let o := hid_run h s a (combine kas (host_send ch 0x81 p)) in
  host_receive ch (o_packets o) = Some (0x81, p) /\
  o_srv o = s /\ o_app o = a /\ o_res o = Ok tt.
Proof.
  intros Hch Hp Hl Hk.
  destruct (host_send_request ch 0x81 p) as [f [r [z [E [Hc [Hcm Hr]]]]]]; [lia|].
  rewrite E in *. 
  assert (length kas = S (length r)) as Hk'.
  { rewrite Hk. unfold host_request. cbn [length]. f_equal.
    clear. generalize 0. induction r; intro i; cbn; auto. }
  assert (dispatchable ch 0x81) as Hd by (split; [cbn; auto|auto]).
  destruct (request_reassembly h s a ch 0x81 (len p) f r kas Hch Hd ltac:(lia) Hl Hr Hcm Hk')
    as [T S].
  rewrite Hc, takeN_exact in T by reflexivity.
  unfold triple, spec_reply in T. change (129 =? 129) with true in T. cbv iota in T.
  cbv zeta in *. injection T as T1 T2 T3. rewrite T2. repeat split; auto.
  apply host_receive_ok; auto; lia.
Qed.
