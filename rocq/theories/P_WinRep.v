(* Proofs about runs of the Windows client's forwarder: replies, and what is written when
   it waits. *)
From Verif Require Import Base M_WinFwd S_Usbip S_WinFwd P_Usbip1 P_WinFwd P_WinRun.
Open Scope N_scope.

(* ------------------------------------------------- replies *)
Definition rep_item (r : reply) : item :=
  match r with
  | RSubmit seq dir n payload => mk_item (ret_wire seq n) (ret_host seq dir n) (ret_host seq dir n) payload
  | RUnlink seq removed => mk_item (unret_wire seq removed) (unret_host seq removed) (unret_host seq removed) []
  end.

Lemma rep_in r : it_in (rep_item r) = reply_wire r.
Proof.
  destruct r; unfold it_in, rep_item, reply_wire, spec_ret_submit, spec_ret_unlink, ret_wire, unret_wire;
    cbn [it_a it_d]; rewrite ?app_nil_r, <- ?app_assoc; reflexivity.
Qed.

Lemma rep_out r : it_out (rep_item r) = reply_host r.
Proof.
  destruct r; unfold it_out, rep_item, reply_host, ret_host, unret_host;
    cbn [it_b it_d]; rewrite ?app_nil_r, <- ?app_assoc; reflexivity.
Qed.

Lemma rep_in_map rs : concat (map it_in (map rep_item rs)) = concat (map reply_wire rs).
Proof. induction rs as [|r rs IH]; cbn [map concat]; [reflexivity|]. now rewrite IH, rep_in. Qed.
Lemma rep_out_map rs : concat (map it_out (map rep_item rs)) = concat (map reply_host rs).
Proof. induction rs as [|r rs IH]; cbn [map concat]; [reflexivity|]. now rewrite IH, rep_out. Qed.

Lemma submit_dir_small ms seq devid dir ep flags start packets interval n setup d :
  Forall driver_request ms -> In (MSubmit seq devid dir ep flags start packets interval n setup d) ms ->
  seq < 4294967296 /\ dir < 4294967296.
Proof. intros F I. rewrite Forall_forall in F. destruct (F _ I) as (W & _). cbn in W. unfold u32 in W. tauto. Qed.

Lemma rep_ok ms r : Forall driver_request ms -> answers_one ms r -> item_ok false false (rep_item r).
Proof.
  intros F A. destruct r; unfold item_ok, rep_item; cbn [it_a it_m it_b it_d].
  - destruct A as ((devid & ep & flags & start & pk & iv & m & su & d & I) & B & _).
    destruct (submit_dir_small _ _ _ _ _ _ _ _ _ _ _ _ F I) as (B1 & B2).
    destruct (ret_fields seq dir n B1 B2 B) as (F1 & F2 & F3 & F4 & F5 & F6).
    split; [unfold ret_wire; rewrite !len_app, !len_be, !len_zeros; reflexivity|].
    split; [exact F1|]. split; [exact F1|]. split; [|reflexivity].
    unfold get_iso_len. rewrite F2, F6. reflexivity.
  - destruct (unret_fields seq removed) as (F1 & F2).
    split; [unfold unret_wire; destruct removed; rewrite !len_app, !len_be, !len_zeros; reflexivity|].
    split; [exact F1|]. split; [exact F1|]. split; [|reflexivity].
    unfold get_iso_len. rewrite F2. reflexivity.
Qed.

Lemma flat_unique {A B} (f : A -> list B) l x y q : NoDup (flat_map f l) ->
  In x l -> In y l -> In q (f x) -> In q (f y) -> x = y.
Proof.
  induction l as [|a l IH]; cbn [flat_map]; intros N X Y Qx Qy; [contradiction|].
  assert (forall z, In z l -> In q (f z) -> In q (f a) -> False) as K.
  { intros z Z Qz Qa. revert N Qa. generalize (f a). intro u. induction u as [|b u IHu]; intros N Qa; [contradiction|].
    cbn in N. inversion N as [|? ? N1 N2]. subst. destruct Qa as [->|Qa].
    - apply N1, in_or_app. right. apply in_flat_map. eauto.
    - auto. }
  assert (NoDup (flat_map f l)) as N'.
  { clear -N. revert N. generalize (f a). intro u. induction u as [|b u IHu]; intro N; auto.
    cbn in N. inversion N. auto. }
  destruct X as [->|X], Y as [->|Y]; auto; exfalso; eauto.
Qed.

Lemma last_like_app q a b acc : last_like q (a ++ b) acc = last_like q b (last_like q a acc).
Proof. revert acc. induction a as [|[s d n p|s n p] a IH]; intro acc; cbn [app last_like]; auto. Qed.

Lemma remembered_prefix ms a b : all_remembered ms (a ++ b) -> all_remembered ms a.
Proof. intros H x q n p y E. apply (H x q n p (y ++ b)). rewrite E, <- app_assoc. reflexivity. Qed.

(* ------------------------------------------------- what turns do to headers *)
Lemma read_devbuf_data p n q : read_devbuf p n = Ok q -> pi_offhdr p <= len (pi_p p) ->
  dropN (pi_offhdr q) (pi_p q) = dropN (pi_offhdr p) (pi_p p) /\ pi_step q = pi_step p /\ pi_reading q = Some n.
Proof.
  unfold read_devbuf, start_read. intros H L.
  repeat match type of H with context [if ?b then _ else _] => destruct b; try discriminate end;
  injection H as <-; cbn [pi_offhdr pi_p pi_step pi_reading]; rewrite ?dropN_0; auto.
Qed.

Lemma set32_field h v : len h = 48 -> len (set32 h 12 v) = 48 /\
  (forall i, i + 4 <= 12 -> host32 i (set32 h 12 v) = host32 i h) /\
  (forall i, 16 <= i -> host32 i (set32 h 12 v) = host32 i h).
Proof.
  intro L. unfold set32. assert (len (takeN 12 h) = 12) as L1 by (rewrite takeN_len; lia).
  split; [rewrite !len_app, L1, le_len, dropN_len; lia|]. split; intros i H; unfold host32; f_equal.
  - rewrite <- (slice_take _ i 4 12), <- (slice_take h i 4 12) by lia. now rewrite takeN_exact.
  - change (12 + 4) with 16. f_equal. replace i with (16 + (i - 16)) by lia. rewrite <- !dropN_dropN. f_equal.
    rewrite app_assoc, dropN_exact; [reflexivity|]. rewrite len_app, L1, le_len. reflexivity.
Qed.

Lemma get_xfer_len_header req c h c' h' x : get_xfer_len req c h = (c', h', x) -> len h = 48 -> len h' = 48 /\
  host32 0 h' = host32 0 h /\ host32 4 h' = host32 4 h /\ host32 24 h' = host32 24 h /\ host32 32 h' = host32 32 h /\
  (req = true -> h' = h).
Proof.
  intros E L. unfold get_xfer_len in E. destruct req.
  - destruct (_ =? 2); injection E as <- <- <-; auto 10.
  - destruct (_ =? 4); [injection E as <- <- <-; repeat split; auto; discriminate|].
    unfold cache_direction in E. destruct (c _) as [s d]. destruct (_ =? s).
    2: { injection E as <- <- <-. repeat split; auto; discriminate. }
    injection E as <- <- <-. destruct (set32_field h d L) as (A & B & C).
    split; [exact A|]. split; [apply B; lia|]. split; [apply B; lia|]. split; [apply C; lia|].
    split; [apply C; lia|discriminate].
Qed.

Lemma swap32_len h i : i + 4 <= len h -> len (swap32 h i) = len h.
Proof.
  intro H. unfold swap32. rewrite !len_app, len_rev, !takeN_len, !dropN_len. lia.
Qed.

Lemma swaps_len l : forall h, Forall (fun i => i + 4 <= len h) l -> len (fold_left swap32 l h) = len h.
Proof.
  induction l as [|i l IH]; intros h F; cbn [fold_left]; auto. inversion F as [|? ? F1 F2]. subst.
  pose proof (swap32_len h i F1) as E. rewrite IH; [exact E|]. now rewrite E.
Qed.

Lemma swap_header_len b h : len h = 48 -> len (swap_header b h) = 48.
Proof.
  intro L.
  assert (len (swap_base h) = 48) as B by (unfold swap_base; rewrite swaps_len; auto; rewrite L; repeat constructor; lia).
  assert (forall k h', len h' = 48 -> len (swap_cmd k h') = 48) as C.
  { intros k h' L'. unfold swap_cmd. destruct (_ || _); [|destruct (_ || _); auto].
    - rewrite swaps_len; auto; rewrite L'; repeat constructor; lia.
    - rewrite swap32_len; auto; lia. }
  unfold swap_header. destruct b; apply C; exact B.
Qed.

(* a header that a turn has worked on, and leaves for the next turn *)
Lemma turn_header c p c' q : turn c p = Ok (c', q) -> pi_offhdr p <= len (pi_p p) -> pi_step q = 2 ->
  (pi_reading p <> None -> pi_step p = 2 /\ header_of q = header_of p /\ c' = c) /\
  (pi_reading p = None -> 48 <= bufread p /\ exists x, get_xfer_len (pi_req p) c (seen_header p) = (c', header_of q, x)).
Proof.
  intros T O S. unfold turn in T. destruct (pi_reading p) as [n|] eqn:R.
  - injection T as <- <-. split; [|discriminate]. intros _. revert S.
    unfold header_of. rewrite (write_devbuf_keeps p pi_step), (write_devbuf_keeps p pi_offhdr), (write_devbuf_keeps p pi_p) by reflexivity.
    auto.
  - split; [congruence|]. intros _. destruct (read_dev c p) as [[[c1 p1] b]|] eqn:E; cbn [rbind] in T; [|discriminate].
    injection T as <- <-. unfold read_dev in E. destruct (N.ltb_spec (bufread p) 48) as [B|B].
    + destruct (read_devbuf _ _) as [p2|] eqn:D; cbn [rbind] in E; [|discriminate]. injection E as <- <- <-.
      destruct (read_devbuf_data _ _ _ D) as (_ & S2 & _); [exact O|]. rewrite S2 in S. discriminate S.
    + split; [exact B|]. fold (header_of p) in E.
      change (if (pi_step p =? 1) && pi_swap_in p then swap_header true (header_of p) else header_of p)
        with (seen_header p) in E.
      assert (len (header_of p) = 48) as L48.
      { unfold header_of. rewrite takeN_len, dropN_len. unfold bufread in B. lia. }
      assert (len (seen_header p) = 48) as L48'.
      { unfold seen_header. destruct (_ && _); auto. revert L48. generalize (header_of p). intros h Lh.
        apply swap_header_len. exact Lh. }
      destruct (get_xfer_len (pi_req p) c (seen_header p)) as [[c2 h2] x] eqn:G.
      destruct (get_xfer_len_header _ _ _ _ _ _ G L48') as (L2 & _).
      destruct (_ <? _).
      * destruct (read_devbuf _ _) as [p2|] eqn:D; cbn [rbind] in E; [|discriminate]. injection E as <- <- <-.
        assert (len (takeN (pi_offhdr p) (pi_p p)) = pi_offhdr p) as Lt by (rewrite takeN_len; lia).
        destruct (read_devbuf_data _ _ _ D) as (D2 & S2 & _).
        { cbn [pi_offhdr pi_p set_header]. rewrite len_app, Lt. lia. }
        exists x. unfold header_of. rewrite D2. cbn [pi_offhdr pi_p set_header].
        rewrite dropN_exact by exact Lt. now rewrite takeN_exact.
      * destruct (_ && _); [discriminate|]. injection E as <- <- <-.
        exfalso. revert S. rewrite (write_devbuf_keeps _ pi_step) by reflexivity. discriminate.
Qed.

Lemma sees_at p : pi_reading p = None -> pi_step p <> 2 -> 48 <= bufread p ->
  sees p = let h1 := seen_header p in
    if pi_req p
    then if host32 0 h1 =? 2 then [] else [SawRequest (host32 4 h1) (host32 12 h1) (host32 24 h1) (host32 32 h1)]
    else if host32 0 h1 =? 4 then [] else [SawReply (host32 4 h1) (host32 24 h1) (host32 32 h1)].
Proof.
  intros R S B. unfold sees. rewrite R. apply N.eqb_neq in S. apply N.leb_le in B. rewrite S, B. reflexivity.
Qed.

Lemma sees_not p : pi_reading p <> None \/ pi_step p = 2 \/ bufread p < 48 -> sees p = [].
Proof.
  intro H. unfold sees. destruct (pi_reading p); auto. destruct H as [H|[->|H]]; auto; [congruence|].
  apply N.leb_gt in H. now rewrite H, andb_false_r.
Qed.

Lemma turn_cache_rep c p : pi_req p = false -> turn_cache c p = c.
Proof.
  intro R. unfold turn_cache. destruct (pi_reading p); auto. destruct (_ <? _); auto. rewrite R.
  unfold get_xfer_len. destruct (_ =? 4); auto. destruct (cache_direction _ _); auto.
Qed.

Section Replies.
  Variable ms : list message.
  Variable rs : list reply.
  Hypothesis good : Forall driver_request ms.
  Hypothesis unique : NoDup (flat_map seq_of ms).
  Hypothesis nonzero : ~ In 0 (flat_map seq_of ms).
  Hypothesis answers : Forall (answers_one ms) rs.
  Variables mx bl : N.
  Hypothesis small : Forall (fun m => len (host_bytes m) <= mx) ms.
  Hypothesis small' : Forall (fun r => len (reply_wire r) <= mx) rs.
  Hypothesis mx48 : 48 <= mx.
  Hypothesis room : mx + bl < 4294967296.
  Let its := map req_item ms.
  Let rits := map rep_item rs.

  Definition dir_of (q d : N) : Prop := exists devid ep flags start packets interval n setup data,
    In (MSubmit q devid d ep flags start packets interval n setup data) ms.

  Lemma dir_unique q d d' : dir_of q d -> dir_of q d' -> d = d'.
  Proof.
    intros (? & ? & ? & ? & ? & ? & ? & ? & ? & A) (? & ? & ? & ? & ? & ? & ? & ? & ? & B).
    pose proof (flat_unique seq_of ms _ _ q unique A B (or_introl eq_refl) (or_introl eq_refl)) as E. congruence.
  Qed.

  Lemma dir_nonzero q d : dir_of q d -> q <> 0.
  Proof.
    intros (? & ? & ? & ? & ? & ? & ? & ? & ? & A) ->. apply nonzero. apply in_flat_map.
    eexists. split; [exact A|now left].
  Qed.

  (* the cache knows the requests seen last, and no others *)
  Definition cache_ok (c : cache) (log : list seen) : Prop :=
    (forall q s, last_like q log None = Some s -> fst (c (q mod 1024)) = s) /\
    (forall k, c k = (0, 0) \/ dir_of (fst (c k)) (snd (c k))).
  (* the request being read is in the cache *)
  Definition current_ok (c : cache) (p : pipe) : Prop :=
    pi_step p = 2 -> host32 0 (header_of p) <> 2 ->
    c (host32 4 (header_of p) mod 1024) = (host32 4 (header_of p), host32 12 (header_of p)).

  Lemma cache_turn c p log c' q : req_flags p -> pipe_ok its p -> prefix (pi_in p) (concat (map host_bytes ms)) ->
    len (pi_in p) <= len (concat (pi_out p)) + bl -> cache_ok c log -> current_ok c p -> turn c p = Ok (c', q) ->
    cache_ok c' (log ++ sees p) /\ current_ok c' q.
  Proof.
    intros F P X Cm (C1 & C2) Cu T. pose proof F as (F1 & F2 & F3).
    assert (pi_offhdr p <= len (pi_p p)) as O by (destruct P as (? & ? & ? & _ & (_ & O & _)); exact O).
    destruct (req_turn ms good mx bl small mx48 room c p F P X Cm) as (q' & T' & _). rewrite T in T'. injection T' as -> <-.
    assert (current_ok (turn_cache c p) q) as Cq.
    { intro S2. destruct (turn_header _ _ _ _ T O S2) as (H1 & H2).
      destruct (pi_reading p) as [n|] eqn:R.
      - destruct H1 as (S & Hh & Hc); [discriminate|]. rewrite Hh, Hc. now apply Cu.
      - destruct H2 as (B & x & G); auto. revert G. rewrite F1. unfold get_xfer_len.
        destruct (N.eqb_spec (host32 0 (seen_header p)) 2) as [Z|Z]; intro G; injection G as G1 G2 G3.
        + rewrite <- G2. congruence.
        + intros _. rewrite <- G1, <- G2. unfold cache_insert. now rewrite N.eqb_refl. }
    split; [|exact Cq]. clear Cq.
    unfold turn_cache. destruct (pi_reading p) as [n|] eqn:R.
    { rewrite sees_not by (rewrite R; left; discriminate). rewrite app_nil_r. now split. }
    destruct (N.ltb_spec (bufread p) 48) as [B|B].
    { rewrite sees_not by auto. rewrite app_nil_r. now split. }
    assert (exists m, In m ms /\ seen_header p = it_m (req_item m)) as (m & Im & Em).
    { destruct P as (dn & rest & raw & Pr & _).
      destruct (current_item its p dn rest raw Pr) as (i & r & e & Er & _ & _ & Cur).
      - eapply Forall_impl; [|apply its_ok; exact good]. intros i (A & A' & _). auto.
      - unfold its. now rewrite it_in_map.
      - exact B.
      - assert (In i its) as Ii by (destruct Pr as (E & _); rewrite E, Er; apply in_or_app; right; now left).
        pose proof (its_ok ms good) as Ok. rewrite Forall_forall in Ok. destruct (Ok i Ii) as (A & A' & _).
        unfold its in Ii. apply in_map_iff in Ii. destruct Ii as (m & <- & Im). exists m. split; [exact Im|].
        unfold seen_header, header_of. rewrite F2, andb_false_r.
        destruct Cur as [(_ & _ & D)|(_ & D)]; rewrite D, takeN_exact by assumption; auto.
        destruct m; reflexivity. }
    rewrite F1. unfold get_xfer_len. destruct (N.eqb_spec (host32 0 (seen_header p)) 2) as [Z|Z].
    - cbn [fst]. replace (sees p) with (@nil seen); [rewrite app_nil_r; now split|].
      destruct (N.eq_dec (pi_step p) 2) as [S|S]; [now rewrite sees_not by auto|].
      rewrite sees_at by auto. cbv zeta. rewrite F1, Z. reflexivity.
    - cbn [fst].
      assert (dir_of (host32 4 (seen_header p)) (host32 12 (seen_header p))) as Dm.
      { rewrite Em in *. rewrite Forall_forall in good. pose proof (good m Im) as (W & G).
        destruct m; try contradiction; cbn [well_formed] in W; unfold req_item in *; cbn [it_m] in *.
        destruct W as (W1 & W2 & W3 & W4 & W5 & W6 & W7). subst.
        destruct (submit_fields seq devid dir ep flags start 0 interval n setup W6 W1 W3 W5 ltac:(lia))
          as (G1 & G2 & G3 & G4 & G5 & G6). rewrite G3, G4. repeat eexists. exact Im. }
      destruct (N.eq_dec (pi_step p) 2) as [S|S].
      + rewrite sees_not by auto. rewrite app_nil_r.
        assert (seen_header p = header_of p) as Eh by (unfold seen_header; now rewrite F2, andb_false_r).
        rewrite Eh in *. specialize (Cu S Z).
        assert (forall k, cache_insert c (host32 4 (header_of p)) (host32 12 (header_of p)) k = c k) as K.
        { intro k. unfold cache_insert. destruct (N.eqb_spec k (host32 4 (header_of p) mod 1024)) as [->|]; auto. }
        split; intros; rewrite K; auto.
      + rewrite sees_at by auto. cbv zeta. rewrite F1. apply N.eqb_neq in Z. rewrite Z. split.
        * intros k s. rewrite last_like_app. cbn [last_like]. unfold cache_insert.
          rewrite (N.eqb_sym (k mod 1024)).
          destruct (_ =? k mod 1024) eqn:Ek; [|apply C1].
          intro H. injection H as <-. reflexivity.
        * intro k. unfold cache_insert. destruct (k =? _); [right; exact Dm|apply C2].
  Qed.

  Lemma current_read c p data q : pipe_ok its p -> current_ok c p -> read_done p data = Some q -> current_ok c q.
  Proof.
    intros (dn & rest & raw & (E & _ & _ & _ & _ & X) & (_ & O & _)) C D. unfold read_done in D.
    destruct (pi_reading p); [|discriminate]. destruct (_ || _); [discriminate|]. injection D as <-.
    intros S. cbn [pi_step] in S.
    destruct X as [(_ & i & r & e & Er & Ec & _)|(S' & _)]; [|congruence].
    assert (In i its) as Ii by (rewrite E, Er; apply in_or_app; right; now left).
    pose proof (its_ok ms good) as Ok. rewrite Forall_forall in Ok. destruct (Ok i Ii) as (A & A' & _).
    unfold current_ok, header_of in *. cbn [pi_p pi_offhdr]. rewrite drop_app_le by exact O.
    rewrite Ec, <- app_assoc, takeN_exact by exact A'. rewrite Ec, takeN_exact in C by exact A'. auto.
  Qed.

  Lemma current_write c p n q : current_ok c p -> write_done p n = Some q -> current_ok c q.
  Proof.
    intros C D. unfold write_done in D.
    destruct (pi_writing p); [|discriminate]. destruct (_ || _); [discriminate|]. injection D as <-. exact C.
  Qed.

  Lemma rits_ok : Forall (item_ok false false) rits.
  Proof.
    apply Forall_map. eapply Forall_impl; [|exact answers]. intros r. now apply rep_ok with (ms := ms).
  Qed.

  Lemma rep_handled c log p r : rep_flags p -> answers_one ms r -> cache_ok c log ->
    all_remembered ms (log ++ sees p) -> pi_reading p = None -> 48 <= bufread p ->
    (pi_step p = 1 /\ header_of p = it_a (rep_item r) \/ pi_step p = 2 /\ header_of p = it_m (rep_item r)) ->
    handled c p (rep_item r).
  Proof.
    intros (F1 & F2 & F3) A (C1 & C2) M R B H. unfold handled. rewrite F1.
    destruct r as [seq dir n payload|seq removed]; cbn [rep_item it_a it_m it_d] in *.
    2: { exists c.
         replace (seen_header p) with (unret_host seq removed).
         - destruct (unret_fields seq removed) as (G1 & G2). unfold get_xfer_len. rewrite G2. reflexivity.
         - unfold seen_header. destruct H as [[-> ->]|[-> ->]]; rewrite F2; [|reflexivity].
           symmetry. apply unret_swap. }
    destruct A as ((devid & ep & flags & start & pk & iv & m & su & d & I) & B3 & Pl).
    destruct (submit_dir_small _ _ _ _ _ _ _ _ _ _ _ _ good I) as (B1 & B2).
    assert (dir_of seq dir) as Dr by (repeat eexists; exact I).
    assert (forall x, c (seq mod 1024) = (seq, x) -> x = dir) as Cd.
    { intros x Ex. destruct (C2 (seq mod 1024)) as [Z|Z]; rewrite Ex in Z.
      - exfalso. apply (dir_nonzero _ _ Dr). congruence.
      - cbn [fst snd] in Z. exact (dir_unique _ _ _ Z Dr). }
    assert (exists d0, seen_header p = ret_host seq d0 n /\ d0 < 4294967296 /\
      (d0 = dir \/ c (seq mod 1024) = (seq, dir))) as (d0 & Es & B0 & Hd).
    { destruct H as [[S H]|[S H]].
      - exists 0. assert (seen_header p = ret_host seq 0 n) as Es.
        { unfold seen_header. rewrite S, F2, H. apply ret_swap. }
        split; [exact Es|]. split; [lia|].
        destruct (N.eq_dec dir 0) as [->|Nz]; [now left|]. right.
        assert (last_like seq log None = Some seq) as Ll.
        { rewrite sees_at in M by (auto; rewrite S; discriminate). cbv zeta in M. rewrite F1, Es in M.
          destruct (ret_fields seq 0 n B1 ltac:(lia) B3) as (G1 & G2 & G3 & G4 & G5 & G6).
          rewrite G2, G3, G5, G6 in M. change (3 =? 4) with false in M. cbv iota in M.
          eapply (M log seq n 0 []); [reflexivity|]. repeat eexists; [exact I|exact Nz]. }
        apply C1 in Ll. destruct (c (seq mod 1024)) as [s x] eqn:Ec. cbn [fst] in Ll. subst s.
        now rewrite (Cd x eq_refl).
      - exists dir. split; [unfold seen_header; now rewrite S, H|]. split; [exact B2|]. now left. }
    rewrite Es. clear H. exists c. unfold get_xfer_len, cache_direction.
    destruct (ret_fields seq d0 n B1 B0 B3) as (G1 & G2 & G3 & G4 & G5 & G6). rewrite G2, G3.
    change (3 =? 4) with false. cbv iota.
    assert (forall h, h = ret_host seq dir n -> (c, h, if dir =? 0 then 0 else host32 24 h) = (c, ret_host seq dir n, len payload)) as Fin.
    { intros h ->. destruct (ret_fields seq dir n B1 B2 B3) as (_ & _ & _ & _ & G & _). rewrite G.
      destruct (dir =? 0); rewrite Pl; reflexivity. }
    destruct (c (seq mod 1024)) as [s x] eqn:Ec. destruct (N.eqb_spec seq s) as [<-|Ns].
    - rewrite (Cd x eq_refl). apply Fin. apply ret_set.
    - destruct Hd as [->|Hd]; [|congruence]. rewrite G4. now apply Fin.
  Qed.

  Definition rep_inv (f : fwd) : Prop :=
    rep_flags (fw_rep f) /\ req_inv ms (fw_req f) /\
    (prefix (pi_in (fw_req f)) (concat (map host_bytes ms)) ->
     prefix (pi_in (fw_rep f)) (concat (map reply_wire rs)) -> all_remembered ms (fw_log f) ->
     pipe_ok rits (fw_rep f) /\ cache_ok (fw_cache f) (fw_log f) /\ current_ok (fw_cache f) (fw_req f)).

  Lemma rep_turn c log p : rep_flags p -> pipe_ok rits p -> prefix (pi_in p) (concat (map reply_wire rs)) ->
    len (pi_in p) <= len (concat (pi_out p)) + bl -> cache_ok c log -> all_remembered ms (log ++ sees p) ->
    exists q, turn c p = Ok (c, q) /\ pipe_ok rits q /\ same_ends q p.
  Proof.
    intros F P X Cm C M. pose proof F as (F1 & F2 & F3).
    pose proof (turn_ok rits c p mx P) as T. rewrite (turn_cache_rep c p F1) in T. apply T; clear T.
    - rewrite F1, F3. apply rits_ok.
    - unfold rits. now rewrite rep_in_map.
    - apply Forall_map. eapply Forall_impl; [|exact small']. intros r. now rewrite rep_in.
    - exact mx48.
    - lia.
    - lia.
    - intros i Ii R B H. unfold rits in Ii. apply in_map_iff in Ii. destruct Ii as (r & <- & Ir).
      pose proof answers as A. rewrite Forall_forall in A. eapply rep_handled; eauto.
  Qed.

  Lemma rep_step f l g : (forall side, len (pi_in (pipe_of f side)) <= len (concat (pi_out (pipe_of f side))) + bl) ->
    rep_inv f -> fwd_step f l = Some (Ok g) -> rep_inv g.
  Proof.
    intros Cm (F & Q & H) E. pose proof (req_step ms good mx bl small mx48 room f l g (Cm true) Q E) as Q'.
    destruct l as [|[|] data|[|] n]; cbn [fwd_step] in E.
    - injection E as E. destruct (iterate_parts _ _ E) as (c1 & T1 & T2 & Lg & _).
      pose proof (turn_ends _ _ _ _ T1) as S1. pose proof (turn_ends _ _ _ _ T2) as S2.
      split; [eapply same_rep_flags; eauto|]. split; [exact Q'|].
      pose proof S1 as (-> & _). pose proof S2 as (-> & _). rewrite Lg. intros X1 X2 M.
      rewrite app_assoc in M.
      destruct (H X1 X2 (remembered_prefix _ _ _ (remembered_prefix _ _ _ M))) as (P & C & Cu).
      destruct Q as (Qf & Qp).
      destruct (cache_turn _ _ _ _ _ Qf (Qp X1) X1 (Cm true) C Cu T1) as (C' & Cu').
      destruct (rep_turn c1 _ _ F P X2 (Cm false) C' M) as (q & Eq & Pq & _). rewrite T2 in Eq. injection Eq as -> ->.
      split; [exact Pq|]. split; [|exact Cu'].
      destruct C' as (C1 & C2). split; [|exact C2]. intros k s Hs. apply C1.
      rewrite app_assoc, last_like_app in Hs. revert Hs.
      assert (forall acc, last_like k (sees (fw_rep f)) acc = acc) as ->; [|auto].
      { intro acc. destruct F as (F1 & _). unfold sees. destruct (pi_reading _); auto.
        destruct (_ && _); auto. rewrite F1. destruct (_ =? 4); auto. }
    - destruct (fw_waiting f); [|discriminate]. cbn [pipe_of] in E.
      destruct (read_done (fw_req f) data) as [q|] eqn:D; [|discriminate]. cbn [obind] in E. injection E as <-.
      split; [exact F|]. split; [exact Q'|]. cbn [with_pipe fw_req fw_rep fw_log fw_cache]. intros X1 X2 M.
      assert (pi_in q = pi_in (fw_req f) ++ data) as Ei.
      { unfold read_done in D. destruct (pi_reading _); [|discriminate]. destruct (_ || _); [discriminate|].
        now injection D as <-. }
      assert (prefix (pi_in (fw_req f)) (concat (map host_bytes ms))) as X1' by (rewrite Ei in X1; now apply prefix_app in X1).
      destruct (H X1' X2 M) as (P & C & Cu). split; [exact P|]. split; [exact C|].
      destruct Q as (_ & Qp). eapply current_read; eauto.
    - destruct (fw_waiting f); [|discriminate]. cbn [pipe_of] in E.
      destruct (read_done (fw_rep f) data) as [q|] eqn:D; [|discriminate]. cbn [obind] in E. injection E as <-.
      cbn [with_pipe].
      assert (pi_in q = pi_in (fw_rep f) ++ data /\ rep_flags q) as (Ei & Fq).
      { unfold read_done in D. destruct (pi_reading _); [|discriminate]. destruct (_ || _); [discriminate|].
        injection D as <-. split; [reflexivity|exact F]. }
      split; [exact Fq|]. split; [exact Q'|]. cbn [fw_req fw_rep fw_log fw_cache]. intros X1 X2 M.
      assert (prefix (pi_in (fw_rep f)) (concat (map reply_wire rs))) as X2' by (rewrite Ei in X2; now apply prefix_app in X2).
      destruct (H X1 X2' M) as (P & C & Cu). split; [|now split].
      eapply read_done_ok; [exact P|exact D|..].
      + unfold rits. now rewrite rep_in_map.
      + eapply Forall_impl; [|exact rits_ok]. intros i (A & B & _). auto.
    - destruct (fw_waiting f); [|discriminate]. cbn [pipe_of] in E.
      destruct (write_done (fw_req f) n) as [q|] eqn:D; [|discriminate]. cbn [obind] in E. injection E as <-.
      split; [exact F|]. split; [exact Q'|]. cbn [with_pipe fw_req fw_rep fw_log fw_cache]. intros X1 X2 M.
      assert (pi_in q = pi_in (fw_req f)) as Ei.
      { unfold write_done in D. destruct (pi_writing _); [|discriminate]. destruct (_ || _); [discriminate|].
        now injection D as <-. }
      rewrite Ei in X1. destruct (H X1 X2 M) as (P & C & Cu). split; [exact P|]. split; [exact C|].
      eapply current_write; eauto.
    - destruct (fw_waiting f); [|discriminate]. cbn [pipe_of] in E.
      destruct (write_done (fw_rep f) n) as [q|] eqn:D; [|discriminate]. cbn [obind] in E. injection E as <-.
      cbn [with_pipe].
      assert (same_ends q (fw_rep f)) as Se.
      { unfold write_done in D. destruct (pi_writing _); [|discriminate]. destruct (_ || _); [discriminate|].
        injection D as <-. repeat split. }
      split; [eapply same_rep_flags; eauto|]. split; [exact Q'|]. cbn [fw_req fw_rep fw_log fw_cache].
      pose proof Se as (-> & _). intros X1 X2 M. destruct (H X1 X2 M) as (P & C & Cu). split; [|now split].
      eapply write_done_ok; eauto.
  Qed.

  Lemma rep_run ls g : (forall side, calm bl side ls) -> fwd_run fwd0 ls = Some (Ok g) -> rep_inv g.
  Proof.
    intro C. refine (fwd_inv (fun f => forall side, len (pi_in (pipe_of f side)) <= len (concat (pi_out (pipe_of f side))) + bl)
      rep_inv _ rep_step ls g _); [|intros k f E side; exact (C side k f E)].
    split; [repeat split|]. split; [split; [repeat split|intros _; apply pipe0_ok]|].
    intros _ _ _. split; [apply pipe0_ok|]. split.
    - split; [discriminate|]. intro k. now left.
    - discriminate.
  Qed.

  Theorem replies_written ls g : (forall side, calm bl side ls) -> fwd_run fwd0 ls = Some (Ok g) ->
    prefix (pi_in (fw_req g)) (concat (map host_bytes ms)) ->
    prefix (pi_in (fw_rep g)) (concat (map reply_wire rs)) -> all_remembered ms (fw_log g) ->
    prefix (concat (pi_out (fw_rep g))) (concat (map reply_host rs)).
  Proof.
    intros C R X1 X2 M. destruct (rep_run ls g C R) as (_ & _ & H). destruct (H X1 X2 M) as (P & _).
    destruct P as (dn & rest & raw & (E & _) & (_ & _ & _ & D & _)).
    rewrite <- rep_out_map. fold rits.
    rewrite E, map_app, concat_app, <- D. exists (region (fw_rep g) ++ concat (map it_out rest)).
    now rewrite <- !app_assoc.
  Qed.
End Replies.

(* ------------------------------------------------- recent requests are remembered *)
Lemma last_like_kept q b : forall acc, acc = Some q ->
  (forall s d n p, In (SawRequest s d n p) b -> s mod 1024 <> q mod 1024) -> last_like q b acc = Some q.
Proof.
  induction b as [|[s d n p|s n p] b IH]; intros acc E H; cbn [last_like]; auto.
  - assert (s mod 1024 <> q mod 1024) as Ns by (eapply H; left; reflexivity).
    apply N.eqb_neq in Ns. rewrite Ns. apply IH; auto. intros. eapply H. right. eauto.
  - apply IH; auto. intros. eapply H. right. eauto.
Qed.

Lemma recent_remembered ms log : all_recent ms log -> all_remembered ms log.
Proof.
  intros H before q n p after E I. destruct (H _ _ _ _ _ E I) as (b1 & d & n' & p' & b2 & -> & R).
  rewrite last_like_app. cbn [last_like]. rewrite N.eqb_refl. apply last_like_kept; auto.
  intros s d2 n2 p2 Is. destruct (R _ _ _ _ Is) as (R1 & R2). intro M.
  pose proof (N.div_mod' s 1024) as D1. pose proof (N.div_mod' q 1024) as D2.
  pose proof (N.mod_lt q 1024 ltac:(discriminate)). rewrite M in D1.
  assert (q / 1024 < s / 1024 \/ s / 1024 <= q / 1024) as [K|K] by lia; nia.
Qed.

(* ------------------------------------------------- what is written when the loop waits *)
(* nothing complete is left in a second buffer *)
Definition flowing (p : pipe) : Prop :=
  pi_reading p = None -> bufread p = 0 -> pi_same p = true \/ 0 < bufremain p.

Lemma write_flows p : pi_same (write_devbuf p) = true \/ 0 < bufremain (write_devbuf p).
Proof.
  unfold write_devbuf. set (p1 := if negb (pi_same p) && (bufremain p =? 0) then _ else p).
  assert (pi_same p1 = true \/ 0 < bufremain p1) as H.
  { unfold p1. destruct (pi_same p) eqn:S; cbn [negb andb]; auto.
    destruct (N.eqb_spec (bufremain p) 0); [now left|right; lia]. }
  clearbody p1. destruct (pi_writing p1); auto. destruct (_ =? 0); auto.
Qed.

Lemma write_idle p : pi_writing (write_devbuf p) = None -> bufremain (write_devbuf p) = 0.
Proof.
  unfold write_devbuf. set (p1 := if negb (pi_same p) && (bufremain p =? 0) then _ else p). clearbody p1.
  destruct (pi_writing p1) eqn:W; [congruence|]. destruct (N.eqb_spec (bufremain p1) 0); [auto|discriminate].
Qed.

Lemma read_devbuf_buffers p n q : read_devbuf p n = Ok q ->
  bufremain q = bufremain p /\ (pi_same q = pi_same p \/ pi_same p = true /\ pi_offhdr q = 0) /\
  (pi_same p = false -> pi_same q = false).
Proof.
  unfold read_devbuf, start_read. intro H. destruct (pi_same p) eqn:S; cbn [negb] in H;
  repeat match type of H with context [if ?b then _ else _] => destruct b; try discriminate end;
  injection H as <-; unfold bufremain; cbn [pi_same pi_offhdr pi_maxc pi_offc]; auto.
  all: try (split; [reflexivity|]; split; [rewrite ?S; auto|congruence]).
Qed.

Lemma turn_flows c p c' q : turn c p = Ok (c', q) -> pi_offhdr p <= len (pi_p p) -> flowing p ->
  flowing q /\ (idle q = true -> pi_writing q = None -> bufread q = 0 -> region q = []).
Proof.
  intros T O J. unfold turn in T. destruct (pi_reading p) as [n|] eqn:R.
  - injection T as <- <-. split.
    + intro Rq. exfalso. revert Rq. rewrite (write_devbuf_keeps p pi_reading) by reflexivity. congruence.
    + intros _ W _. pose proof (write_idle p W) as Z. unfold region. rewrite Z.
      destruct (write_flows p) as [->|K]; [now rewrite takeN_0|lia].
  - destruct (read_dev c p) as [[[c1 p1] b]|] eqn:E; cbn [rbind] in T; [|discriminate]. injection T as <- <-.
    unfold read_dev in E. destruct (N.ltb_spec (bufread p) 48) as [B|B].
    + destruct (read_devbuf _ _) as [p2|] eqn:D; cbn [rbind] in E; [|discriminate]. injection E as <- <- <-.
      destruct (read_devbuf_data _ _ _ D) as (D2 & _ & D3); [exact O|].
      destruct (read_devbuf_buffers _ _ _ D) as (B1 & B2 & B3).
      split; [intro Rq; congruence|]. intros I W Z. unfold idle in I. rewrite D3, W in I. cbn [andb] in I.
      apply N.eqb_eq in I.
      assert (bufread p = 0) as Zp.
      { assert (len (dropN (pi_offhdr p2) (pi_p p2)) = len (dropN (pi_offhdr p) (pi_p p))) as L by (now rewrite D2).
        rewrite !dropN_len in L. unfold bufread in *. cbn [set_step pi_p pi_offhdr] in L. lia. }
      unfold region. rewrite I, takeN_0. cbn [app]. destruct (pi_same p2) eqn:S2; auto.
      destruct B2 as [B2|(_ & ->)]; [|now rewrite takeN_0].
      cbn [set_step pi_same] in B2. destruct (J R Zp) as [S|K]; [congruence|].
      unfold bufremain in *. cbn [set_step pi_maxc pi_offc] in B1. lia.
    + destruct (get_xfer_len _ _ _) as [[c2 h2] x] eqn:G. destruct (N.ltb_spec (bufread p) (u32mod (x + get_iso_len (pi_req p) h2) + 48)) as [B2|B2].
      * destruct (read_devbuf _ _) as [p2|] eqn:D; cbn [rbind] in E; [|discriminate]. injection E as <- <- <-.
        assert (len (header_of p) = 48) as L48.
        { unfold header_of. rewrite takeN_len, dropN_len. unfold bufread in B. lia. }
        fold (header_of p) in G. fold (seen_header p) in G.
        assert (len (seen_header p) = 48) as L48'.
        { unfold seen_header. destruct (_ && _); auto. now apply swap_header_len. }
        destruct (get_xfer_len_header _ _ _ _ _ _ G L48') as (L2 & _).
        assert (len (takeN (pi_offhdr p) (pi_p p)) = pi_offhdr p) as Lt by (rewrite takeN_len; lia).
        destruct (read_devbuf_data _ _ _ D) as (D2 & _ & D3).
        { cbn [pi_offhdr pi_p set_header]. rewrite len_app, Lt. lia. }
        split; [intro Rq; congruence|]. intros _ _ Z. exfalso.
        cbn [pi_offhdr pi_p set_header] in D2. rewrite dropN_exact in D2 by exact Lt.
        assert (len (dropN (pi_offhdr p2) (pi_p p2)) = 0) as L0 by (rewrite dropN_len; exact Z).
        rewrite D2, len_app, L2 in L0. lia.
      * match type of E with (if ?b then Panic else _) = _ => destruct b; [discriminate|] end.
        injection E as <- <- <-. split.
        -- intros _ _. apply write_flows.
        -- intros I. exfalso. unfold idle in I. rewrite (write_devbuf_keeps _ pi_reading) in I by reflexivity.
           cbn [pdu_done set_header pi_reading] in I. rewrite R in I. discriminate.
Qed.

Definition busy (f : fwd) (p : pipe) : Prop := fw_waiting f = true -> pi_reading p <> None \/ 0 < bufread p.

(* both pipes, or one of them, in a run that keeps the header offsets inside *)
Lemma flow_run (C : list fwd_label -> Prop) (ofs : fwd -> Prop) side :
  (forall ls l, C (ls ++ [l]) -> C ls) ->
  (forall ls g, C ls -> fwd_run fwd0 ls = Some (Ok g) -> ofs g -> pi_offhdr (pipe_of g side) <= len (pi_p (pipe_of g side))) ->
  (forall f l g, fwd_step f l = Some (Ok g) -> ofs g -> ofs f) ->
  forall ls g, C ls -> fwd_run fwd0 ls = Some (Ok g) -> ofs g -> flowing (pipe_of g side) /\ busy g (pipe_of g side).
Proof.
  intros H0 H1 H2 ls. induction ls as [|l ls IH] using rev_ind; intros g Cl R O.
  - injection R as <-. split.
    + intros _ _. left. destruct side; reflexivity.
    + discriminate.
  - destruct (fwd_run_snoc _ _ _ _ R) as (f & Rf & Rl). pose proof (H2 _ _ _ Rl O) as Of.
    pose proof (H0 _ _ Cl) as Cf.
    destruct (IH f Cf Rf Of) as (J & K). pose proof (H1 _ _ Cf Rf Of) as L.
    destruct l as [|r data|r n]; cbn [fwd_step] in Rl.
    + injection Rl as Rl. destruct (iterate_parts _ _ Rl) as (c1 & T1 & T2 & _ & W).
      assert (exists c c', turn c (pipe_of f side) = Ok (c', pipe_of g side)) as (c & c' & T).
      { destruct side; cbn [pipe_of]; eauto. }
      destruct (turn_flows _ _ _ _ T L J) as (J' & _). split; [exact J'|].
      intro Wg. rewrite W in Wg. apply andb_true_iff in Wg. left.
      assert (idle (pipe_of g side) = true) as I by (destruct side; tauto).
      unfold idle in I. destruct (pi_reading (pipe_of g side)); [discriminate|]. cbn [andb] in I. discriminate.
    + destruct (fw_waiting f) eqn:Wf; [|discriminate].
      destruct (read_done _ data) as [q|] eqn:D; [|discriminate]. cbn [obind] in Rl. injection Rl as <-.
      destruct (Bool.bool_dec r side) as [<-|Ns].
      * assert (0 < bufread q) as Bq.
        { unfold read_done in D. destruct (pi_reading _); [|discriminate].
          destruct ((len data =? 0) || (_ <? len data)) eqn:Z; [discriminate|]. injection D as <-.
          apply orb_false_iff in Z. destruct Z as (Z & _). apply N.eqb_neq in Z.
          unfold bufread. cbn [pi_p pi_offhdr]. rewrite len_app. lia. }
        assert (pipe_of (with_pipe f r q) r = q) as -> by (destruct r; reflexivity).
        split; [intros _ Z; lia|]. intros _. now right.
      * assert (pipe_of (with_pipe f r q) side = pipe_of f side) as Ep by (destruct r, side; try reflexivity; congruence).
        rewrite Ep. split; [exact J|]. intros _. now apply K.
    + destruct (fw_waiting f) eqn:Wf; [|discriminate].
      destruct (write_done _ n) as [q|] eqn:D; [|discriminate]. cbn [obind] in Rl. injection Rl as <-.
      destruct (Bool.bool_dec r side) as [<-|Ns].
      * assert (pi_reading q = pi_reading (pipe_of f r) /\ bufread q = bufread (pipe_of f r)) as (E1 & E2).
        { unfold write_done in D. destruct (pi_writing _); [|discriminate]. destruct (_ || _); [discriminate|].
          injection D as <-. auto. }
        assert (pipe_of (with_pipe f r q) r = q) as -> by (destruct r; reflexivity).
        assert (pi_reading q <> None \/ 0 < bufread q) as B by (rewrite E1, E2; now apply K).
        split; [intros X Y; destruct B; [congruence|lia]|]. intros _. exact B.
      * assert (pipe_of (with_pipe f r q) side = pipe_of f side) as Ep by (destruct r, side; try reflexivity; congruence).
        rewrite Ep. split; [exact J|]. intros _. now apply K.
Qed.

(* all of the messages have come: all of them have gone *)
Lemma all_gone its p : pipe_ok its p -> Forall (fun i => len (it_a i) = 48) its ->
  pi_in p = concat (map it_in its) -> pi_reading p <> None -> bufread p = 0 /\
  concat (pi_out p) ++ region p = concat (map it_out its).
Proof.
  intros (dn & rest & raw & (E & I & _ & _ & R & X) & (_ & O & _ & D & _)) F P Rd.
  unfold reading_ok in R. destruct (pi_reading p) as [n|] eqn:Er; [|congruence].
  rewrite P, E, map_app, concat_app in I. apply app_inv_head in I.
  assert (Forall (fun i => len (it_a i) = 48) rest) as Fr by (rewrite E in F; now apply Forall_app in F).
  assert (bufread p = len (dropN (pi_offhdr p) (pi_p p))) as Bl by (unfold bufread; now rewrite dropN_len).
  unfold in_data, in_header in X. rewrite Er in X. destruct X as [(_ & i & r & e & -> & _ & Er' & Pe & Ln)|(_ & Ec & _ & _ & _ & Ln)].
  - exfalso. rewrite Er' in I. cbn [map concat] in I. unfold it_in in I at 1. rewrite <- app_assoc in I.
    apply app_inv_head in I. assert (len (it_d i ++ concat (map it_in r)) = len e) as L by (now rewrite I).
    rewrite len_app in L. lia.
  - destruct rest as [|i r].
    + cbn [map concat] in I. rewrite Bl, Ec, <- I. split; [reflexivity|].
      rewrite D, E, app_nil_r. reflexivity.
    + exfalso. cbn [map concat] in I. apply Forall_inv in Fr. rename Fr into F1.
      assert (len raw = len (it_in i ++ concat (map it_in r))) as L by (now rewrite I).
      unfold it_in in L at 1. rewrite !len_app in L. lia.
Qed.

Lemma idle_reading p : idle p = true -> pi_reading p <> None.
Proof. unfold idle. destruct (pi_reading p); [discriminate|]. cbn [andb]. discriminate. Qed.

Theorem requests_gone ms mx bl ls g : Forall driver_request ms ->
  Forall (fun m => len (host_bytes m) <= mx) ms -> 48 <= mx -> mx + bl < 4294967296 -> calm bl true ls ->
  fwd_run fwd0 (ls ++ [Iterate]) = Some (Ok g) -> fw_waiting g = true ->
  pi_in (fw_req g) = concat (map host_bytes ms) -> pi_writing (fw_req g) = None ->
  concat (pi_out (fw_req g)) = concat (map message_bytes ms).
Proof.
  intros G S1 S2 S3 C R W P Wr. destruct (fwd_run_snoc _ _ _ _ R) as (f & Rf & Rl). cbn [fwd_step] in Rl. injection Rl as Rl.
  destruct (iterate_parts _ _ Rl) as (c1 & T1 & _ & _ & Wg). rewrite Wg in W. apply andb_true_iff in W. destruct W as (I & _).
  assert (forall f, prefix (pi_in (fw_req f)) (concat (map host_bytes ms)) -> forall ls, calm bl true ls ->
    fwd_run fwd0 ls = Some (Ok f) -> pipe_ok (map req_item ms) (fw_req f)) as Q.
  { intros f' X ls' C' R'. destruct (req_run ms G mx bl S1 S2 S3 _ _ C' R') as (_ & H). auto. }
  assert (prefix (pi_in (fw_req g)) (concat (map host_bytes ms))) as Xg by (rewrite P; exists []; now rewrite app_nil_r).
  pose proof (turn_ends _ _ _ _ T1) as (Ei & _).
  assert (prefix (pi_in (fw_req f)) (concat (map host_bytes ms))) as Xf by (rewrite <- Ei; exact Xg).
  destruct (flow_run (calm bl true) (fun f => prefix (pi_in (fw_req f)) (concat (map host_bytes ms))) true) with (ls := ls) (g := f) as (J & _); auto.
  { intros ls' l'. apply calm_prefix. }
  { intros ls' g' C' R' X. destruct (Q _ X _ C' R') as (? & ? & ? & _ & (_ & O & _)). exact O. }
  { clear. intros f l g E X. destruct l as [|[|] data|[|] n]; cbn [fwd_step] in E.
    - injection E as E. destruct (iterate_parts _ _ E) as (c1 & T & _). apply turn_ends in T. destruct T as (T & _).
      now rewrite <- T.
    - destruct (fw_waiting f); [|discriminate]. unfold read_done in E. cbn [pipe_of] in E.
      destruct (pi_reading _); [|discriminate]. destruct (_ || _); [discriminate|]. cbn [obind] in E. injection E as <-.
      cbn [with_pipe fw_req pi_in] in X. now apply prefix_app in X.
    - destruct (fw_waiting f); [|discriminate]. destruct (read_done _ _); [|discriminate]. injection E as <-. exact X.
    - destruct (fw_waiting f); [|discriminate]. unfold write_done in E. cbn [pipe_of] in E.
      destruct (pi_writing _); [|discriminate]. destruct (_ || _); [discriminate|]. cbn [obind] in E. injection E as <-. exact X.
    - destruct (fw_waiting f); [|discriminate]. destruct (write_done _ _); [|discriminate]. injection E as <-. exact X. }
  cbn [pipe_of] in J.
  assert (pi_offhdr (fw_req f) <= len (pi_p (fw_req f))) as O.
  { destruct (Q _ Xf _ C Rf) as (? & ? & ? & _ & (_ & O & _)). exact O. }
  destruct (turn_flows _ _ _ _ T1 O J) as (_ & Z).
  destruct (all_gone (map req_item ms) (fw_req g)) as (B & A).
  - destruct (req_step ms G mx bl S1 S2 S3 f Iterate g) as (_ & H); auto.
    + apply (C (length ls)). now rewrite firstn_all.
    + apply (req_run ms G mx bl S1 S2 S3 ls f C Rf).
    + cbn [fwd_step]. now rewrite Rl.
  - eapply Forall_impl; [|apply its_ok; exact G]. intros i (A & _). exact A.
  - now rewrite it_in_map.
  - now apply idle_reading.
  - rewrite Z, app_nil_r in A by auto. now rewrite A, it_out_map.
Qed.

Theorem replies_gone ms rs mx bl ls g : Forall driver_request ms -> NoDup (flat_map seq_of ms) -> ~ In 0 (flat_map seq_of ms) ->
  Forall (answers_one ms) rs -> Forall (fun m => len (host_bytes m) <= mx) ms ->
  Forall (fun r => len (reply_wire r) <= mx) rs -> 48 <= mx -> mx + bl < 4294967296 ->
  (forall side, calm bl side ls) -> fwd_run fwd0 (ls ++ [Iterate]) = Some (Ok g) -> fw_waiting g = true ->
  prefix (pi_in (fw_req g)) (concat (map host_bytes ms)) -> all_remembered ms (fw_log g) ->
  pi_in (fw_rep g) = concat (map reply_wire rs) -> pi_writing (fw_rep g) = None ->
  concat (pi_out (fw_rep g)) = concat (map reply_host rs).
Proof.
  intros G U Nz A S1 S2 S3 S4 C R W X1 M P Wr. destruct (fwd_run_snoc _ _ _ _ R) as (f & Rf & Rl). cbn [fwd_step] in Rl. injection Rl as Rl.
  destruct (iterate_parts _ _ Rl) as (c1 & T1 & T2 & Lg & Wg). rewrite Wg in W. apply andb_true_iff in W. destruct W as (_ & I).
  set (ofs := fun f => prefix (pi_in (fw_req f)) (concat (map host_bytes ms)) /\
    prefix (pi_in (fw_rep f)) (concat (map reply_wire rs)) /\ all_remembered ms (fw_log f)).
  assert (forall f, ofs f -> forall ls, (forall side, calm bl side ls) -> fwd_run fwd0 ls = Some (Ok f) ->
    pipe_ok (map rep_item rs) (fw_rep f)) as Q.
  { intros f' (O1 & O2 & O3) ls' C' R'. destruct (rep_run ms rs G U Nz A mx bl S1 S2 S3 S4 _ _ C' R') as (_ & _ & H). now destruct (H O1 O2 O3). }
  assert (ofs g) as Og.
  { split; [exact X1|]. split; [rewrite P; exists []; now rewrite app_nil_r|exact M]. }
  assert (forall f l g, fwd_step f l = Some (Ok g) -> ofs g -> ofs f) as Back.
  { clear. intros f l g E (X1 & X2 & M). unfold ofs. destruct l as [|[|] data|[|] n]; cbn [fwd_step] in E.
    - injection E as E. destruct (iterate_parts _ _ E) as (c1 & T & T' & Lg & _). apply turn_ends in T. apply turn_ends in T'.
      destruct T as (T & _). destruct T' as (T' & _). rewrite <- T, <- T'. repeat split; auto.
      rewrite Lg in M. eapply remembered_prefix; eauto.
    - destruct (fw_waiting f); [|discriminate]. unfold read_done in E. cbn [pipe_of] in E.
      destruct (pi_reading _); [|discriminate]. destruct (_ || _); [discriminate|]. cbn [obind] in E. injection E as <-.
      cbn [with_pipe fw_req pi_in] in X1. apply prefix_app in X1. auto.
    - destruct (fw_waiting f); [|discriminate]. unfold read_done in E. cbn [pipe_of] in E.
      destruct (pi_reading _); [|discriminate]. destruct (_ || _); [discriminate|]. cbn [obind] in E. injection E as <-.
      cbn [with_pipe fw_rep pi_in] in X2. apply prefix_app in X2. auto.
    - destruct (fw_waiting f); [|discriminate]. unfold write_done in E. cbn [pipe_of] in E.
      destruct (pi_writing _); [|discriminate]. destruct (_ || _); [discriminate|]. cbn [obind] in E. injection E as <-. auto.
    - destruct (fw_waiting f); [|discriminate]. unfold write_done in E. cbn [pipe_of] in E.
      destruct (pi_writing _); [|discriminate]. destruct (_ || _); [discriminate|]. cbn [obind] in E. injection E as <-. auto. }
  pose proof (Back f Iterate g (f_equal Some Rl) Og) as Of.
  destruct (flow_run (fun ls => forall side, calm bl side ls) ofs false) with (ls := ls) (g := f) as (J & _); auto.
  { intros ls' l' H side. eapply calm_prefix; eauto. }
  { intros ls' g' C' R' X. destruct (Q _ X _ C' R') as (? & ? & ? & _ & (_ & O & _)). exact O. }
  cbn [pipe_of] in J.
  assert (pi_offhdr (fw_rep f) <= len (pi_p (fw_rep f))) as O.
  { destruct (Q _ Of _ C Rf) as (? & ? & ? & _ & (_ & O & _)). exact O. }
  destruct (turn_flows _ _ _ _ T2 O J) as (_ & Z).
  destruct (all_gone (map rep_item rs) (fw_rep g)) as (B & B').
  - destruct (rep_step ms rs G U Nz A mx bl S1 S2 S3 S4 f Iterate g) as (_ & _ & H); auto.
    + intro side. apply (C side (length ls)). now rewrite firstn_all.
    + apply (rep_run ms rs G U Nz A mx bl S1 S2 S3 S4 ls f C Rf).
    + cbn [fwd_step]. now rewrite Rl.
    + destruct Og as (O1 & O2 & O3). now destruct (H O1 O2 O3).
  - apply Forall_map. eapply Forall_impl; [|exact A]. intros r Ar. now destruct (rep_ok ms r G Ar).
  - now rewrite rep_in_map.
  - now apply idle_reading.
  - rewrite Z, app_nil_r in B' by auto. now rewrite B', rep_out_map.
Qed.
