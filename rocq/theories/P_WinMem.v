(* Proofs about the buffers of the Windows client's forwarder, for arbitrary input. *)
From Verif Require Import Base M_WinFwd S_Usbip S_WinFwd P_Usbip1 P_WinFwd P_WinRun P_WinRep.
Open Scope N_scope.

Definition amount (h : bytes) : N := host32 24 h + 16 * host32 32 h.

Definition known (p : pipe) (log : list seen) (h : bytes) : Prop :=
  host32 0 h = (if pi_req p then 2 else 4) \/ exists e, In e log /\ announced e = amount h.

Definition mem_ok (p : pipe) (log : list seen) : Prop :=
  pi_offhdr p <= len (pi_p p) /\ len (pi_p p) <= pi_maxp p /\ len (pi_p p) <= len (pi_in p) /\
  pi_maxp p < 4294967296 /\ reading_ok p /\
  (pi_step p = 2 -> 48 <= bufread p /\ known p log (header_of p)).

Lemma known_more p log log' h : known p log h -> (forall e, In e log -> In e log') -> known p log' h.
Proof. intros [H|(e & I & E)] S; [now left|]. right. exists e. auto. Qed.

Lemma mem_more p log log' : mem_ok p log -> (forall e, In e log -> In e log') -> mem_ok p log'.
Proof.
  intros (A & B & C & D & E & F) S. repeat (split; [assumption|]). intro St. destruct (F St) as (F1 & F2).
  split; [exact F1|]. eapply known_more; eauto.
Qed.

Lemma read_devbuf_safe p n : pi_offhdr p <= len (pi_p p) -> len (pi_p p) <= pi_maxp p -> pi_maxp p < 4294967296 ->
  0 < n -> len (pi_p p) + n < 4294967296 ->
  exists q, read_devbuf p n = Ok q /\ pi_reading q = Some n /\ pi_step q = pi_step p /\ pi_offhdr q <= len (pi_p q) /\
    dropN (pi_offhdr q) (pi_p q) = dropN (pi_offhdr p) (pi_p p) /\
    len (pi_p q) <= len (pi_p p) /\ len (pi_p q) + n <= pi_maxp q /\ pi_maxp q < 4294967296 /\ pi_in q = pi_in p /\
    pi_req q = pi_req p.
Proof.
  intros O L M Z B. unfold read_devbuf. destruct (N.ltb_spec (pi_maxp p - len (pi_p p)) n) as [R|R].
  - destruct (pi_same p) eqn:S; cbn [negb].
    + assert (u32mod (n + bufread p) = n + bufread p) as U.
      { unfold u32mod. apply N.mod_small. unfold bufread. lia. }
      rewrite U in *. replace (n + bufread p <? bufread p) with false by (symmetry; apply N.ltb_ge; lia).
      assert (len (dropN (pi_offhdr p) (pi_p p)) = bufread p) as Ld by (rewrite dropN_len; reflexivity).
      unfold start_read. cbn [pi_maxp pi_p]. rewrite Ld.
      replace (n + bufread p <? bufread p + n) with false by (symmetry; apply N.ltb_ge; lia).
      eexists. split; [reflexivity|].
      cbn [pi_reading pi_step pi_offhdr pi_p pi_maxp pi_in pi_out pi_req pi_swap_in pi_swap_out].
      rewrite dropN_0, Ld. unfold bufread in *. repeat split; lia.
    + assert (u32mod (pi_maxp p + (n - (pi_maxp p - len (pi_p p)))) = len (pi_p p) + n) as U.
      { unfold u32mod. rewrite N.mod_small by lia. lia. }
      rewrite U. unfold start_read. cbn [pi_maxp pi_p]. rewrite N.ltb_irrefl.
      eexists. split; [reflexivity|].
      cbn [pi_reading pi_step pi_offhdr pi_p pi_maxp pi_in pi_out pi_req pi_swap_in pi_swap_out].
      repeat split; lia.
  - unfold start_read. replace (pi_maxp p <? len (pi_p p) + n) with false by (symmetry; apply N.ltb_ge; lia).
    eexists. split; [reflexivity|].
    cbn [pi_reading pi_step pi_offhdr pi_p pi_maxp pi_in pi_out pi_req pi_swap_in pi_swap_out].
    repeat split; lia.
Qed.

Lemma swap_words_len n : forall b, len (swap_words n b) = len b.
Proof.
  induction n as [|n IH]; intro b; cbn [swap_words]; auto.
  rewrite len_app, len_rev, IH, takeN_len, dropN_len. lia.
Qed.

Lemma xfer_amount req c h c' h' x : get_xfer_len req c h = (c', h', x) -> len h = 48 ->
  (host32 0 h = (if req then 2 else 4) -> x = 0 /\ get_iso_len req h' = 0) /\ x <= host32 24 h /\
  get_iso_len req h' <= 16 * host32 32 h /\
  (16 * host32 32 h < 4294967296 -> 16 * iso_descs h' <= get_iso_len req h' \/ get_iso_len req h' = 0).
Proof.
  intros G L. destruct (get_xfer_len_header _ _ _ _ _ _ G L) as (L' & E0 & _ & E24 & E32 & _).
  unfold get_iso_len, iso_descs. rewrite E0, E32.
  assert (u32mod (16 * host32 32 h) <= 16 * host32 32 h) as U by (unfold u32mod; apply N.mod_le; discriminate).
  assert (x <= host32 24 h /\ (host32 0 h = (if req then 2 else 4) -> x = 0)) as (X1 & X2).
  { unfold get_xfer_len in G. destruct req.
    - destruct (N.eqb_spec (host32 0 h) 2); injection G as <- <- <-; [split; auto; lia|].
      split; [destruct (_ =? 0); lia|congruence].
    - destruct (N.eqb_spec (host32 0 h) 4); [injection G as <- <- <-; split; auto; lia|].
      destruct (cache_direction c h) as [h2 d]. injection G as <- <- <-. rewrite E24.
      split; [destruct (d =? 0); lia|congruence]. }
  split; [|split; [exact X1|]].
  - intro Hc. split; [auto|]. rewrite Hc, N.eqb_refl. reflexivity.
  - destruct (_ =? _); [split; [lia|auto]|]. split; [exact U|]. intro B. left.
    unfold u32mod. rewrite N.mod_small by exact B. destruct (_ <? _); lia.
Qed.

Lemma turn_safe c p log T A : mem_ok p log -> len (pi_in p) <= T -> T + A + 48 < 4294967296 ->
  (forall e, In e (log ++ sees p) -> announced e <= A) ->
  exists c' q, turn c p = Ok (c', q) /\ mem_ok q (log ++ sees p).
Proof.
  intros (O & L1 & L2 & M & R & St) HT HA Hlog. unfold turn.
  destruct (pi_reading p) as [n|] eqn:Er.
  { exists c, (write_devbuf p). split; [reflexivity|].
    unfold mem_ok, reading_ok, known, header_of, bufread.
    rewrite (write_devbuf_keeps p pi_in), (write_devbuf_keeps p pi_p), (write_devbuf_keeps p pi_maxp),
    (write_devbuf_keeps p pi_reading), (write_devbuf_keeps p pi_step), (write_devbuf_keeps p pi_offhdr),
    (write_devbuf_keeps p pi_req) by reflexivity.
    repeat (split; [assumption|]). intro S2. destruct (St S2) as (S3 & S4). split; [exact S3|].
    eapply known_more; [exact S4|]. intros. apply in_or_app. now left. }
  unfold read_dev. destruct (N.ltb_spec (bufread p) 48) as [B|B].
  - destruct (read_devbuf_safe (set_step p 1) (48 - bufread p)) as (q & E & Q1 & Q2 & Q3 & Q4 & Q5 & Q6 & Q7 & Q8 & Q9);
      cbn [set_step pi_offhdr pi_p pi_maxp]; try lia.
    rewrite E. exists c, q. split; [reflexivity|]. cbn [set_step pi_offhdr pi_p pi_maxp pi_step pi_in] in *.
    unfold mem_ok, reading_ok. rewrite Q1, Q2, Q8. repeat split; try lia; discriminate.
  - fold (header_of p).
    change (if (pi_step p =? 1) && pi_swap_in p then swap_header true (header_of p) else header_of p) with (seen_header p).
    assert (len (header_of p) = 48) as L48.
    { unfold header_of. rewrite takeN_len, dropN_len. unfold bufread in B. lia. }
    assert (len (seen_header p) = 48) as L48'.
    { unfold seen_header. destruct (_ && _); auto. now apply swap_header_len. }
    assert (known p (log ++ sees p) (seen_header p)) as K.
    { destruct (N.eq_dec (pi_step p) 2) as [S2|S2].
      - destruct (St S2) as (_ & K). unfold seen_header. rewrite S2. change (2 =? 1) with false. cbn [andb].
        eapply known_more; [exact K|]. intros. apply in_or_app. now left.
      - rewrite sees_at by auto. cbv zeta. unfold known. destruct (pi_req p).
        + destruct (N.eqb_spec (host32 0 (seen_header p)) 2); [now left|]. right. eexists.
          split; [apply in_or_app; right; left; reflexivity|reflexivity].
        + destruct (N.eqb_spec (host32 0 (seen_header p)) 4); [now left|]. right. eexists.
          split; [apply in_or_app; right; left; reflexivity|reflexivity]. }
    destruct (get_xfer_len (pi_req p) c (seen_header p)) as [[c' h2] x] eqn:G.
    destruct (get_xfer_len_header _ _ _ _ _ _ G L48') as (Lh & E0 & E4 & E24 & E32 & _).
    destruct (xfer_amount _ _ _ _ _ _ G L48') as (X1 & X2 & X3 & X4).
    set (iso := get_iso_len (pi_req p) h2) in *.
    assert (x + iso <= A /\ (16 * iso_descs h2 <= iso \/ iso = 0)) as (Xa & Xi).
    { destruct K as [K|(e & Ie & Ee)].
      - destruct (X1 K) as (-> & ->). split; [lia|now right].
      - apply Hlog in Ie. rewrite Ee in Ie. unfold amount in Ie. split; [lia|]. apply X4. lia. }
    assert (u32mod (x + iso) = x + iso) as U by (unfold u32mod; apply N.mod_small; lia).
    rewrite U.
    set (d := dropN (pi_offhdr p + 48) (pi_p p)).
    assert (pi_offhdr p + 48 + len d = len (pi_p p)) as Ld by (unfold d; rewrite dropN_len; unfold bufread in B; lia).
    assert (bufread p = 48 + len d) as Bd by (unfold bufread; lia).
    set (st := if pi_step p =? 1 then 2 else pi_step p).
    assert (len (takeN (pi_offhdr p) (pi_p p)) = pi_offhdr p) as Lt by (rewrite takeN_len; lia).
    destruct (N.ltb_spec (bufread p) (x + iso + 48)) as [B2|B2].
    + assert (u32mod (u32mod (x + iso + 48) + (4294967296 - bufread p)) = x + iso - len d) as U2.
      { unfold u32mod. rewrite (N.mod_small (x + iso + 48)) by lia.
        replace (x + iso + 48 + (4294967296 - bufread p)) with (x + iso - len d + 1 * 4294967296) by lia.
        rewrite N.mod_add by discriminate. apply N.mod_small. lia. }
      rewrite U2.
      destruct (read_devbuf_safe (set_header p st h2 d) (x + iso - len d)) as
        (q & E & Q1 & Q2 & Q3 & Q4 & Q5 & Q6 & Q7 & Q8 & Q9); cbn [set_header pi_offhdr pi_p pi_maxp];
        rewrite ?len_app, ?Lt, ?Lh; try lia.
      rewrite E. exists c', q. split; [reflexivity|]. cbn [set_header pi_offhdr pi_p pi_maxp pi_step pi_in pi_req] in *.
      rewrite dropN_exact in Q4 by exact Lt. rewrite !len_app, Lt, Lh in Q5.
      unfold mem_ok, reading_ok. rewrite Q1, Q2, Q8.
      split; [exact Q3|]. split; [lia|]. split; [lia|]. split; [exact Q7|]. split; [split; lia|].
      intro Es.
      assert (header_of q = h2) as Hq by (unfold header_of; rewrite Q4; now rewrite takeN_exact).
      rewrite Hq. split.
      * assert (len (dropN (pi_offhdr q) (pi_p q)) = 48 + len d) as Lq by (rewrite Q4, len_app; lia).
        rewrite dropN_len in Lq. unfold bufread. lia.
      * unfold known, amount in *. rewrite Q9, E0, E24, E32. exact K.
    + set (d' := if (0 <? iso) && (pi_swap_in p || pi_swap_out p) then _ else d).
      set (h3 := if pi_swap_out p then _ else h2).
      assert ((0 <? iso) && (0 <? iso_descs h2) && (len d <? x + 16 * iso_descs h2) = false) as ->.
      { destruct Xi as [Xi| ->]; [|reflexivity].
        replace (len d <? _) with false by (symmetry; apply N.ltb_ge; lia). apply andb_false_r. }
      assert (len d' = len d) as Ld'.
      { unfold d'. destruct (_ && _); auto. rewrite len_app, swap_words_len, takeN_len, dropN_len. lia. }
      assert (len h3 = 48) as Lh3 by (unfold h3; destruct (pi_swap_out p); auto; now apply swap_header_len).
      eexists c', _. split; [reflexivity|].
      unfold mem_ok, reading_ok, known, header_of, bufread.
      rewrite (write_devbuf_keeps _ pi_in), (write_devbuf_keeps _ pi_p), (write_devbuf_keeps _ pi_maxp),
        (write_devbuf_keeps _ pi_reading), (write_devbuf_keeps _ pi_step), (write_devbuf_keeps _ pi_offhdr),
        (write_devbuf_keeps _ pi_req) by reflexivity.
      cbn [pdu_done set_header pi_in pi_p pi_maxp pi_reading pi_step pi_offhdr pi_req].
      rewrite !len_app, Lt, Lh3, Ld', Er. repeat split; try lia; discriminate.
Qed.

Lemma read_safe p log data q : mem_ok p log -> read_done p data = Some q -> mem_ok q log.
Proof.
  intros (O & L1 & L2 & M & R & St) D. unfold read_done in D. unfold reading_ok in R.
  destruct (pi_reading p) as [n|]; [|discriminate].
  destruct ((len data =? 0) || (n <? len data)) eqn:Z; [discriminate|]. injection D as <-.
  apply orb_false_iff in Z. destruct Z as (_ & Z). apply N.ltb_ge in Z.
  unfold mem_ok, reading_ok, known, header_of, bufread. cbn [pi_in pi_p pi_maxp pi_reading pi_step pi_offhdr pi_req].
  rewrite !len_app. split; [lia|]. split; [lia|]. split; [lia|]. split; [exact M|]. split; [exact I|].
  intro S. destruct (St S) as (S1 & S2). unfold bufread in S1. split; [lia|].
  unfold known, header_of in S2. rewrite drop_app_le by exact O.
  rewrite take_app_le by (rewrite dropN_len; lia). exact S2.
Qed.

Lemma write_safe p log n q : mem_ok p log -> write_done p n = Some q -> mem_ok q log.
Proof.
  intros H D. unfold write_done in D. destruct (pi_writing p); [|discriminate].
  destruct (_ || _); [discriminate|]. injection D as <-. exact H.
Qed.

(* the log only grows, and so does what was read *)
Lemma step_grows f l g : fwd_step f l = Some (Ok g) ->
  (forall e, In e (fw_log f) -> In e (fw_log g)) /\
  (forall s, len (pi_in (pipe_of f s)) <= len (pi_in (pipe_of g s))).
Proof.
  intro E. destruct l as [|r data|r n]; cbn [fwd_step] in E.
  - injection E as E. destruct (iterate_parts _ _ E) as (c1 & T1 & T2 & -> & _).
    apply turn_ends in T1. apply turn_ends in T2. destruct T1 as (T1 & _), T2 as (T2 & _).
    split; [intros; apply in_or_app; now left|]. intros [|]; cbn [pipe_of]; rewrite ?T1, ?T2; lia.
  - destruct (fw_waiting f); [|discriminate].
    destruct (read_done (pipe_of f r) data) as [q|] eqn:D; [|discriminate]. cbn [obind] in E. injection E as <-.
    assert (len (pi_in (pipe_of f r)) <= len (pi_in q)) as L.
    { unfold read_done in D. destruct (pi_reading _); [|discriminate]. destruct (_ || _); [discriminate|].
      injection D as <-. cbn [pi_in]. rewrite len_app. lia. }
    split; [destruct r; auto|]. intros s. destruct r, s; cbn [pipe_of with_pipe fw_req fw_rep] in *; lia.
  - destruct (fw_waiting f); [|discriminate].
    destruct (write_done (pipe_of f r) n) as [q|] eqn:D; [|discriminate]. cbn [obind] in E. injection E as <-.
    assert (len (pi_in (pipe_of f r)) <= len (pi_in q)) as L.
    { unfold write_done in D. destruct (pi_writing _); [|discriminate]. destruct (_ || _); [discriminate|].
      injection D as <-. cbn [pi_in]. lia. }
    split; [destruct r; auto|]. intros s. destruct r, s; cbn [pipe_of with_pipe fw_req fw_rep] in *; lia.
Qed.

Lemma iterate_safe f T A : mem_ok (fw_req f) (fw_log f) -> mem_ok (fw_rep f) (fw_log f) ->
  (forall s, len (pi_in (pipe_of f s)) <= T) -> T + A + 48 < 4294967296 ->
  (forall e, In e (fw_log f ++ sees (fw_req f) ++ sees (fw_rep f)) -> announced e <= A) ->
  exists g, iterate f = Ok g /\ mem_ok (fw_req g) (fw_log g) /\ mem_ok (fw_rep g) (fw_log g).
Proof.
  intros M1 M2 HT HA H. unfold iterate.
  destruct (turn_safe (fw_cache f) (fw_req f) (fw_log f) T A M1 (HT true) HA) as (c1 & q & E1 & Q1).
  { intros e I. apply H. rewrite app_assoc. apply in_or_app. now left. }
  rewrite E1. cbn [rbind].
  destruct (turn_safe c1 (fw_rep f) (fw_log f ++ sees (fw_req f)) T A) with (2 := HT false) as (c2 & r & E2 & Q2); auto.
  { eapply mem_more; [exact M2|]. intros. apply in_or_app. now left. }
  { intros e I. apply H. now rewrite app_assoc. }
  rewrite E2. cbn [rbind]. eexists. split; [reflexivity|]. cbn [fw_req fw_rep fw_log].
  rewrite app_assoc. split; [|exact Q2]. eapply mem_more; [exact Q1|]. intros. apply in_or_app. now left.
Qed.

Lemma mem_run T A ls : T + A + 48 < 4294967296 -> forall f, fwd_run fwd0 ls = Some (Ok f) ->
  (forall s, len (pi_in (pipe_of f s)) <= T) -> (forall e, In e (fw_log f) -> announced e <= A) ->
  mem_ok (fw_req f) (fw_log f) /\ mem_ok (fw_rep f) (fw_log f).
Proof.
  intro HA. induction ls as [|l ls IH] using rev_ind; intros g R HT HL.
  - injection R as <-. split; unfold mem_ok, reading_ok; cbn; repeat split; discriminate.
  - destruct (fwd_run_snoc _ _ _ _ R) as (f & Rf & Rl). destruct (step_grows _ _ _ Rl) as (G1 & G2).
    destruct (IH f Rf) as (M1 & M2).
    { intro s. specialize (G2 s). specialize (HT s). lia. }
    { auto. }
    destruct l as [|r data|r n]; cbn [fwd_step] in Rl.
    + injection Rl as Rl. destruct (iterate_safe f T A M1 M2) as (g' & E & Q); auto.
      * intro s. specialize (G2 s). specialize (HT s). lia.
      * destruct (iterate_parts _ _ Rl) as (_ & _ & _ & Lg & _). rewrite <- Lg. exact HL.
      * rewrite Rl in E. injection E as <-. exact Q.
    + destruct (fw_waiting f); [|discriminate].
      destruct (read_done (pipe_of f r) data) as [q|] eqn:D; [|discriminate]. cbn [obind] in Rl. injection Rl as <-.
      destruct r; cbn [pipe_of with_pipe fw_req fw_rep fw_log] in *; split; auto; eapply read_safe; try exact D; assumption.
    + destruct (fw_waiting f); [|discriminate].
      destruct (write_done (pipe_of f r) n) as [q|] eqn:D; [|discriminate]. cbn [obind] in Rl. injection Rl as <-.
      destruct r; cbn [pipe_of with_pipe fw_req fw_rep fw_log] in *; split; auto; eapply write_safe; try exact D; assumption.
Qed.

Theorem memory_safe T A ls f l : fwd_run fwd0 ls = Some (Ok f) -> T + A + 48 < 4294967296 ->
  (forall s, len (pi_in (pipe_of f s)) <= T) ->
  (forall e, In e (fw_log f ++ sees (fw_req f) ++ sees (fw_rep f)) -> announced e <= A) ->
  fwd_step f l <> Some Panic.
Proof.
  intros R HA HT HL. destruct (mem_run T A ls HA f R HT) as (M1 & M2).
  { intros e I. apply HL. apply in_or_app. now left. }
  destruct l as [|r data|r n]; cbn [fwd_step].
  - destruct (iterate_safe f T A M1 M2 HT HA HL) as (g & -> & _). discriminate.
  - destruct (fw_waiting f); [|discriminate]. destruct (read_done _ _); discriminate.
  - destruct (fw_waiting f); [|discriminate]. destruct (write_done _ _); discriminate.
Qed.

(* ------------------------------------------------- short runs are calm *)
Lemma run_app f a b g : fwd_run f (a ++ b) = Some (Ok g) ->
  exists h, fwd_run f a = Some (Ok h) /\ fwd_run h b = Some (Ok g).
Proof.
  revert f. induction a as [|l a IH]; intros f H.
  - exists f. auto.
  - cbn [app fwd_run] in *. destruct (fwd_step f l) as [[x|]|]; try discriminate. now apply IH.
Qed.

Lemma run_grows ls : forall f g, fwd_run f ls = Some (Ok g) ->
  forall s, len (pi_in (pipe_of f s)) <= len (pi_in (pipe_of g s)).
Proof.
  induction ls as [|l ls IH]; intros f g H s.
  - injection H as <-. lia.
  - cbn [fwd_run] in H. destruct (fwd_step f l) as [[h|]|] eqn:E; try discriminate.
    destruct (step_grows _ _ _ E) as (_ & G). specialize (G s). specialize (IH _ _ H s). lia.
Qed.

Lemma calm_short ls g bl side : fwd_run fwd0 ls = Some (Ok g) -> len (pi_in (pipe_of g side)) <= bl -> calm bl side ls.
Proof.
  intros R B k f E. rewrite <- (firstn_skipn k ls) in R. destruct (run_app _ _ _ _ R) as (h & E1 & E2).
  rewrite E in E1. injection E1 as <-. pose proof (run_grows _ _ _ E2 side). lia.
Qed.
