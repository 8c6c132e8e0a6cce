(* Proofs about the driver of the Windows client together with the forwarder: the results
   about how blocks end. *)
From Verif Require Import Base M_Util M_WinFwd M_WinDrv S_Usbip S_WinFwd S_WinDrv P_WinFwd P_WinRun P_WinRep P_WinDrv P_WinDrv2 P_WinOnce P_WinAns P_WinAns2.
Open Scope N_scope.

(* a reply to something given out before does not go wrong, whatever was given out since *)
Lemma write_fine dF d r : drv_ok dF -> N.of_nat (length (taken dF)) < 4294967296 ->
  (forall x, In x (dr_sent d) -> In x (taken dF) \/ N.of_nat (length (taken dF)) < ur_seq x) -> fair_one dF r ->
  write_drv d (reply_host r) <> Panic.
Proof.
  intros K W I F.
  assert (forall x y, In x (dr_sent d) -> In y (taken dF) -> ur_seq x = ur_seq y -> x = y) as Uq.
  { intros x y Ix Iy E. destruct (I x Ix) as [J|J]; [now apply (taken_unique dF)|]. exfalso.
    destruct (in_split _ _ Iy) as (t1 & t2 & T). rewrite E, (taken_number dF _ _ _ K T), T, app_length in J. cbn [length] in J. lia. }
  destruct r as [q dir n payload|q removed].
  - destruct F as (id & u & (x & j & X1 & X2 & X3 & X4) & Ed & Fr & P). apply in_taken in X1.
    assert (q < 4294967296) as Q by (rewrite <- X2; now apply (taken_small dF)).
    pose proof Fr as (N1 & _). destruct (reply_fields q dir n payload Q ltac:(lia)) as (L & Sq & _).
    unfold write_drv. destruct (_ <? 48); [discriminate|]. rewrite Sq.
    destruct (take_sent q (dr_sent d)) as [[y sent]|] eqn:T; [|discriminate].
    destruct (take_sent_in _ _ _ _ T) as (Ti & _ & Ty).
    assert (y = x) as -> by (apply Uq; [apply Ti; now left|exact X1|congruence]).
    rewrite X4, (take_fair u q dir n payload Q Fr P). discriminate.
  - destruct F as (x & j & X1 & X2 & X3). apply in_taken in X1.
    assert (q < 4294967296) as Q by (rewrite <- X2; now apply (taken_small dF)).
    destruct (unret_fields q removed Q) as (L & Sq).
    unfold write_drv. destruct (_ <? 48); [discriminate|]. rewrite Sq.
    destruct (take_sent q (dr_sent d)) as [[y sent]|] eqn:T; [|discriminate].
    destruct (take_sent_in _ _ _ _ T) as (Ti & _ & Ty).
    assert (y = x) as -> by (apply Uq; [apply Ti; now left|exact X1|congruence]).
    rewrite X3. discriminate.
Qed.

Lemma read_sent d n junk d' rr : read_drv d n junk = Ok (d', rr) -> drv_ok d -> N.of_nat (length (taken d)) + 1 < 4294967296 ->
  incl (dr_sent d ++ in_slot (dr_partial d)) (taken d) ->
  forall x, In x (dr_sent d') -> In x (taken d) \/ N.of_nat (length (taken d)) < ur_seq x.
Proof.
  intros E (_ & _ & K & _) W I x J.
  assert (In x (dr_sent d) -> In x (taken d)) as S by (intro S; apply I, in_or_app; now left).
  unfold read_drv in E. destruct (dr_read d); [injection E as <- _; auto|].
  destruct (dr_partial d) as [|r|]; [| |discriminate].
  - destruct (dr_pending d) as [|r pending]; [injection E as <- _; auto|].
    destruct (store_urbr _ _ _ _) as [[b rest]|]; injection E as <- _; [|auto].
    cbn [stored dr_sent] in J. destruct rest; [auto|]. apply in_app_or in J. destruct J as [J|[<-|[]]]; [auto|right].
    cbn [numbered ur_seq]. unfold u32mod. rewrite N.mod_small by lia. lia.
  - destruct (let! u := ur_what r in store_rest n u); injection E as <- _; [|auto].
    cbn [dr_sent] in J. apply in_app_or in J. destruct J as [J|[<-|[]]]; [auto|left]. apply I, in_or_app. right. now left.
Qed.

Lemma turn_out c p c' q : turn c p = Ok (c', q) -> pi_out q = pi_out p.
Proof.
  unfold turn. destruct (pi_reading p); [intros [=<- <-]; apply write_out|].
  destruct (read_dev c p) as [[[c1 p1] b]|] eqn:E; cbn [rbind]; [|discriminate]. intros [=<- <-].
  assert (pi_out p1 = pi_out p) as E1; [|destruct b; rewrite ?write_out; exact E1].
  unfold read_dev in E. destruct (_ <? 48).
  - destruct (read_devbuf _ _) as [p2|] eqn:D; cbn [rbind] in E; [|discriminate]. injection E as _ <- _. now apply read_devbuf_region in D.
  - destruct (get_xfer_len _ _ _) as [[c2 h2] x]. destruct (_ <? _).
    + destruct (read_devbuf _ _) as [p2|] eqn:D; cbn [rbind] in E; [|discriminate]. injection E as _ <- _. now apply read_devbuf_region in D.
    + destruct (_ && _); [discriminate|]. now injection E as _ <- _.
Qed.

Section Ends.
  Variables devid mx bl : N.
  Variable ls : list win_label.
  Variable w : win.
  Variable rs : list reply.
  Hypothesis d32 : devid < 4294967296.
  Hypothesis mx48 : 48 <= mx.
  Hypothesis room : mx + bl < 4294967296.
  Hypothesis all_known : Forall (fun x => known (snd x)) (submitted ls).
  Hypothesis small : Forall (fun x => len (buffer (snd x)) + 48 <= mx) (submitted ls).
  Hypothesis distinct : NoDup (map fst (submitted ls)).
  Hypothesis ord : orderly devid ls.
  Hypothesis short : N.of_nat (length ls) < 4294967296.
  Hypothesis run : win_run (win0 devid) ls = Some (Ok w).
  Hypothesis cm : forall side, calm bl side (wi_steps w).
  Hypothesis fair : Forall (fair_one (wi_drv w)) rs.
  Hypothesis smallR : Forall (fun r => len (reply_wire r) <= mx) rs.
  Hypothesis rem : remembered (wi_drv w) (fw_log (wi_fwd w)).

  Let inv : win_inv devid w (submitted ls) (cancelled ls) (length ls) :=
    run_inv devid mx bl ls w d32 mx48 room all_known small distinct ord short run (cm true).

  Lemma len_taken : N.of_nat (length (taken (wi_drv w))) < 4294967296.
  Proof. destruct inv as (_ & _ & _ & _ & _ & I6 & _). lia. Qed.

  Lemma ends_here : prefix (pi_in (fw_rep (wi_fwd w))) (concat (map reply_wire rs)) -> ends_ok devid rs ls w.
  Proof.
    intro P. destruct (inv_pipe devid mx bl mx48 room w _ _ _ inv (cm true) short small) as (G & Sm & Eh & _).
    pose proof inv as (I1 & I2 & I3 & I4 & I5 & _).
    eapply (ends_run devid mx bl rs (wi_drv w) (fw_log (wi_fwd w)) d32 mx48 room I3 I5 len_taken Sm fair smallR rem); eauto.
    split; [exists []; now rewrite app_nil_r|]. split; [exact P|]. exists []. now rewrite app_nil_r.
  Qed.

  Theorem outcomes_right : prefix (pi_in (fw_rep (wi_fwd w))) (concat (map reply_wire rs)) ->
    forall id o, In (id, o) (dr_done (wi_drv w)) -> exists u, In (id, u) (submitted ls) /\
      (In id (cancelled ls) /\ o = mk_outcome Cancelled (len (buffer u)) (buffer u) \/
       exists q dir n payload, In (RSubmit q dir n payload) rs /\ numbered_block (wi_drv w) q id u /\ o = spec_outcome u n payload).
  Proof.
    intros P id o I. destruct (ends_here P) as (_ & gv & rest & E & _ & S & _).
    destruct (S id o I) as (u & Iu & H). exists u. split; [exact Iu|].
    destruct H as [H|(q & dir & n & payload & Iq & H)]; [left; exact H|right]. exists q, dir, n, payload.
    split; [rewrite E; apply in_or_app; now left|exact H].
  Qed.

  Theorem outcomes_all ls' junk : ls = ls' ++ [WLoop junk] -> fw_waiting (wi_fwd w) = true ->
    pi_in (fw_rep (wi_fwd w)) = concat (map reply_wire rs) -> pi_writing (fw_rep (wi_fwd w)) = None -> in_time devid ls rs ->
    forall q dir n payload, In (RSubmit q dir n payload) rs -> exists id u o, numbered_block (wi_drv w) q id u /\ In (id, o) (dr_done (wi_drv w)).
  Proof.
    intros E Wt Pi Wn T.
    assert (prefix (pi_in (fw_rep (wi_fwd w))) (concat (map reply_wire rs))) as P by (rewrite Pi; exists []; now rewrite app_nil_r).
    destruct (ends_here P) as (K & gv & rest & Er & Eo & _ & A).
    destruct (inv_pipe devid mx bl mx48 room w _ _ _ inv (cm true) short small) as (G & Sm & Eh & _).
    pose proof inv as (I1 & I2 & I3 & I4 & I5 & _).
    assert (exists steps, wi_steps w = steps ++ [Iterate] /\ forall side, calm bl side steps) as (steps & Es & Cs).
    { pose proof run as R. rewrite E in R. destruct (win_run_snoc _ _ _ _ R) as (w0 & _ & Es). cbn [win_step] in Es.
      destruct (wi_ended w0); [discriminate|]. destruct (_ && _); [discriminate|].
      destruct (fwd_step (wi_fwd w0) Iterate) as [[g|]|] eqn:F; cbn [obind rbind] in Es; try discriminate.
      injection Es as Es.
      destruct (match starts _ _ with Some n => _ | None => _ end) as [[d1 rr]|]; cbn [rbind] in Es; [|discriminate].
      destruct (match starts (pi_writing _) _ with Some b => _ | None => _ end) as [d2|]; cbn [rbind] in Es; [|discriminate].
      injection Es as Es. exists (wi_steps w0). rewrite <- Es. cbn [wi_steps]. split; [reflexivity|].
      intro side. pose proof (cm side) as C. rewrite <- Es in C. now apply calm_prefix in C. }
    assert (concat (pi_out (fw_rep (wi_fwd w))) = concat (map reply_host rs)) as All.
    { rewrite Es in I1. eapply (replies_gone (messages (wi_drv w)) rs mx bl steps); eauto.
      - exact (uniqueF devid mx bl _ d32 mx48 room I3 I5 len_taken).
      - exact (nonzeroF devid mx bl _ d32 mx48 room I3 I5 len_taken).
      - exact (answersF devid mx bl _ _ d32 mx48 room I3 I5 len_taken fair).
      - eexists. exact Eh.
      - eapply remembersF; eauto. exists []. now rewrite app_nil_r. }
    assert (region (fw_rep (wi_fwd w)) = []) as Rg by (unfold prompt in K; now rewrite Wn in K).
    rewrite Rg, app_nil_r, All, Er, map_app, concat_app in Eo.
    assert (rest = []) as ->.
    { destruct rest as [|r rest]; [reflexivity|]. exfalso.
      assert (Forall (fun i => it_out i <> []) (map rep_item rs)) as O by exact (outs_good devid mx bl _ _ d32 mx48 room I3 I5 len_taken fair).
      rewrite Er, map_app in O. apply Forall_app in O. destruct O as (_ & O). inversion O as [|? ? O1 _]. subst.
      rewrite rep_out in O1. rewrite <- (app_nil_r (concat (map reply_host gv))) in Eo at 2. apply app_inv_head in Eo.
      cbn [map concat] in Eo. apply app_eq_nil in Eo. now destruct Eo. }
    rewrite app_nil_r in Er. subst gv. intros q dir n payload I. destruct (A T q dir n payload I) as (id & u & B & J).
    apply in_map_iff in J. destruct J as ((id', o) & Ei & J). cbn [fst] in Ei. subst id'. exists id, u, o. auto.
  Qed.

  Lemma calm_iterate g side : fwd_step (wi_fwd w) Iterate = Some (Ok g) -> calm bl side (wi_steps w ++ [Iterate]).
  Proof.
    intros F k f R. pose proof inv as (I1 & _). destruct (Nat.le_gt_cases k (length (wi_steps w))) as [K|K].
    - rewrite firstn_app in R. replace (k - length (wi_steps w))%nat with 0%nat in R by lia. cbn [firstn] in R. rewrite app_nil_r in R.
      exact (cm side k f R).
    - rewrite firstn_all2 in R by (rewrite app_length; cbn [length]; lia). rewrite (fwd_run_add _ _ _ _ I1), F in R. injection R as <-.
      pose proof (cm side (length (wi_steps w)) (wi_fwd w)) as C. rewrite firstn_all in C. specialize (C I1).
      cbn [fwd_step] in F. injection F as F. destruct (iterate_parts _ _ F) as (c1 & T1 & T2 & _ & _).
      destruct side; cbn [pipe_of] in *.
      + rewrite (turn_out _ _ _ _ T1). destruct (turn_ends _ _ _ _ T1) as (-> & _). exact C.
      + rewrite (turn_out _ _ _ _ T2). destruct (turn_ends _ _ _ _ T2) as (-> & _). exact C.
  Qed.

  Theorem driver_fine l : prefix (pi_in (fw_rep (wi_fwd w))) (concat (map reply_wire rs)) -> N.of_nat (length ls) + 1 < 4294967296 ->
    fwd_step (wi_fwd w) Iterate <> Some Panic ->
    (forall g, fwd_step (wi_fwd w) Iterate = Some (Ok g) -> remembered (wi_drv w) (fw_log g)) ->
    win_step w l <> Some Panic.
  Proof.
    intros P Wd Np Rm E. destruct (ends_here P) as (K & gv & rest & Er & Eo & _ & _).
    destruct (inv_pipe devid mx bl mx48 room w _ _ _ inv (cm true) short small) as (G & Sm & Eh & _).
    pose proof inv as (I1 & I2 & I3 & I4 & I5 & I6 & _).
    destruct l as [id u|id|a|junk| | |data|k]; cbn [win_step] in E.
    - destruct (submit_block _ _ _). discriminate.
    - destruct (cancel_block _ _) as [[d' b]|]; discriminate.
    - discriminate.
    - rewrite I2 in E. destruct (_ && _); [discriminate|].
      destruct (fwd_step (wi_fwd w) Iterate) as [[g|]|] eqn:F; [|congruence|discriminate]. cbn [obind rbind] in E. injection E as E.
      assert (incl (dr_sent (wi_drv w) ++ in_slot (dr_partial (wi_drv w))) (taken (wi_drv w))) as S0 by apply I4.
      destruct (match starts _ _ with Some n => _ | None => _ end) as [[d1 rr]|] eqn:R; cbn [rbind] in E.
      2:{ destruct (starts _ _) in R; [|discriminate]. unfold read_drv in R. destruct (dr_read _); [discriminate|].
          destruct I3 as (_ & _ & _ & _ & _ & _ & I3 & _). unfold slot_ok in I3. destruct (dr_partial _) as [|r|]; [| |contradiction].
          - destruct (dr_pending _); [discriminate|]. destruct (store_urbr _ _ _ _) as [[b r']|]; discriminate.
          - destruct (let! u := ur_what r in store_rest n u); discriminate. }
      assert (forall x, In x (dr_sent d1) -> In x (taken (wi_drv w)) \/ N.of_nat (length (taken (wi_drv w))) < ur_seq x) as S1.
      { destruct (starts _ _) in R; [eapply read_sent; eauto; lia|]. injection R as <- _. intros x J. left. apply S0, in_or_app. now left. }
      destruct (match starts (pi_writing _) _ with Some b => _ | None => _ end) as [d2|] eqn:Wr; cbn [rbind] in E; [discriminate|].
      destruct (starts (pi_writing _) _) as [b|] eqn:St in Wr; [|discriminate].
      assert (pi_writing (fw_rep (wi_fwd w)) = None /\ pi_writing (fw_rep g) = Some b) as (W1 & W2).
      { unfold starts in St. destruct (pi_writing _) in St |- *; [discriminate|auto]. }
      assert (fwd_run fwd0 (wi_steps w ++ [Iterate]) = Some (Ok g)) as J1 by (now rewrite (fwd_run_add _ _ _ _ I1)).
      cbn [fwd_step] in F. pose proof F as F0. injection F as F. destruct (iterate_parts _ _ F) as (c1 & T1 & T2 & _ & _).
      assert (pi_in (fw_rep g) = pi_in (fw_rep (wi_fwd w))) as Eq by (now destruct (turn_ends _ _ _ _ T2)).
      assert (pi_in (fw_req g) = pi_in (fw_req (wi_fwd w))) as Eqr by (now destruct (turn_ends _ _ _ _ T1)).
      pose proof (uniqueF devid mx bl _ d32 mx48 room I3 I5 len_taken) as Un.
      pose proof (nonzeroF devid mx bl _ d32 mx48 room I3 I5 len_taken) as Nz.
      pose proof (answersF devid mx bl _ _ d32 mx48 room I3 I5 len_taken fair) as An.
      assert (pipe_ok (map rep_item rs) (fw_rep (wi_fwd w))) as Pw.
      { destruct (rep_run _ rs G Un Nz An mx bl Sm smallR mx48 room _ _ cm I1) as (_ & _ & H). apply H; [eexists; exact Eh|exact P|].
        eapply remembersF; eauto. exists []. now rewrite app_nil_r. }
      assert (pipe_ok (map rep_item rs) (fw_rep g)) as Pv.
      { destruct (rep_run _ rs G Un Nz An mx bl Sm smallR mx48 room _ _ (fun side => calm_iterate g side F0) J1) as (_ & _ & H).
        apply H; [rewrite Eqr; eexists; exact Eh|rewrite Eq; exact P|].
        eapply remembersF; [apply Rm; reflexivity|]. exists []. now rewrite app_nil_r. }
      destruct (turn_prompt _ _ _ _ _ Pw Pv K T2) as (Kv & Ov & _).
      assert (region (fw_rep (wi_fwd w)) = []) as Rg by (unfold prompt in K; now rewrite W1 in K).
      pose proof (rits_good devid mx bl _ _ d32 mx48 room I3 I5 len_taken fair) as Ri.
      destruct (rep_new _ _ _ _ _ _ Ri Pw Pv Eq Ov Rg W2 Kv) as (dn & i & rest' & Ei & Ed & Eb & _).
      assert (In i (map rep_item rs)) as Ii by (rewrite Ei; apply in_or_app; right; now left).
      apply in_map_iff in Ii. destruct Ii as (r & Eir & Ir). subst i. rewrite rep_out in Eb. subst b.
      rewrite Forall_forall in fair. exact (write_fine _ _ r I3 len_taken S1 (fair r Ir) Wr).
    - rewrite I2 in E. destruct (wi_ready w) as [b|]; [|discriminate]. cbn [obind] in E. unfold fwd_does in E. cbn [fwd_step] in E.
      destruct (fw_waiting _); [|discriminate]. destruct (read_done _ _); discriminate.
    - rewrite I2 in E. destruct (pi_writing _) as [b|]; [|discriminate]. cbn [obind] in E. unfold fwd_does in E. cbn [fwd_step] in E.
      destruct (fw_waiting _); [|discriminate]. destruct (write_done _ _); discriminate.
    - rewrite I2 in E. destruct (pi_writing _) as [b|]; [discriminate|]. unfold fwd_does in E. cbn [fwd_step] in E.
      destruct (fw_waiting _); [|discriminate]. destruct (read_done _ _); discriminate.
    - rewrite I2 in E. unfold fwd_does in E. cbn [fwd_step] in E.
      destruct (fw_waiting _); [|discriminate]. destruct (write_done _ _); discriminate.
  Qed.
End Ends.

(* ------------------------------------------------- deciding the hypotheses of examples *)
Fixpoint remembered_b (before log : list seen) : bool :=
  match log with
  | [] => true
  | SawReply q n packets :: l =>
    match last_like q before None with Some s => s =? q | None => false end && remembered_b (before ++ [SawReply q n packets]) l
  | e :: l => remembered_b (before ++ [e]) l
  end.

Lemma remembered_b_ok d log : remembered_b [] log = true -> remembered d log.
Proof.
  assert (forall log b0, remembered_b b0 log = true -> forall before q n packets after, log = before ++ SawReply q n packets :: after ->
    last_like q (b0 ++ before) None = Some q) as H.
  { clear. induction log as [|e l IH]; intros b0 E before q n packets after Eq; [now destruct before|].
    destruct before as [|e' before]; injection Eq as -> Eq; cbn [remembered_b] in E.
    - rewrite app_nil_r. apply andb_true_iff in E. destruct E as (E & _). destruct (last_like _ _ _); [|discriminate]. now apply N.eqb_eq in E; subst.
    - assert (remembered_b (b0 ++ [e']) l = true) as E' by (destruct e'; [exact E|now apply andb_true_iff in E]).
      specialize (IH _ E' before q n packets after Eq). rewrite <- app_assoc in IH. exact IH. }
  intros E before q n packets after Eq _. exact (H log [] E before q n packets after Eq).
Qed.

Definition given_b (d : drv) (q : N) : bool :=
  existsb (fun x => (ur_seq (fst x) =? q) && match ur_what (fst x) with Some _ => true | None => false end) (dr_taken d) &&
  match dr_partial d with Holds r => negb (ur_seq r =? q) | _ => true end.

Definition in_time_b (devid : N) (ls : list win_label) (rs : list reply) : bool :=
  forallb (fun k => match win_run (win0 devid) (firstn k ls) with
    | Some (Ok w) =>
      forallb (fun i => match nth_error rs i with
        | Some (RSubmit q _ _ _) =>
          (len (pi_in (fw_rep (wi_fwd w))) <? len (concat (map reply_wire (firstn (S i) rs)))) || given_b (wi_drv w) q
        | _ => true
        end) (seq 0 (length rs))
    | _ => true
    end) (seq 0 (S (length ls))).

Lemma in_time_b_ok devid ls rs : in_time_b devid ls rs = true -> in_time devid ls rs.
Proof.
  intros E before after w a q dir n payload b El R Er L. unfold in_time_b in E. rewrite forallb_forall in E.
  specialize (E (length before)). rewrite El, firstn_app, Nat.sub_diag, firstn_O, app_nil_r, firstn_all, R in E.
  assert (In (length before) (seq 0 (S (length (before ++ after))))) as I by (apply in_seq; rewrite app_length; lia).
  specialize (E I). rewrite forallb_forall in E. specialize (E (length a)).
  assert (In (length a) (seq 0 (length rs))) as J by (apply in_seq; rewrite Er, app_length; cbn [length]; lia).
  specialize (E J). rewrite Er, nth_error_app2, Nat.sub_diag in E by lia. cbn [nth_error] in E.
  rewrite <- Er in E. replace (firstn (S (length a)) rs) with (a ++ [RSubmit q dir n payload]) in E.
  2:{ rewrite Er, firstn_app. replace (S (length a) - length a)%nat with 1%nat by lia. rewrite firstn_all2 by lia. reflexivity. }
  apply orb_true_iff in E. destruct E as [E|E]; [apply N.ltb_lt in E; lia|].
  unfold given_b in E. apply andb_true_iff in E. destruct E as (E1 & E2). split.
  - apply existsb_exists in E1. destruct E1 as ([r j] & I1 & E1). cbn [fst] in E1. apply andb_true_iff in E1. destruct E1 as (Q & U).
    apply N.eqb_eq in Q. destruct (ur_what r) as [u|] eqn:U'; [|discriminate]. exists (ur_id r), u, r, j. auto.
  - intros r P. rewrite P in E2. apply negb_true_iff, N.eqb_neq in E2. exact E2.
Qed.
