(* Proofs about runs of the Windows client's forwarder. *)
From Verif Require Import Base M_WinFwd S_Usbip S_WinFwd P_Usbip1 P_WinFwd.
Open Scope N_scope.

(* ------------------------------------------------- runs *)
Lemma fwd_run_snoc f ls l g : fwd_run f (ls ++ [l]) = Some (Ok g) ->
  exists h, fwd_run f ls = Some (Ok h) /\ fwd_step h l = Some (Ok g).
Proof.
  revert f. induction ls as [|m ls IH]; intros f H.
  - exists f. split; [reflexivity|]. cbn in H. destruct (fwd_step f l) as [[x|]|]; congruence.
  - cbn [app fwd_run] in *. destruct (fwd_step f m) as [[x|]|]; try discriminate. now apply IH.
Qed.

Lemma fwd_inv (S I : fwd -> Prop) : I fwd0 ->
  (forall f l g, S f -> I f -> fwd_step f l = Some (Ok g) -> I g) ->
  forall ls g, (forall k f, fwd_run fwd0 (firstn k ls) = Some (Ok f) -> S f) ->
    fwd_run fwd0 ls = Some (Ok g) -> I g.
Proof.
  intros I0 IS ls. induction ls as [|l ls IH] using rev_ind; intros g C H.
  - injection H as <-. exact I0.
  - destruct (fwd_run_snoc _ _ _ _ H) as (h & Hh & Hl). refine (IS h l g _ (IH h _ Hh) Hl).
    + apply (C (length ls)). rewrite firstn_app, firstn_all, Nat.sub_diag, app_nil_r. exact Hh.
    + intros k f E. apply (C (Nat.min k (length ls))). rewrite firstn_app.
      replace (Nat.min k (length ls) - length ls)%nat with O by lia. rewrite app_nil_r, <- firstn_firstn, firstn_all.
      exact E.
Qed.

Lemma calm_prefix bl side ls l : calm bl side (ls ++ [l]) -> calm bl side ls.
Proof.
  intros C k f E. apply (C (Nat.min k (length ls))). rewrite firstn_app.
  replace (Nat.min k (length ls) - length ls)%nat with O by lia. rewrite app_nil_r, <- firstn_firstn, firstn_all.
  exact E.
Qed.

(* a step of a pipe *)
Inductive pipe_move (c : cache) (p : pipe) : cache -> pipe -> Prop :=
| PTurn c' q : turn c p = Ok (c', q) -> pipe_move c p c' q
| PRead data q : read_done p data = Some q -> pipe_move c p c q
| PWrite n q : write_done p n = Some q -> pipe_move c p c q.

Lemma iterate_parts f g : iterate f = Ok g ->
  exists c1, turn (fw_cache f) (fw_req f) = Ok (c1, fw_req g) /\
    turn c1 (fw_rep f) = Ok (fw_cache g, fw_rep g) /\
    fw_log g = fw_log f ++ sees (fw_req f) ++ sees (fw_rep f) /\
    fw_waiting g = idle (fw_req g) && idle (fw_rep g).
Proof.
  unfold iterate. destruct (turn (fw_cache f) (fw_req f)) as [[c1 q]|] eqn:E1; cbn [rbind]; [|discriminate].
  destruct (turn c1 (fw_rep f)) as [[c2 r]|] eqn:E2; cbn [rbind]; [|discriminate].
  intro H. injection H as <-. exists c1. auto.
Qed.

(* what a turn does not touch *)
Lemma read_devbuf_ends p n q : read_devbuf p n = Ok q -> same_ends q p.
Proof.
  unfold read_devbuf, start_read. intro H.
  repeat match type of H with context [if ?b then _ else _] => destruct b; try discriminate end;
  injection H as <-; repeat split.
Qed.

Lemma same_ends_trans a b c : same_ends a b -> same_ends b c -> same_ends a c.
Proof. intros (A1 & A2 & A3 & A4) (B1 & B2 & B3 & B4). repeat split; congruence. Qed.

Lemma write_ends p : same_ends (write_devbuf p) p.
Proof. repeat split; apply write_devbuf_keeps; reflexivity. Qed.

Lemma read_dev_ends c p c' q b : read_dev c p = Ok (c', q, b) -> same_ends q p.
Proof.
  unfold read_dev. destruct (bufread p <? 48).
  - destruct (read_devbuf _ _) eqn:E; cbn [rbind]; [|discriminate]. intro H. injection H as <- <- <-.
    apply read_devbuf_ends in E. eapply same_ends_trans; [exact E|]. repeat split.
  - destruct (get_xfer_len _ _ _) as [[c1 h2] x]. destruct (_ <? _).
    + destruct (read_devbuf _ _) eqn:E; cbn [rbind]; [|discriminate]. intro H. injection H as <- <- <-.
      apply read_devbuf_ends in E. eapply same_ends_trans; [exact E|]. repeat split.
    + destruct (_ && _); [discriminate|]. intro H. injection H as <- <- <-. repeat split.
Qed.

Lemma turn_ends c p c' q : turn c p = Ok (c', q) -> same_ends q p.
Proof.
  unfold turn. destruct (pi_reading p).
  - intro H. injection H as <- <-. apply write_ends.
  - destruct (read_dev c p) as [[[c1 p1] b]|] eqn:E; cbn [rbind]; [|discriminate].
    apply read_dev_ends in E. intro H. injection H as <- <-. destruct b; auto.
    eapply same_ends_trans; [apply write_ends|exact E].
Qed.

Lemma prefix_app (a b s : bytes) : prefix (a ++ b) s -> prefix a s.
Proof. intros (c & ->). exists (b ++ c). now rewrite app_assoc. Qed.

(* ------------------------------------------------- requests *)
Definition req_item (m : message) : item :=
  match m with
  | MSubmit seq devid dir ep flags start packets interval n setup d =>
    let h := submit_host seq devid dir ep flags start packets interval n setup in
    mk_item h h (be 4 1 ++ be 4 seq ++ be 4 devid ++ be 4 dir ++ be 4 ep ++
      be 4 flags ++ be 4 n ++ be 4 start ++ be 4 packets ++ be 4 interval ++ setup) d
  | MUnlink seq devid dir ep target padding =>
    let h := unlink_host seq devid dir ep target padding in
    mk_item h h (be 4 2 ++ be 4 seq ++ be 4 devid ++ be 4 dir ++ be 4 ep ++ be 4 target ++ padding) []
  | _ => mk_item [] [] [] []
  end.

Lemma req_in m : driver_request m -> it_in (req_item m) = host_bytes m.
Proof.
  intros (_ & H). destruct m; try contradiction; unfold it_in, req_item, host_bytes, submit_host, unlink_host;
    cbn [it_a it_d]; now rewrite ?app_nil_r, <- ?app_assoc.
Qed.

Lemma req_out m : driver_request m -> it_out (req_item m) = message_bytes m.
Proof.
  intros (_ & H). destruct m; try contradiction; unfold it_out, req_item, message_bytes, S_Usbip.head, S_Usbip.data;
    cbn [it_b it_d]; now rewrite ?app_nil_r, <- ?app_assoc.
Qed.

Lemma req_ok m : driver_request m -> item_ok true true (req_item m).
Proof.
  intros (W & H). destruct m; try contradiction; cbn [well_formed] in W; unfold item_ok, req_item; cbn [it_a it_m it_b it_d].
  - destruct W as (W1 & W2 & W3 & W4 & W5 & W6 & W7). subst.
    destruct (submit_fields seq devid dir ep flags start 0 interval n setup W6 W1 W3 W5 ltac:(lia))
      as (F1 & F2 & F3 & F4 & F5 & F6).
    split; [exact F1|]. split; [exact F1|]. split; [rewrite !len_app, !len_be, W6; reflexivity|].
    split; [unfold get_iso_len; rewrite F2, F6; reflexivity|]. now apply submit_swap.
  - destruct W as (W1 & W2 & W3 & W4 & W5 & W6).
    destruct (unlink_fields seq devid dir ep target padding W6) as (F1 & F2).
    split; [exact F1|]. split; [exact F1|]. split; [rewrite !len_app, !len_be, W6; reflexivity|].
    split; [unfold get_iso_len; rewrite F2; reflexivity|]. now apply unlink_swap.
Qed.

Lemma req_handled c p m : driver_request m -> pi_req p = true -> pi_swap_in p = false ->
  header_of p = it_m (req_item m) -> handled c p (req_item m).
Proof.
  intros (W & H) R S E. unfold handled, seen_header. rewrite S, andb_false_r, E, R.
  destruct m; try contradiction; cbn [well_formed] in W; unfold req_item; cbn [it_m it_d].
  - destruct W as (W1 & W2 & W3 & W4 & W5 & W6 & W7). subst.
    destruct (submit_fields seq devid dir ep flags start 0 interval n setup W6 W1 W3 W5 ltac:(lia))
      as (F1 & F2 & F3 & F4 & F5 & F6).
    unfold get_xfer_len. rewrite F2, F3, F4, F5. change (1 =? 2) with false. cbv iota.
    eexists. f_equal. destruct (dir =? 0); [congruence|now rewrite W7].
  - destruct W as (W1 & W2 & W3 & W4 & W5 & W6).
    destruct (unlink_fields seq devid dir ep target padding W6) as (F1 & F2).
    unfold get_xfer_len. rewrite F2. eexists. reflexivity.
Qed.

Lemma it_in_map ms : Forall driver_request ms ->
  concat (map it_in (map req_item ms)) = concat (map host_bytes ms).
Proof. induction 1 as [|m ms H _ IH]; cbn [map concat]; [reflexivity|]. now rewrite IH, req_in. Qed.
Lemma it_out_map ms : Forall driver_request ms ->
  concat (map it_out (map req_item ms)) = concat (map message_bytes ms).
Proof. induction 1 as [|m ms H _ IH]; cbn [map concat]; [reflexivity|]. now rewrite IH, req_out. Qed.

Lemma pipe0_ok its req a b : pipe_ok its (pipe0 req a b).
Proof.
  exists [], its, []. split.
  - unfold producer_ok, pipe0, reading_ok, in_header. cbn [pi_in pi_p pi_maxp pi_reading pi_step pi_offhdr app map concat].
    split; [reflexivity|]. split; [reflexivity|]. split; [discriminate|]. split; [reflexivity|].
    split; [exact Logic.I|]. right. split; [discriminate|]. split; [reflexivity|]. split; [discriminate|].
    split; [congruence|exact Logic.I].
  - unfold consumer_ok, pipe0, region, writing_ok, bufremain, cbytes. cbn.
    repeat split; discriminate.
Qed.

Definition req_flags (p : pipe) : Prop := pi_req p = true /\ pi_swap_in p = false /\ pi_swap_out p = true.
Definition rep_flags (p : pipe) : Prop := pi_req p = false /\ pi_swap_in p = true /\ pi_swap_out p = false.

Lemma same_req_flags p q : same_ends q p -> req_flags p -> req_flags q.
Proof. intros (_ & A & B & C) (X & Y & Z). repeat split; congruence. Qed.
Lemma same_rep_flags p q : same_ends q p -> rep_flags p -> rep_flags q.
Proof. intros (_ & A & B & C) (X & Y & Z). repeat split; congruence. Qed.

Section Requests.
  Variable ms : list message.
  Hypothesis good : Forall driver_request ms.
  Variables mx bl : N.
  Hypothesis small : Forall (fun m => len (host_bytes m) <= mx) ms.
  Hypothesis mx48 : 48 <= mx.
  Hypothesis room : mx + bl < 4294967296.
  Let its := map req_item ms.

  Definition req_inv (p : pipe) : Prop :=
    req_flags p /\ (prefix (pi_in p) (concat (map host_bytes ms)) -> pipe_ok its p).

  Lemma its_ok : Forall (item_ok true true) its.
  Proof. apply Forall_map. eapply Forall_impl; [|exact good]. exact req_ok. Qed.

  Lemma its_small : Forall (fun i => len (it_in i) <= mx) its.
  Proof.
    apply Forall_map. rewrite Forall_forall in *. intros m I. rewrite req_in by auto. now apply small.
  Qed.

  Lemma req_turn c p : req_flags p -> pipe_ok its p -> prefix (pi_in p) (concat (map host_bytes ms)) ->
    len (pi_in p) <= len (concat (pi_out p)) + bl ->
    exists q, turn c p = Ok (turn_cache c p, q) /\ pipe_ok its q /\ same_ends q p.
  Proof.
    intros (R & S1 & S2) P X C. apply turn_ok with (mx := mx); auto; try lia.
    - rewrite R, S2. apply its_ok.
    - unfold its. now rewrite it_in_map.
    - apply its_small.
    - intros i Ii _ _ H. unfold its in Ii. apply in_map_iff in Ii. destruct Ii as (m & <- & Im).
      rewrite Forall_forall in good. pose proof (good m Im) as G. apply req_handled; auto.
      destruct H as [[_ H]|[_ H]]; rewrite H; auto. destruct G as (_ & G). destruct m; try contradiction; reflexivity.
  Qed.

  Lemma req_step f l g : len (pi_in (fw_req f)) <= len (concat (pi_out (fw_req f))) + bl -> req_inv (fw_req f) -> fwd_step f l = Some (Ok g) -> req_inv (fw_req g).
  Proof.
    intros Cm (F & H) E. destruct l as [|[|] data|[|] n]; cbn [fwd_step] in E.
    - injection E as E. destruct (iterate_parts _ _ E) as (c1 & T & _).
      pose proof (turn_ends _ _ _ _ T) as Se. split; [eapply same_req_flags; eauto|].
      pose proof Se as (Ei & _). rewrite Ei. intro X.
      destruct (req_turn (fw_cache f) _ F (H X) X Cm) as (q & Eq & Pq & _). rewrite T in Eq. injection Eq as _ ->. exact Pq.
    - destruct (fw_waiting f); [|discriminate]. cbn [pipe_of] in E.
      destruct (read_done (fw_req f) data) as [q|] eqn:D; [|discriminate]. cbn [obind] in E. injection E as <-.
      cbn [with_pipe fw_req].
      assert (pi_in q = pi_in (fw_req f) ++ data /\ req_flags q) as (Ei & Fq).
      { unfold read_done in D. destruct (pi_reading _); [|discriminate]. destruct (_ || _); [discriminate|].
        injection D as <-. split; [reflexivity|exact F]. }
      split; [exact Fq|]. intro X. eapply read_done_ok; [apply H|exact D|..].
      + rewrite Ei in X. now apply prefix_app in X.
      + unfold its. now rewrite it_in_map.
      + eapply Forall_impl; [|exact its_ok]. intros i (A & B & _). auto.
    - destruct (fw_waiting f); [|discriminate].
      destruct (read_done _ data) as [q|] eqn:D; [|discriminate]. cbn [obind] in E. injection E as <-.
      split; auto.
    - destruct (fw_waiting f); [|discriminate]. cbn [pipe_of] in E.
      destruct (write_done (fw_req f) n) as [q|] eqn:D; [|discriminate]. cbn [obind] in E. injection E as <-.
      cbn [with_pipe fw_req].
      assert (same_ends q (fw_req f)) as Se.
      { unfold write_done in D. destruct (pi_writing _); [|discriminate]. destruct (_ || _); [discriminate|].
        injection D as <-. repeat split. }
      split; [eapply same_req_flags; eauto|]. pose proof Se as (-> & _). intro X.
      eapply write_done_ok; eauto.
    - destruct (fw_waiting f); [|discriminate].
      destruct (write_done _ n) as [q|] eqn:D; [|discriminate]. cbn [obind] in E. injection E as <-.
      split; auto.
  Qed.

  Lemma req_run ls g : calm bl true ls -> fwd_run fwd0 ls = Some (Ok g) -> req_inv (fw_req g).
  Proof.
    intro C. refine (fwd_inv (fun f => len (pi_in (fw_req f)) <= len (concat (pi_out (fw_req f))) + bl)
      (fun f => req_inv (fw_req f)) _ _ ls g C).
    - split; [repeat split|]. intros _. apply pipe0_ok.
    - exact req_step.
  Qed.

  (* what has been written is a prefix *)
  Lemma pipe_written p : pipe_ok its p -> prefix (concat (pi_out p)) (concat (map it_out its)).
  Proof.
    intros (dn & rest & raw & (E & _) & (_ & _ & _ & D & _)).
    rewrite E, map_app, concat_app, <- D. exists (region p ++ concat (map it_out rest)). now rewrite <- !app_assoc.
  Qed.

  Theorem requests_written ls g : calm bl true ls -> fwd_run fwd0 ls = Some (Ok g) ->
    prefix (pi_in (fw_req g)) (concat (map host_bytes ms)) ->
    prefix (concat (pi_out (fw_req g))) (concat (map message_bytes ms)).
  Proof.
    intros C R X. destruct (req_run ls g C R) as (_ & H). specialize (H X). apply pipe_written in H.
    unfold its in H. now rewrite it_out_map in H.
  Qed.
End Requests.
