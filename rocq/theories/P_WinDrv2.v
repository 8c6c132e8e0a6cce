(* Proofs about the driver of the Windows client together with the forwarder: requests. *)
From Verif Require Import Base M_Util M_WinFwd M_WinDrv S_Usbip S_WinFwd S_WinDrv P_WinFwd P_WinRun P_WinRep P_WinDrv.
Open Scope N_scope.

Lemma win_run_snoc w ls l v : win_run w (ls ++ [l]) = Some (Ok v) ->
  exists u, win_run w ls = Some (Ok u) /\ win_step u l = Some (Ok v).
Proof.
  revert w. induction ls as [|m ls IH]; intros w H.
  - exists w. split; [reflexivity|]. cbn [win_run app] in H. destruct (win_step w l) as [[x|]|]; congruence.
  - cbn [app win_run] in *. destruct (win_step w m) as [[x|]|]; try discriminate. now apply IH.
Qed.

(* the forwarder's part of a step *)
Definition fwd_part (l : win_label) (w v : win) : Prop :=
  (wi_steps v = wi_steps w /\ wi_fwd v = wi_fwd w) \/
  exists fl, wi_steps v = wi_steps w ++ [fl] /\ fwd_step (wi_fwd w) fl = Some (Ok (wi_fwd v)).

Lemma win_step_fwd w l v : win_step w l = Some (Ok v) -> fwd_part l w v.
Proof.
  intro E. destruct l; cbn [win_step] in E.
  - destruct (submit_block _ _ _) as [d b]. injection E as <-. left. auto.
  - destruct (cancel_block _ _) as [[d b]|]; [|discriminate]. cbn [obind] in E. injection E as <-. left. auto.
  - injection E as <-. left. auto.
  - destruct (wi_ended w); [discriminate|]. destruct (_ && _); [discriminate|].
    destruct (fwd_step (wi_fwd w) Iterate) as [[g|]|] eqn:F; cbn [obind rbind] in E; try discriminate.
    injection E as E.
    destruct (match starts _ _ with Some n => _ | None => _ end) as [[d1 rr]|]; cbn [rbind] in E; [|discriminate].
    destruct (match starts (pi_writing _) _ with Some b => _ | None => _ end) as [d2|]; cbn [rbind] in E; [|discriminate].
    injection E as <-. right. exists Iterate. auto.
  - destruct (wi_ended w); [discriminate|]. destruct (wi_ready w); [|discriminate]. cbn [obind] in E. unfold fwd_does in E.
    destruct (fwd_step _ _) as [[g|]|] eqn:F; cbn [obind rbind] in E; try discriminate. injection E as <-. right. eexists. split; [reflexivity|exact F].
  - destruct (wi_ended w); [discriminate|]. destruct (pi_writing _); [|discriminate]. cbn [obind] in E. unfold fwd_does in E.
    destruct (fwd_step _ _) as [[g|]|] eqn:F; cbn [obind rbind] in E; try discriminate. injection E as <-. right. eexists. split; [reflexivity|exact F].
  - destruct (wi_ended w); [discriminate|]. destruct (pi_writing _); [discriminate|]. unfold fwd_does in E.
    destruct (fwd_step _ _) as [[g|]|] eqn:F; cbn [obind rbind] in E; try discriminate. injection E as <-. right. eexists. split; [reflexivity|exact F].
  - destruct (wi_ended w); [discriminate|]. unfold fwd_does in E.
    destruct (fwd_step _ _) as [[g|]|] eqn:F; cbn [obind rbind] in E; try discriminate. injection E as <-. right. eexists. split; [reflexivity|exact F].
Qed.

Lemma fwd_run_add f ls l h : fwd_run f ls = Some (Ok h) -> fwd_run f (ls ++ [l]) = fwd_step h l.
Proof.
  revert f. induction ls as [|m ls IH]; intros f H; cbn [app fwd_run] in *.
  - injection H as ->. destruct (fwd_step h l) as [[x|]|]; reflexivity.
  - destruct (fwd_step f m) as [[x|]|]; try discriminate. now apply IH.
Qed.

Lemma part_run l w v : fwd_part l w v -> fwd_run fwd0 (wi_steps w) = Some (Ok (wi_fwd w)) ->
  fwd_run fwd0 (wi_steps v) = Some (Ok (wi_fwd v)).
Proof. intros [(-> & ->)|(fl & -> & F)] R; [exact R|]. now rewrite (fwd_run_add _ _ _ _ R). Qed.

Lemma part_calm l w v bl side : fwd_part l w v -> calm bl side (wi_steps v) -> calm bl side (wi_steps w).
Proof. intros [(-> & _)|(fl & -> & _)] C; [exact C|]. now apply calm_prefix in C. Qed.

(* ------------------------------------------------- the messages of a driver *)
Lemma messages_good d : drv_ok d -> N.of_nat (length (taken d)) < 4294967296 -> Forall driver_request (messages d).
Proof.
  intros H W. pose proof H as (H1 & _ & _ & _ & H5 & _). unfold messages. apply Forall_map, Forall_forall. intros [r j] I.
  assert (In r (taken d)) as It by (unfold taken; apply in_map_iff; exists (r, j); auto).
  destruct (in_split _ _ It) as (t1 & t2 & Sp). pose proof (taken_number d t1 r t2 H Sp) as Q.
  apply message_of_good; [exact H1| |].
  - rewrite Q. apply (f_equal (@length _)) in Sp. rewrite app_length in Sp. cbn [length] in Sp. lia.
  - rewrite Forall_forall in H5. apply H5. unfold entries. apply in_map, in_or_app. now left.
Qed.

Lemma entry_known d subs cs r u : hist d subs cs -> In r (taken d ++ dr_pending d) -> ur_what r = Some u -> In (ur_id r, u) subs.
Proof.
  intros (H1 & _) I U. apply (subseq_incl _ _ H1). apply blocks_in. unfold entries.
  apply in_map_iff. exists r. split; [unfold entry_of; now rewrite U|exact I].
Qed.

Lemma messages_small d subs cs mx : drv_ok d -> hist d subs cs -> Forall (fun x => len (buffer (snd x)) + 48 <= mx) subs -> 48 <= mx ->
  Forall (fun m => len (host_bytes m) <= mx) (messages d).
Proof.
  intros H Hi S M. pose proof H as (_ & _ & _ & _ & H5 & _). unfold messages. apply Forall_map, Forall_forall. intros [r j] I.
  assert (In r (taken d)) as It by (unfold taken; apply in_map_iff; exists (r, j); auto).
  unfold msg_of. cbn [fst snd]. destruct (ur_what r) as [u|] eqn:U.
  - assert (In (ur_id r, u) subs) as Is by (eapply entry_known; eauto; apply in_or_app; now left).
    assert (known u) as K.
    { rewrite Forall_forall in H5. specialize (H5 (Block (ur_id r) u)). apply H5. unfold entries. apply in_map_iff. exists r.
      split; [unfold entry_of; now rewrite U|apply in_or_app; now left]. }
    destruct (message_len (ur_seq r) (dr_devid d) j u K) as (L & _).
    rewrite Forall_forall in S. specialize (S _ Is). cbn [snd] in S. lia.
  - unfold host_bytes. rewrite !len_app, !le_len, pad_len. unfold N.of_nat. cbn. exact M.
Qed.

(* ------------------------------------------------- the size of a read *)
Lemma it_in_48 its i : Forall (item_ok true true) its -> In i its -> len (it_in i) = 48 + len (it_d i) /\ len (it_a i) = 48.
Proof. intros F I. rewrite Forall_forall in F. destruct (F i I) as (A & _). unfold it_in. rewrite len_app. lia. Qed.

Lemma read_size its p n t : Forall (item_ok true true) its -> pipe_ok its p -> pi_reading p = Some n -> 0 < n ->
  concat (map it_in its) = pi_in p ++ t ->
  (t = [] -> n = 48) /\
  (forall its0 i, its = its0 ++ [i] -> t = it_d i -> t <> [] -> n = len t).
Proof.
  intros F (dn & rest & raw & (E & I & _ & _ & _ & X) & _) R Z T.
  assert (concat (map it_in rest) = raw ++ t) as T'.
  { rewrite E, map_app, concat_app, I, <- app_assoc in T. now apply app_inv_head in T. }
  unfold in_data, in_header in X. rewrite R in X. split.
  - intros ->. rewrite app_nil_r in T'. destruct X as [(_ & i & r & e & Er & _ & Ew & _ & L)|(_ & _ & _ & _ & (_ & L))].
    + exfalso. subst rest raw. cbn [map concat] in T'. apply (f_equal len) in T'. rewrite !len_app in T'.
      unfold it_in at 1 in T'. rewrite len_app in T'. lia.
    + destruct rest as [|i r]; cbn [map concat] in T'; [subst raw; change (len (@nil N)) with 0 in L; lia|].
      assert (In i its) as Ii by (rewrite E; apply in_or_app; right; now left).
      destruct (it_in_48 its i F Ii) as (L1 & _). apply (f_equal len) in T'. rewrite len_app in T'. lia.
  - intros its0 i Ei Et Nt.
    assert (0 < len t) as Lt by (destruct t; [congruence|unfold len; cbn [length]; lia]).
    destruct (exists_last (l := rest)) as (rest' & i' & Er).
    { intros ->. cbn in T'. symmetry in T'. apply app_eq_nil in T'. tauto. }
    rewrite Er, app_assoc in E. rewrite Ei in E. apply app_inj_tail in E. destruct E as (E & <-).
    assert (In i its) as Ii by (rewrite Ei; apply in_or_app; right; now left).
    destruct (it_in_48 its i F Ii) as (L1 & L2).
    assert (raw = concat (map it_in rest') ++ it_a i) as Eraw.
    { rewrite Er, map_app, concat_app in T'. cbn [map concat] in T'. rewrite app_nil_r in T'.
      unfold it_in at 2 in T'. rewrite <- Et, app_assoc in T'. now apply app_inv_tail in T'. }
    destruct rest' as [|i1 r1].
    + cbn [map concat app] in Eraw, Er. destruct X as [(_ & i2 & r2 & e & Er2 & _ & Ew & _ & L)|(_ & _ & _ & _ & (_ & L))].
      * rewrite Er in Er2. injection Er2 as <- <-. rewrite Eraw in Ew.
        assert (e = []) as -> by (apply len_0_nil; apply (f_equal len) in Ew; rewrite len_app in Ew; lia).
        change (len (@nil N)) with 0 in L. rewrite Et. lia.
      * exfalso. subst raw. lia.
    + exfalso. assert (In i1 its) as I1 by (rewrite Ei, E; apply in_or_app; left; apply in_or_app; right; now left).
      destruct (it_in_48 its i1 F I1) as (L3 & L4).
      cbn [map concat] in Eraw. apply (f_equal len) in Eraw. rewrite !len_app in Eraw.
      destruct X as [(_ & i2 & r2 & e & Er2 & _ & Ew & (e2 & Pe) & L)|(_ & _ & L & _)]; [|lia].
      rewrite Er in Er2. cbn [app] in Er2. injection Er2 as <- _. subst raw.
      apply (f_equal len) in Pe. rewrite !len_app in *. lia.
Qed.

(* ------------------------------------------------- replies do not matter for requests *)
Lemma take_sent_in q l r l' : take_sent q l = Some (r, l') -> incl (r :: l') l /\ incl l (r :: l') /\ ur_seq r = q.
Proof.
  revert r l'. induction l as [|x l IH]; intros r l' E; cbn [take_sent] in E; [discriminate|].
  destruct (N.eqb_spec (ur_seq x) q) as [Q|_].
  - injection E as <- <-. split; [apply incl_refl|]. split; [apply incl_refl|exact Q].
  - destruct (take_sent q l) as [[y l2]|]; [|discriminate]. cbn [obind] in E. injection E as <- <-.
    destruct (IH y l2 eq_refl) as (A & B & C). split; [|split; [|exact C]].
    + intros z [<-|[<-|I]]; [right; apply A; now left|now left|right; apply A; now right].
    + intros z [<-|I]; [right; now left|]. destruct (B z I) as [<-|J]; [now left|right; now right].
Qed.

Definition same_reads (d d' : drv) : Prop :=
  dr_devid d' = dr_devid d /\ dr_seq d' = dr_seq d /\ dr_pending d' = dr_pending d /\ dr_partial d' = dr_partial d /\
  dr_read d' = dr_read d /\ dr_taken d' = dr_taken d /\ dr_out d' = dr_out d.

Lemma write_same d b d' : write_drv d b = Ok d' -> same_reads d d' /\ incl (dr_sent d') (dr_sent d).
Proof.
  unfold write_drv. destruct (_ <? _); [intros [=<-]; repeat split; apply incl_refl|].
  destruct (take_sent _ _) as [[r sent]|] eqn:T; [|intros [=<-]; repeat split; apply incl_refl].
  destruct (take_sent_in _ _ _ _ T) as (A & _). assert (incl sent (dr_sent d)) as S by (intros z I; apply A; now right).
  destruct (ur_what r) as [u|].
  - destruct (take_reply u b); cbn [rbind]; [|discriminate]. intros [=<-]. repeat split. exact S.
  - intros [=<-]. repeat split. exact S.
Qed.

Lemma same_reads_ok d d' : same_reads d d' -> drv_ok d -> drv_ok d'.
Proof.
  intros (E1 & E2 & E3 & E4 & E5 & E6 & E7). unfold drv_ok, messages, entries, taken, slot_ok.
  now rewrite E1, E2, E3, E4, E5, E6, E7.
Qed.

Lemma same_reads_hist d d' subs cs : same_reads d d' -> incl (dr_sent d') (dr_sent d) -> hist d subs cs -> hist d' subs cs.
Proof.
  intros (E1 & E2 & E3 & E4 & E5 & E6 & E7) S. unfold hist, entries, taken. rewrite E3, E4, E6.
  intros (H1 & H2 & H3 & H4 & H5 & H6). repeat (split; [assumption|]).
  intros x I. apply in_app_or in I. apply H6, in_or_app. destruct I as [I|I]; auto.
Qed.

(* ------------------------------------------------- the invariant *)
Definition given (o : option bytes) : bytes := match o with Some b => b | None => [] end.

Definition win_inv (devid : N) (w : win) (subs : list (nat * urb)) (cs : list nat) (n : nat) : Prop :=
  let d := wi_drv w in let p := fw_req (wi_fwd w) in
  fwd_run fwd0 (wi_steps w) = Some (Ok (wi_fwd w)) /\ wi_ended w = false /\ drv_ok d /\ hist d subs cs /\
  dr_devid d = devid /\ (length (taken d) <= n)%nat /\
  pi_in p ++ given (wi_ready w) = concat (dr_out d) /\
  (forall b, wi_ready w = Some b -> dr_read d = None) /\
  (pi_reading p = None <-> wi_ready w = None /\ dr_read d = None).

Lemma win0_inv devid : devid < 4294967296 -> win_inv devid (win0 devid) [] [] 0.
Proof.
  intro D. unfold win_inv, win0. cbn [wi_drv wi_fwd wi_steps wi_ended wi_ready fwd0 fw_req].
  split; [reflexivity|]. split; [reflexivity|]. split.
  { split; [exact D|]. split; [reflexivity|]. split; [reflexivity|]. split; [constructor|]. split; [constructor|].
    split; [reflexivity|]. split; [exact Logic.I|discriminate]. }
  split.
  { split; [constructor|]. split; [intros ? []|]. split; [exact Logic.I|]. split; [intros ? []|]. split; apply incl_refl. }
  split; [reflexivity|]. split; [apply le_n|]. split; [reflexivity|]. split; [discriminate|]. split; auto.
Qed.

Section Run.
  Variable devid mx bl : N.
  Hypothesis mx48 : 48 <= mx.
  Hypothesis room : mx + bl < 4294967296.

  (* what is read by the forwarder is what the driver gave *)
  Lemma inv_pipe w subs cs n : win_inv devid w subs cs n -> calm bl true (wi_steps w) -> N.of_nat n < 4294967296 ->
    Forall (fun x => len (buffer (snd x)) + 48 <= mx) subs ->
    let ms := messages (wi_drv w) in
    Forall driver_request ms /\ Forall (fun m => len (host_bytes m) <= mx) ms /\
    concat (map host_bytes ms) = pi_in (fw_req (wi_fwd w)) ++ given (wi_ready w) ++ tail (dr_partial (wi_drv w)) /\
    pipe_ok (map req_item ms) (fw_req (wi_fwd w)).
  Proof.
    intros (I1 & I2 & I3 & I4 & I5 & I6 & I7 & I8 & I9) C W S ms.
    assert (Forall driver_request ms) as G by (apply messages_good; [exact I3|lia]).
    assert (Forall (fun m => len (host_bytes m) <= mx) ms) as Sm by (eapply messages_small; eauto).
    assert (concat (map host_bytes ms) = pi_in (fw_req (wi_fwd w)) ++ given (wi_ready w) ++ tail (dr_partial (wi_drv w))) as E.
    { destruct I3 as (_ & _ & _ & _ & _ & E & _). unfold ms. rewrite E, app_assoc, I7. reflexivity. }
    split; [exact G|]. split; [exact Sm|]. split; [exact E|].
    destruct (req_run ms G mx bl Sm mx48 room _ _ C I1) as (_ & H). apply H. eexists. exact E.
  Qed.

  Lemma fwd_reading_in f l g : fwd_step f l = Some (Ok g) ->
    match l with
    | ReadDone true b => pi_in (fw_req g) = pi_in (fw_req f) ++ b /\ pi_reading (fw_req g) = None /\ pi_reading (fw_req f) <> None
    | Iterate => pi_in (fw_req g) = pi_in (fw_req f)
    | _ => pi_in (fw_req g) = pi_in (fw_req f) /\ pi_reading (fw_req g) = pi_reading (fw_req f)
    end.
  Proof.
    intro E. destruct l as [|[|] b|[|] k]; cbn [fwd_step] in E.
    - injection E as E. destruct (iterate_parts _ _ E) as (c1 & T & _). now destruct (turn_ends _ _ _ _ T).
    - destruct (fw_waiting f); [|discriminate]. cbn [pipe_of] in E. unfold read_done in E.
      destruct (pi_reading (fw_req f)) as [m|]; [|discriminate]. destruct (_ || _); [discriminate|].
      cbn [obind] in E. injection E as <-. repeat split. discriminate.
    - destruct (fw_waiting f); [|discriminate]. destruct (read_done _ _); [|discriminate].
      cbn [obind] in E. injection E as <-. auto.
    - destruct (fw_waiting f); [|discriminate]. cbn [pipe_of] in E. unfold write_done in E.
      destruct (pi_writing (fw_req f)) as [m|]; [|discriminate]. destruct (_ || _); [discriminate|].
      cbn [obind] in E. injection E as <-. auto.
    - destruct (fw_waiting f); [|discriminate]. destruct (write_done _ _); [|discriminate].
      cbn [obind] in E. injection E as <-. auto.
  Qed.

  (* a read that was begun goes on *)
  Lemma iterate_reading f g n : fwd_step f Iterate = Some (Ok g) -> pi_reading (fw_req f) = Some n -> pi_reading (fw_req g) = Some n.
  Proof.
    cbn [fwd_step]. intros E R. injection E as E. destruct (iterate_parts _ _ E) as (c1 & T & _).
    unfold turn in T. rewrite R in T. injection T as _ <-. rewrite (write_devbuf_keeps _ pi_reading); auto.
  Qed.

  Lemma step_inv ls l w v : win_inv devid w (submitted ls) (cancelled ls) (length ls) ->
    Forall (fun x => known (snd x)) (submitted (ls ++ [l])) ->
    Forall (fun x => len (buffer (snd x)) + 48 <= mx) (submitted (ls ++ [l])) ->
    NoDup (map fst (submitted (ls ++ [l]))) -> N.of_nat (length (ls ++ [l])) < 4294967296 ->
    (forall a, l <> WAbort a) -> (forall id r, l = WCancel id -> dr_partial (wi_drv w) = Holds r -> ur_id r <> id) ->
    calm bl true (wi_steps v) -> win_step w l = Some (Ok v) ->
    win_inv devid v (submitted (ls ++ [l])) (cancelled (ls ++ [l])) (length (ls ++ [l])).
  Proof.
    intros I K S N W Ab Ca C E. pose proof (win_step_fwd _ _ _ E) as Fp.
    pose proof I as (I1 & I2 & I3 & I4 & I5 & I6 & I7 & I8 & I9).
    pose proof (part_run _ _ _ Fp I1) as J1.
    rewrite app_length in W |- *. cbn [length] in W |- *.
    assert (submitted (ls ++ [l]) = submitted ls ++ submitted [l]) as Es by apply flat_map_app.
    assert (cancelled (ls ++ [l]) = cancelled ls ++ cancelled [l]) as Ec by apply flat_map_app.
    assert (N.of_nat (length (taken (wi_drv w))) + 1 < 4294967296) as Wt by lia.
    rewrite Es in *. rewrite Ec.
    destruct l as [id u|id|a|junk| | |data|k]; cbn [submitted cancelled flat_map app] in *; rewrite ?app_nil_r in *.
    - (* a block *)
      cbn [win_step] in E. destruct (submit_block (wi_drv w) id u) as [d' b] eqn:B. injection E as <-.
      assert (known u) as Ku by (apply Forall_app in K; destruct K as (_ & K); now inversion K).
      destruct (submit_hist _ _ _ _ _ _ _ I4 I3 Ku N Wt B) as (H1 & H2 & H3 & H4 & H5 & H6 & H7 & H8).
      unfold win_inv. cbn [wi_drv wi_fwd wi_steps wi_ended wi_ready] in *.
      split; [exact J1|]. split; [exact I2|]. split; [exact H2|]. split; [exact H1|]. split; [congruence|]. split; [lia|].
      destruct b as [b|]; cbn [gives ready_or] in *.
      + destruct H4 as (R1 & R2 & R3 & R4).
        assert (wi_ready w = None) as Rn by (destruct (wi_ready w) as [x|]; [specialize (I8 x eq_refl); congruence|reflexivity]).
        rewrite Rn in I7. cbn [given] in I7 |- *. rewrite app_nil_r in I7.
        split; [rewrite R3, concat_app, I7; cbn [concat]; now rewrite app_nil_r|]. split; [auto|].
        split; [intro X; apply I9 in X; destruct X; contradiction|intros (X & _); discriminate X].
      + destruct H4 as (R1 & R2). rewrite R1, R2. auto.
    - (* a cancel *)
      cbn [win_step] in E. destruct (cancel_block (wi_drv w) id) as [[d' b]|] eqn:B; [|discriminate]. cbn [obind] in E. injection E as <-.
      destruct (cancel_hist _ _ _ _ _ _ I4 I3 N (fun r => Ca id r eq_refl) Wt B) as (H1 & H2 & H4 & H5 & H7 & H8 & _).
      unfold win_inv. cbn [wi_drv wi_fwd wi_steps wi_ended wi_ready] in *.
      split; [exact J1|]. split; [exact I2|]. split; [exact H2|]. split; [exact H1|]. split; [congruence|]. split; [lia|].
      destruct b as [b|]; cbn [gives ready_or] in *.
      + destruct H4 as (R1 & R2 & R3 & R4).
        assert (wi_ready w = None) as Rn by (destruct (wi_ready w) as [x|]; [specialize (I8 x eq_refl); congruence|reflexivity]).
        rewrite Rn in I7. cbn [given] in I7 |- *. rewrite app_nil_r in I7.
        split; [rewrite R3, concat_app, I7; cbn [concat]; now rewrite app_nil_r|]. split; [auto|].
        split; [intro X; apply I9 in X; destruct X; contradiction|intros (X & _); discriminate X].
      + destruct H4 as (R1 & R2). rewrite R1, R2. auto.
    - now destruct (Ab a).
    - (* the loop *)
      pose proof (inv_pipe w _ _ _ I (part_calm _ _ _ _ _ Fp C) ltac:(lia) S) as (G & Sm & Eh & _).
      cbn [win_step] in E. rewrite I2 in E. destruct (_ && _); [discriminate|].
      destruct (fwd_step (wi_fwd w) Iterate) as [[g|]|] eqn:F; cbn [obind rbind] in E; try discriminate.
      pose proof (fwd_reading_in _ _ _ F) as Ei. cbn beta iota in Ei.
      injection E as E.
      assert (exists d1 rr, (match starts (pi_reading (fw_req (wi_fwd w))) (pi_reading (fw_req g)) with
                 | Some n => read_drv (wi_drv w) n junk | None => Ok (wi_drv w, Waits) end) = Ok (d1, rr) /\
              drv_ok d1 /\ hist d1 (submitted ls) (cancelled ls) /\ dr_devid d1 = devid /\ (length (taken d1) <= length ls + 1)%nat /\
              rr <> Fails /\
              let ready := match rr with Gave b => Some b | _ => wi_ready w end in
              pi_in (fw_req g) ++ given ready = concat (dr_out d1) /\
              (forall b, ready = Some b -> dr_read d1 = None) /\
              (pi_reading (fw_req g) = None <-> ready = None /\ dr_read d1 = None)) as
        (d1 & rr & Er & K1 & K2 & K3 & K4 & K5 & K6 & K7 & K8).
      { destruct (pi_reading (fw_req (wi_fwd w))) as [m|] eqn:R.
        - rewrite (iterate_reading _ _ _ F R). exists (wi_drv w), Waits. cbn [starts]. split; [reflexivity|].
          split; [exact I3|]. split; [exact I4|]. split; [exact I5|]. split; [lia|]. split; [discriminate|]. cbv zeta iota.
          rewrite Ei. split; [exact I7|]. split; [exact I8|]. split; [discriminate|]. intro X. apply I9 in X. discriminate.
        - destruct (proj1 I9 eq_refl) as (Rn & Dn). destruct (pi_reading (fw_req g)) as [m|] eqn:Rg; cbn [starts].
          + rewrite Rn in Eh, I7. cbn [given app] in Eh, I7. rewrite app_nil_r in I7.
            assert (wi_steps v = wi_steps w ++ [Iterate] /\ wi_fwd v = g) as (Sv & Fv).
            { cbn [starts] in E. destruct (read_drv (wi_drv w) m junk) as [[d1 rr]|]; cbn [rbind] in E; [|discriminate].
              destruct (match starts (pi_writing _) _ with Some b => _ | None => _ end) as [d2|]; cbn [rbind] in E; [|discriminate].
              injection E as <-. auto. }
            destruct (req_run _ G mx bl Sm mx48 room _ _ C J1) as (_ & Pk). rewrite Fv in Pk.
            assert (pipe_ok (map req_item (messages (wi_drv w))) (fw_req g)) as P.
            { apply Pk. rewrite Ei. eexists. exact Eh. }
            assert (0 < m) as Zm.
            { destruct P as (? & ? & ? & (_ & _ & _ & _ & P & _) & _). unfold reading_ok in P. rewrite Rg in P. tauto. }
            destruct (read_size _ _ _ (tail (dr_partial (wi_drv w))) (its_ok _ G) P Rg Zm) as (Q1 & Q2).
            { rewrite it_in_map by exact G. now rewrite Ei. }
            assert (m = match dr_partial (wi_drv w) with Holds r => match ur_what r with Some u => len (buffer u) | None => 0 end | _ => 48 end) as Em.
            { destruct (dr_partial (wi_drv w)) as [|r|] eqn:Pa; [now apply Q1| |now apply Q1].
              pose proof I3 as (_ & _ & _ & _ & Ie & _ & Is & _). unfold slot_ok in Is. rewrite Pa in Is. destruct Is as (before & j & u & T & U & Cu & Bu).
              cbn [tail] in Q2. rewrite U in Q2 |- *.
              apply (Q2 (map req_item (map (msg_of (dr_devid (wi_drv w))) before)) (req_item (msg_of (dr_devid (wi_drv w)) (r, j)))); [unfold messages; rewrite T, !map_app; reflexivity| |exact Bu].
              unfold msg_of. cbn [fst snd]. rewrite U.
              assert (known u) as Ku.
              { rewrite Forall_forall in Ie. apply (Ie (Block (ur_id r) u)). unfold entries, taken. rewrite T. apply in_map_iff. exists r. split; [unfold entry_of; now rewrite U|].
                rewrite map_app. apply in_or_app. left. apply in_or_app. right. now left. }
              destruct (header_is j (ur_seq r) (dr_devid (wi_drv w)) u Ku) as (_ & Hs & (a & b & c & d & e & f & g' & h & i & k & Ej)).
              rewrite Cu in Hs. rewrite Ej in Hs |- *. cbn [submit_parts snd] in Hs. cbn [req_item it_d]. now symmetry. }
            destruct (read_ok _ _ junk I3 Dn Wt Em) as (d' & rr & Er & L1 & L2 & L3 & L4 & L5 & L6 & L7 & L8 & L9).
            exists d', rr. split; [exact Er|]. split; [exact L1|].
            split; [eapply hist_read; eauto; apply L9; now destruct I4 as (_ & _ & _ & _ & _ & I4)|].
            split; [congruence|]. split; [lia|].
            destruct rr as [b| |]; [|rewrite Rn|contradiction]; (split; [discriminate|]); cbv zeta iota; rewrite Ei; cbn [given].
            * destruct L6 as (L61 & L62 & _). split; [rewrite L62, concat_app; cbn [concat]; now rewrite app_nil_r, I7|].
              split; [auto|]. split; [discriminate|]. intros (X & _). discriminate X.
            * destruct L6 as (L61 & L62). split; [rewrite L62, app_nil_r; exact I7|]. split; [discriminate|]. split; [discriminate|]. intros (_ & X). contradiction.
          + exists (wi_drv w), Waits. split; [reflexivity|].
            split; [exact I3|]. split; [exact I4|]. split; [exact I5|]. split; [lia|]. split; [discriminate|]. cbv zeta iota.
            rewrite Ei. split; [exact I7|]. split; [exact I8|]. split; auto. }
      rewrite Er in E. cbn [rbind] in E.
      destruct (match starts (pi_writing _) _ with Some b => _ | None => _ end) as [d2|] eqn:Wr; cbn [rbind] in E; [|discriminate].
      injection E as <-.
      assert (same_reads d1 d2 /\ incl (dr_sent d2) (dr_sent d1)) as (Sr & Si).
      { destruct (starts _ _) in Wr; [now apply write_same in Wr|]. injection Wr as <-. repeat split. apply incl_refl. }
      unfold win_inv. cbn [wi_drv wi_fwd wi_steps wi_ended wi_ready] in *.
      split; [exact J1|]. split; [destruct rr; congruence|].
      split; [eapply same_reads_ok; eauto|]. split; [eapply same_reads_hist; eauto|].
      destruct Sr as (E1 & E2 & E3 & E4 & E5 & E6 & E7). unfold taken. rewrite E1, E5, E6, E7.
      split; [exact K3|]. split; [unfold taken in K4; lia|]. auto.
    - (* a read is done *)
      cbn [win_step] in E. rewrite I2 in E. destruct (wi_ready w) as [b|] eqn:R; [|discriminate]. cbn [obind] in E. unfold fwd_does in E.
      destruct (fwd_step _ _) as [[g|]|] eqn:F; cbn [obind rbind] in E; try discriminate. injection E as <-.
      pose proof (fwd_reading_in _ _ _ F) as (Ei & Rg & _).
      unfold win_inv. cbn [wi_drv wi_fwd wi_steps wi_ended wi_ready given] in *.
      split; [exact J1|]. split; [reflexivity|]. split; [exact I3|]. split; [exact I4|]. split; [exact I5|]. split; [lia|].
      split; [rewrite app_nil_r, Ei; exact I7|]. split; [discriminate|]. split; auto. intros _. split; [reflexivity|eapply I8; eauto].
    - cbn [win_step] in E. rewrite I2 in E. destruct (pi_writing _) as [b|]; [|discriminate]. cbn [obind] in E. unfold fwd_does in E.
      destruct (fwd_step _ _) as [[g|]|] eqn:F; cbn [obind rbind] in E; try discriminate. injection E as <-.
      pose proof (fwd_reading_in _ _ _ F) as (Ei & Rg).
      unfold win_inv. cbn [wi_drv wi_fwd wi_steps wi_ended wi_ready] in *. rewrite Ei, Rg.
      repeat (split; [assumption || reflexivity || lia|]). auto.
    - cbn [win_step] in E. rewrite I2 in E. destruct (pi_writing _) as [b|]; [discriminate|]. unfold fwd_does in E.
      destruct (fwd_step _ _) as [[g|]|] eqn:F; cbn [obind rbind] in E; try discriminate. injection E as <-.
      pose proof (fwd_reading_in _ _ _ F) as (Ei & Rg).
      unfold win_inv. cbn [wi_drv wi_fwd wi_steps wi_ended wi_ready] in *. rewrite Ei, Rg.
      repeat (split; [assumption || reflexivity || lia|]). auto.
    - cbn [win_step] in E. rewrite I2 in E. unfold fwd_does in E.
      destruct (fwd_step _ _) as [[g|]|] eqn:F; cbn [obind rbind] in E; try discriminate. injection E as <-.
      pose proof (fwd_reading_in _ _ _ F) as (Ei & Rg).
      unfold win_inv. cbn [wi_drv wi_fwd wi_steps wi_ended wi_ready] in *. rewrite Ei, Rg.
      repeat (split; [assumption || reflexivity || lia|]). auto.
  Qed.
End Run.

Lemma orderly_prefix devid ls l : orderly devid (ls ++ [l]) -> orderly devid ls.
Proof.
  intros (A & B). split; [intros a I; apply (A a), in_or_app; now left|].
  intros before id after w r E. apply (B before id (after ++ [l])). rewrite E, <- app_assoc. reflexivity.
Qed.

Lemma submitted_app a b : submitted (a ++ b) = submitted a ++ submitted b.
Proof. apply flat_map_app. Qed.

Theorem run_inv devid mx bl ls w : devid < 4294967296 -> 48 <= mx -> mx + bl < 4294967296 ->
  Forall (fun x => known (snd x)) (submitted ls) -> Forall (fun x => len (buffer (snd x)) + 48 <= mx) (submitted ls) ->
  NoDup (map fst (submitted ls)) -> orderly devid ls -> N.of_nat (length ls) < 4294967296 ->
  win_run (win0 devid) ls = Some (Ok w) -> calm bl true (wi_steps w) ->
  win_inv devid w (submitted ls) (cancelled ls) (length ls).
Proof.
  intros D M Rm. revert w. induction ls as [|l ls IH] using rev_ind; intros v K S N O W R C.
  - injection R as <-. now apply win0_inv.
  - destruct (win_run_snoc _ _ _ _ R) as (w & Rw & E).
    pose proof (win_step_fwd _ _ _ E) as Fp.
    pose proof K as K'. pose proof S as S'. rewrite submitted_app in K', S'. apply Forall_app in K', S'.
    assert (NoDup (map fst (submitted ls))) as N'.
    { rewrite submitted_app, map_app in N. clear -N. induction (map fst (submitted ls)) as [|x l' IH]; [constructor|].
      cbn [app] in N. inversion N as [|? ? N1 N2]. subst. constructor; [intro I; apply N1, in_or_app; now left|auto]. }
    assert (win_inv devid w (submitted ls) (cancelled ls) (length ls)) as I.
    { apply IH; try tauto; [now apply orderly_prefix in O|rewrite app_length in W; lia|eapply part_calm; eauto]. }
    destruct O as (O1 & O2). eapply step_inv; eauto.
    + intros a ->. apply (O1 a), in_or_app. right. now left.
    + intros id r -> P. apply (O2 ls id [] w r); auto.
Qed.

(* ------------------------------------------------- what is said *)
Lemma says_msg devid r j : says devid (ur_seq r) (entry_of r) (msg_of devid (r, j)).
Proof.
  unfold says, entry_of, msg_of. cbn [fst snd]. destruct (ur_what r) as [u|]; [|eauto].
  destruct u; cbn [junk_message]; eauto.
Qed.

Lemma say_taken devid : forall t k, map ur_seq (map fst t) = map N.of_nat (seq k (length t)) ->
  say_all devid (N.of_nat k) (map entry_of (map fst t)) (map (msg_of devid) t).
Proof.
  induction t as [|[r j] t IH]; intros k E; cbn [map length seq] in *; [constructor|]. injection E as E1 E2.
  constructor; [rewrite <- E1; apply says_msg|]. replace (N.of_nat k + 1) with (N.of_nat (S k)) by lia. now apply IH.
Qed.

Lemma say_messages d : drv_ok d -> say_all (dr_devid d) 1 (map entry_of (taken d)) (messages d).
Proof.
  intros (_ & E & _). apply (say_taken (dr_devid d) (dr_taken d) 1). unfold taken in E. rewrite E. unfold count_to. now rewrite map_length.
Qed.

Lemma say_some devid : forall es q, exists ms, say_all devid q es ms.
Proof.
  induction es as [|e es IH]; intro q; [exists []; constructor|]. destruct (IH (q + 1)) as (ms & H).
  assert (exists m, says devid q e m) as (m & Hm).
  { destruct e as [i u|i t]; [|exists (MUnlink q devid 0 0 t []); cbn [says]; eauto].
    exists (spec_message devid q u). destruct u; cbn [says]; try reflexivity. now exists 0. }
  exists (m :: ms). now constructor.
Qed.

Lemma say_app devid : forall es1 ms1 q es2 ms2, say_all devid q es1 ms1 ->
  say_all devid (q + N.of_nat (length es1)) es2 ms2 -> say_all devid q (es1 ++ es2) (ms1 ++ ms2).
Proof.
  intros es1 ms1 q es2 ms2 H. revert es2 ms2. induction H as [q|q e es m ms H1 H2 IH]; intros es2 ms2 H; cbn [app length] in *.
  - now rewrite N.add_0_r in H.
  - constructor; [exact H1|]. apply IH. replace (q + 1 + N.of_nat (length es)) with (q + N.of_nat (S (length es))) by lia. exact H.
Qed.

Section Results.
  Variable devid mx bl : N.
  Variable ls : list win_label.
  Variable w : win.
  Hypothesis d32 : devid < 4294967296.
  Hypothesis mx48 : 48 <= mx.
  Hypothesis room : mx + bl < 4294967296.
  Hypothesis all_known : Forall (fun x => known (snd x)) (submitted ls).
  Hypothesis small : Forall (fun x => len (buffer (snd x)) + 48 <= mx) (submitted ls).
  Hypothesis distinct : NoDup (map fst (submitted ls)).
  Hypothesis ord : orderly devid ls.
  Hypothesis short : N.of_nat (length ls) < 4294967296.
  Hypothesis run : win_run (win0 devid) ls = Some (Ok w).
  Hypothesis cm : calm bl true (wi_steps w).

  Theorem requests_said : exists es ms, subseq (blocks es) (submitted ls) /\
    (forall x, In x (submitted ls) -> In x (blocks es) \/ In (fst x) (cancelled ls)) /\
    unlinks_ok (cancelled ls) es /\ say_all devid 1 es ms /\
    prefix (concat (pi_out (fw_req (wi_fwd w)))) (concat (map message_bytes ms)) /\ wi_ended w = false.
  Proof.
    pose proof (run_inv devid mx bl ls w d32 mx48 room all_known small distinct ord short run cm) as I.
    destruct (inv_pipe devid mx bl mx48 room w _ _ _ I cm short small) as (G & Sm & Eh & _).
    destruct I as (I1 & I2 & I3 & I4 & I5 & _).
    destruct (say_some devid (map entry_of (dr_pending (wi_drv w))) (1 + N.of_nat (length (map entry_of (taken (wi_drv w)))))) as (ms' & Hs).
    exists (entries (wi_drv w)), (messages (wi_drv w) ++ ms').
    destruct I4 as (H1 & H2 & H3 & _). split; [exact H1|]. split; [exact H2|]. split; [now apply uok_unlinks|].
    split; [|split; [|exact I2]].
    - unfold entries. rewrite map_app. apply say_app; [|exact Hs]. rewrite <- I5. now apply say_messages.
    - rewrite map_app, concat_app. destruct (requests_written _ G mx bl Sm mx48 room _ _ cm I1) as (t & Et).
      { eexists. exact Eh. }
      rewrite Et. exists (t ++ concat (map message_bytes ms')). now rewrite app_assoc.
  Qed.

  (* nothing is left *)
  Lemma all_given ls' junk : ls = ls' ++ [WLoop junk] -> fw_waiting (wi_fwd w) = true -> wi_ready w = None ->
    pi_writing (fw_req (wi_fwd w)) = None ->
    dr_pending (wi_drv w) = [] /\ concat (pi_out (fw_req (wi_fwd w))) = concat (map message_bytes (messages (wi_drv w))).
  Proof.
    intros E Wt Rn Wn.
    pose proof (run_inv devid mx bl ls w d32 mx48 room all_known small distinct ord short run cm) as I.
    destruct (inv_pipe devid mx bl mx48 room w _ _ _ I cm short small) as (G & Sm & Eh & _).
    destruct I as (I1 & I2 & I3 & I4 & I5 & I6 & I7 & I8 & I9).
    assert (exists steps, wi_steps w = steps ++ [Iterate] /\ calm bl true steps /\
      exists f, fwd_step f Iterate = Some (Ok (wi_fwd w))) as (steps & Es & Cs & f & Ef).
    { pose proof run as R. rewrite E in R. destruct (win_run_snoc _ _ _ _ R) as (w0 & _ & Es). cbn [win_step] in Es.
      destruct (wi_ended w0); [discriminate|]. destruct (_ && _); [discriminate|].
      destruct (fwd_step (wi_fwd w0) Iterate) as [[g|]|] eqn:F; cbn [obind rbind] in Es; try discriminate.
      injection Es as Es.
      destruct (match starts _ _ with Some n => _ | None => _ end) as [[d1 rr]|]; cbn [rbind] in Es; [|discriminate].
      destruct (match starts (pi_writing _) _ with Some b => _ | None => _ end) as [d2|]; cbn [rbind] in Es; [|discriminate].
      injection Es as Es. exists (wi_steps w0). subst w. cbn [wi_steps wi_fwd] in *. split; [reflexivity|].
      split; [now apply calm_prefix in cm|eauto]. }
    assert (dr_read (wi_drv w) <> None) as Rd.
    { intro X. assert (pi_reading (fw_req (wi_fwd w)) = None) as Y by (apply I9; auto).
      cbn [fwd_step] in Ef. injection Ef as Ef. destruct (iterate_parts _ _ Ef) as (_ & _ & _ & _ & Hw).
      rewrite Wt in Hw. symmetry in Hw. apply andb_true_iff in Hw. destruct Hw as (Hw & _). unfold idle in Hw. now rewrite Y in Hw. }
    destruct (dr_read (wi_drv w)) as [[[n j] b]|] eqn:Rdd; [|congruence].
    pose proof I3 as (_ & _ & _ & _ & _ & _ & _ & H8). destruct (H8 _ _ _ Rdd) as (_ & _ & P & Pe).
    rewrite Rn, P in Eh. cbn [given tail app] in Eh. rewrite app_nil_r in Eh.
    split; [exact Pe|]. rewrite Es in I1. eapply requests_gone; eauto.
  Qed.

  Theorem requests_all ls' junk : ls = ls' ++ [WLoop junk] -> fw_waiting (wi_fwd w) = true -> wi_ready w = None ->
    pi_writing (fw_req (wi_fwd w)) = None ->
    exists es ms, subseq (blocks es) (submitted ls) /\
    (forall x, In x (submitted ls) -> In x (blocks es) \/ In (fst x) (cancelled ls)) /\
    unlinks_ok (cancelled ls) es /\ say_all devid 1 es ms /\
    concat (pi_out (fw_req (wi_fwd w))) = concat (map message_bytes ms).
  Proof.
    intros E Wt Rn Wn. destruct (all_given ls' junk E Wt Rn Wn) as (Pe & Ew).
    pose proof (run_inv devid mx bl ls w d32 mx48 room all_known small distinct ord short run cm) as I.
    destruct I as (I1 & I2 & I3 & I4 & I5 & _).
    exists (entries (wi_drv w)), (messages (wi_drv w)).
    destruct I4 as (H1 & H2 & H3 & _). split; [exact H1|]. split; [exact H2|]. split; [now apply uok_unlinks|].
    split; [|exact Ew]. unfold entries. rewrite Pe, app_nil_r, <- I5. now apply say_messages.
  Qed.
End Results.

(* ------------------------------------------------- a driver that will not be read again *)
Definition stuck (w : win) : Prop :=
  wi_ready w = None /\ dr_read (wi_drv w) = None /\ pi_reading (fw_req (wi_fwd w)) <> None.

Lemma submit_no_read d r : dr_read d = None -> exists d' a, submit_urbr d r = (d', None, a) /\ dr_read d' = None.
Proof. intro H. unfold submit_urbr. rewrite H. destruct (dr_partial d); eexists _, _; (split; [reflexivity|]); cbn [dr_read]; reflexivity. Qed.

Lemma stuck_step w l v : stuck w -> win_step w l = Some (Ok v) -> stuck v /\ pi_in (fw_req (wi_fwd v)) = pi_in (fw_req (wi_fwd w)).
Proof.
  intros (S1 & S2 & S3) E. destruct l; cbn [win_step] in E.
  - destruct (submit_block _ _ _) as [d b] eqn:B. injection E as <-. unfold submit_block in B.
    destruct (submit_no_read (wi_drv w) (mk_urbr id 0 (Some u) 0) S2) as (d' & a & Es & R). rewrite Es in B.
    split; [|reflexivity]. destruct a; injection B as <- <-; (split; [exact S1|split; [exact R|exact S3]]).
  - destruct (cancel_block _ _) as [[d b]|] eqn:B; [|discriminate]. cbn [obind] in E. injection E as <-.
    split; [|reflexivity]. unfold cancel_block in B. destruct (find _ _) as [r|]; [|discriminate].
    match type of B with (let '(_, _) := submit_urbr ?d1 ?r1 in _) = _ =>
      destruct (submit_no_read d1 r1 S2) as (d' & a & Es & R) end.
    rewrite Es in B. destruct (ur_what r); [|discriminate]. injection B as <- <-. split; [exact S1|split; [exact R|exact S3]].
  - injection E as <-. split; [|reflexivity]. split; [exact S1|split; [exact S2|exact S3]].
  - destruct (wi_ended w); [discriminate|]. destruct (_ && _); [discriminate|].
    destruct (fwd_step (wi_fwd w) Iterate) as [[g|]|] eqn:F; cbn [obind rbind] in E; try discriminate.
    injection E as E. pose proof (fwd_reading_in _ _ _ F) as Ei.
    destruct (pi_reading (fw_req (wi_fwd w))) as [n|] eqn:R; [|congruence].
    pose proof (iterate_reading _ _ _ F R) as Rg. cbn [starts rbind] in E.
    destruct (match starts (pi_writing _) _ with Some b => _ | None => _ end) as [d2|] eqn:Wr; cbn [rbind] in E; [|discriminate].
    injection E as <-. cbn [wi_fwd]. split; [|exact Ei]. split; [exact S1|]. cbn [wi_drv wi_fwd]. split; [|congruence].
    destruct (starts _ _) in Wr; [apply write_same in Wr; destruct Wr as ((_ & _ & _ & _ & Wr & _) & _); congruence|]. now injection Wr as <-.
  - destruct (wi_ended w); [discriminate|]. rewrite S1 in E. discriminate.
  - destruct (wi_ended w); [discriminate|]. destruct (pi_writing _) as [b|]; [|discriminate]. cbn [obind] in E. unfold fwd_does in E.
    destruct (fwd_step _ _) as [[g|]|] eqn:F; cbn [obind rbind] in E; try discriminate. injection E as <-.
    pose proof (fwd_reading_in _ _ _ F) as (Ei & Rg). cbn [wi_fwd]. split; [|exact Ei]. split; [exact S1|split; [exact S2|]]. cbn [wi_fwd]. congruence.
  - destruct (wi_ended w); [discriminate|]. destruct (pi_writing _) as [b|]; [discriminate|]. unfold fwd_does in E.
    destruct (fwd_step _ _) as [[g|]|] eqn:F; cbn [obind rbind] in E; try discriminate. injection E as <-.
    pose proof (fwd_reading_in _ _ _ F) as (Ei & Rg). cbn [wi_fwd]. split; [|exact Ei]. split; [exact S1|split; [exact S2|]]. cbn [wi_fwd]. congruence.
  - destruct (wi_ended w); [discriminate|]. unfold fwd_does in E.
    destruct (fwd_step _ _) as [[g|]|] eqn:F; cbn [obind rbind] in E; try discriminate. injection E as <-.
    pose proof (fwd_reading_in _ _ _ F) as (Ei & Rg). cbn [wi_fwd]. split; [|exact Ei]. split; [exact S1|split; [exact S2|]]. cbn [wi_fwd]. congruence.
Qed.

Theorem stuck_run ls : forall w v, stuck w -> win_run w ls = Some (Ok v) -> pi_in (fw_req (wi_fwd v)) = pi_in (fw_req (wi_fwd w)).
Proof.
  induction ls as [|l ls IH]; intros w v S R; cbn [win_run] in R; [now injection R as <-|].
  destruct (win_step w l) as [[u|]|] eqn:E; try discriminate.
  destruct (stuck_step _ _ _ S E) as (S' & Ei). rewrite <- Ei. now apply IH.
Qed.

(* ------------------------------------------------- orderly runs, computed *)
Fixpoint orderly_b (w : win) (ls : list win_label) : bool :=
  match ls with
  | [] => true
  | l :: r =>
    match l with
    | WAbort _ => false
    | WCancel id => match dr_partial (wi_drv w) with Holds x => negb (Nat.eqb (ur_id x) id) | _ => true end
    | _ => true
    end && match win_step w l with Some (Ok v) => orderly_b v r | _ => false end
  end.

Lemma orderly_b_ok devid ls : orderly_b (win0 devid) ls = true -> orderly devid ls.
Proof.
  unfold orderly. generalize (win0 devid). induction ls as [|l ls IH]; intros w E.
  - split; [intros a []|]. intros before id after v r H. destruct before; discriminate.
  - cbn [orderly_b] in E. apply andb_true_iff in E. destruct E as (E1 & E2).
    destruct (win_step w l) as [[v|]|] eqn:S; try discriminate. destruct (IH v E2) as (A & B). split.
    + intros a [->|I]; [discriminate|]. exact (A a I).
    + intros before id after x r H. destruct before as [|l' before]; cbn [app] in H; injection H as -> H; cbn [win_run].
      * intros R P. injection R as <-. rewrite P in E1. apply negb_true_iff, Nat.eqb_neq in E1. exact E1.
      * rewrite S. apply (B before id after). exact H.
Qed.
