(* Proofs about the driver of the Windows client: every block is completed at most once. *)
From Coq Require Import Permutation.
From Verif Require Import Base M_Util M_WinFwd M_WinDrv S_Usbip S_WinFwd S_WinDrv P_WinDrv P_WinDrv2.
Open Scope N_scope.

Lemma block_ids_app a b : block_ids (a ++ b) = block_ids a ++ block_ids b.
Proof. apply flat_map_app. Qed.

Lemma block_ids_cons r l : block_ids (r :: l) = block_ids [r] ++ block_ids l.
Proof. apply (block_ids_app [r] l). Qed.

Lemma held_slot d : held d = block_ids (dr_pending d ++ dr_sent d ++ in_slot (dr_partial d)).
Proof. unfold held. rewrite !block_ids_app. destruct (dr_partial d); reflexivity. Qed.

Definition all_blocks (d : drv) : list nat := map fst (dr_done d) ++ held d.

Lemma submit_held d r d' b a : submit_urbr d r = (d', b, a) ->
  dr_done d' = dr_done d /\ Permutation (held d') (held d ++ if a then block_ids [r] else []).
Proof.
  assert (forall q, block_ids [numbered r q] = block_ids [r]) as Nr by reflexivity.
  unfold submit_urbr. intro E.
  destruct (dr_partial d) as [|x|] eqn:P; [destruct (dr_read d) as [[[n j] [|]]|]|..].
  - destruct (store_urbr _ _ _ _) as [[c rest]|]; injection E as <- <- <-.
    + split; [reflexivity|]. unfold held, stored. cbn [dr_pending dr_sent dr_partial]. rewrite P. destruct rest.
      * rewrite Nr, app_nil_r, app_assoc. apply Permutation_refl.
      * rewrite !block_ids_app, Nr, !app_nil_r, app_assoc. apply Permutation_refl.
    + split; [reflexivity|]. unfold held. cbn [dr_pending dr_sent dr_partial]. rewrite P, !app_nil_r. apply Permutation_refl.
  - injection E as <- <- <-. split; [reflexivity|]. unfold held. cbn [dr_pending dr_sent dr_partial]. rewrite P, !app_nil_r. apply Permutation_refl.
  - injection E as <- <- <-. split; [reflexivity|]. unfold held. cbn [dr_pending dr_sent dr_partial]. rewrite P, block_ids_app, <- !app_assoc.
    apply Permutation_app_head. rewrite (app_assoc (block_ids (dr_sent d))). apply Permutation_app_comm.
  - injection E as <- <- <-. split; [reflexivity|]. unfold held. cbn [dr_pending dr_sent dr_partial]. rewrite P, block_ids_app, <- !app_assoc.
    apply Permutation_app_head. rewrite (app_assoc (block_ids (dr_sent d))). apply Permutation_app_comm.
  - injection E as <- <- <-. split; [reflexivity|]. unfold held. cbn [dr_pending dr_sent dr_partial]. rewrite P, block_ids_app, <- !app_assoc.
    apply Permutation_app_head. rewrite (app_assoc (block_ids (dr_sent d))). apply Permutation_app_comm.
Qed.

Lemma finish_all d id o : Permutation (all_blocks (finish d id o)) (id :: all_blocks d).
Proof.
  unfold all_blocks, finish. cbn [dr_done]. change (held _) with (held d). rewrite map_app, <- app_assoc. cbn [map fst app].
  apply Permutation_sym, Permutation_middle.
Qed.

Lemma block_all d id u d' b : submit_block d id u = (d', b) -> Permutation (all_blocks d') (id :: all_blocks d).
Proof.
  unfold submit_block. destruct (submit_urbr d _) as [[d1 b1] a] eqn:E. destruct (submit_held _ _ _ _ _ E) as (Dn & Hp).
  change (block_ids [mk_urbr id 0 (Some u) 0]) with [id] in Hp. intro H.
  assert (Permutation (held d ++ [id]) (id :: held d)) as Pc by apply Permutation_sym, Permutation_cons_append.
  destruct a; injection H as <- <-.
  - unfold all_blocks. rewrite Dn, Hp, Pc. apply Permutation_sym, Permutation_middle.
  - rewrite app_nil_r in Hp. rewrite finish_all. unfold all_blocks. now rewrite Dn, Hp.
Qed.

(* taking blocks out of lists *)
Lemma block_ids_split f l : Permutation (block_ids l) (block_ids (filter f l) ++ block_ids (filter (fun x => negb (f x)) l)).
Proof.
  induction l as [|r l IH]; cbn [filter]; [apply perm_nil|].
  rewrite (block_ids_cons r). rewrite IH.
  destruct (f r); cbn [negb].
  - rewrite (block_ids_cons r (filter f l)), <- app_assoc. apply Permutation_refl.
  - rewrite (block_ids_cons r (filter (fun x => negb (f x)) l)).
    rewrite !app_assoc. apply Permutation_app_tail, Permutation_app_comm.
Qed.

Lemma block_id_of id r : is_block id r = true -> block_ids [r] = [id].
Proof. unfold is_block, block_ids. cbn [flat_map]. destruct (ur_what r); [|discriminate]. intro E. apply Nat.eqb_eq in E. now subst. Qed.

(* all the blocks id of a list, when there is one *)
Lemma find_one id l r : find (is_block id) l = Some r -> NoDup (block_ids l) -> block_ids (filter (is_block id) l) = [id].
Proof.
  intros F N. induction l as [|x l IH]; [discriminate|]. cbn [find filter] in *.
  rewrite (block_ids_cons x) in N.
  destruct (is_block id x) eqn:B.
  - rewrite (block_ids_cons x).
    rewrite (block_id_of _ _ B) in *. cbn [app] in N |- *. inversion N as [|? ? N1 N2]. subst.
    replace (filter (is_block id) l) with (@nil urbr); [reflexivity|].
    symmetry. clear -N1. induction l as [|y l IH]; cbn [filter]; [reflexivity|].
    rewrite (block_ids_cons y) in N1.
    destruct (is_block id y) eqn:By.
    + exfalso. rewrite (block_id_of _ _ By) in N1. apply N1. now left.
    + apply IH. intro I. apply N1, in_or_app. now right.
  - apply IH; [exact F|]. clear -N. induction (block_ids [x]) as [|y l' IH]; [exact N|]. cbn [app] in N. inversion N; auto.
Qed.

Definition without (f : urbr -> bool) (d : drv) (s : slot) : drv :=
  mk_drv (dr_devid d) (dr_seq d) (filter (fun x => negb (f x)) (dr_pending d)) (filter (fun x => negb (f x)) (dr_sent d))
    s (dr_read d) (dr_done d) (dr_taken d) (dr_out d).

Lemma without_held f d s : in_slot s = filter (fun x => negb (f x)) (in_slot (dr_partial d)) ->
  Permutation (held d) (block_ids (filter f (dr_pending d ++ dr_sent d ++ in_slot (dr_partial d))) ++ held (without f d s)).
Proof.
  intro E. rewrite !held_slot. cbn [without dr_pending dr_sent dr_partial]. rewrite E, <- !filter_app. apply block_ids_split.
Qed.

Lemma cancel_all d id d' b : NoDup (all_blocks d) -> cancel_block d id = Some (d', b) ->
  Permutation (all_blocks d') (all_blocks d).
Proof.
  intros N. unfold cancel_block. destruct (find _ _) as [r|] eqn:F; [|discriminate].
  set (s := match dr_partial d with Holds x => if is_block id x then Nobody else Holds x | s => s end).
  change (mk_drv (dr_devid d) (dr_seq d) _ _ _ _ _ _ _) with (without (is_block id) d s).
  assert (in_slot s = filter (fun x => negb (is_block id x)) (in_slot (dr_partial d))) as Es.
  { unfold s. destruct (dr_partial d) as [|x|]; cbn [in_slot filter]; try reflexivity. now destruct (is_block id x). }
  pose proof (without_held _ _ _ Es) as W.
  rewrite (find_one id _ r F) in W.
  2:{ rewrite <- held_slot. unfold all_blocks in N. clear -N. induction (map fst (dr_done d)) as [|y l IH]; [exact N|]. cbn [app] in N. inversion N; auto. }
  destruct (submit_urbr _ _) as [[d2 c] a] eqn:E. destruct (submit_held _ _ _ _ _ E) as (Dn & Hp).
  assert (Permutation (held d2) (held (without (is_block id) d s))) as Hp'.
  { rewrite Hp. destruct a; cbn [block_ids flat_map app ur_what]; now rewrite ?app_nil_r. }
  destruct (ur_what r) as [u|]; [|discriminate]. intros [=<- <-]. rewrite finish_all. unfold all_blocks.
  rewrite Dn, Hp'. change (dr_done (without (is_block id) d s)) with (dr_done d). rewrite W. cbn [app]. apply Permutation_middle.
Qed.

Lemma abort_all d addr : Permutation (all_blocks (abort_pipe d addr)) (all_blocks d).
Proof.
  unfold all_blocks, abort_pipe. cbn [dr_done]. rewrite map_app, <- app_assoc. apply Permutation_app_head.
  set (s := match dr_partial d with Holds x => if on_pipe addr x then Dangling else Holds x | s => s end).
  match goal with |- Permutation (_ ++ held ?x) _ => change (held x) with (held (without (on_pipe addr) d s)) end.
  assert (in_slot s = filter (fun x => negb (on_pipe addr x)) (in_slot (dr_partial d))) as Es.
  { unfold s. destruct (dr_partial d) as [|x|]; cbn [in_slot filter]; try reflexivity. now destruct (on_pipe addr x). }
  rewrite (without_held _ _ _ Es). apply Permutation_app_tail.
  generalize (dr_pending d ++ dr_sent d ++ in_slot (dr_partial d)). intro l.
  induction l as [|r l IH]; cbn [flat_map map filter]; [apply perm_nil|]. rewrite map_app.
  destruct (on_pipe addr r) eqn:O.
  - rewrite (block_ids_cons r (filter _ l)).
    rewrite <- IH. unfold block_ids. cbn [flat_map]. destruct (ur_what r); cbn [map fst app]; apply Permutation_refl.
  - destruct (ur_what r); cbn [map app]; exact IH.
Qed.

Lemma read_all d n junk d' rr : read_drv d n junk = Ok (d', rr) -> Permutation (all_blocks d') (all_blocks d).
Proof.
  unfold read_drv. destruct (dr_read d); [intros [=<- <-]; apply Permutation_refl|].
  destruct (dr_partial d) as [|r|] eqn:P; [|destruct (let! u := ur_what r in store_rest n u)|discriminate].
  - destruct (dr_pending d) as [|r pending] eqn:Pe.
    + intros [=<- <-]. unfold all_blocks, held. cbn [dr_done dr_pending dr_sent dr_partial]. rewrite P, Pe. apply Permutation_refl.
    + assert (forall q, block_ids [numbered r q] = block_ids [r]) as Nr by reflexivity.
      destruct (store_urbr _ _ _ _) as [[c rest]|]; intros [=<- <-].
      * unfold all_blocks, held, stored. cbn [dr_done dr_pending dr_sent dr_partial]. rewrite P, Pe. apply Permutation_app_head.
        rewrite (block_ids_cons r pending).
        destruct rest; rewrite ?block_ids_app, Nr, ?app_nil_r, <- ?app_assoc.
        -- rewrite app_assoc. apply Permutation_app_comm.
        -- rewrite (app_assoc (block_ids pending)). apply Permutation_app_comm.
      * unfold all_blocks, held, failed. cbn [dr_done dr_pending dr_sent dr_partial]. rewrite P, Pe, map_app, <- app_assoc. apply Permutation_app_head.
        rewrite (block_ids_cons r pending). rewrite <- app_assoc. apply Permutation_app_tail.
        cbn [numbered ur_what ur_id]. unfold block_ids. cbn [flat_map]. destruct (ur_what r); cbn [map fst app]; apply Permutation_refl.
  - intros [=<- <-]. unfold all_blocks, held. cbn [dr_done dr_pending dr_sent dr_partial]. rewrite P, block_ids_app, app_nil_r. apply Permutation_refl.
  - intros [=<- <-]. unfold all_blocks, held, failed. cbn [dr_done dr_pending dr_sent dr_partial]. rewrite P, map_app, <- app_assoc. apply Permutation_app_head.
    rewrite app_nil_r, (app_assoc (block_ids (dr_pending d))).
    assert (map fst (match ur_what r with Some u => [(ur_id r, given_up InvalidParameter u)] | None => [] end) = block_ids [r]) as ->
      by (unfold block_ids; cbn [flat_map]; now destruct (ur_what r)).
    apply Permutation_app_comm.
Qed.

Lemma take_sent_perm q l r l' : take_sent q l = Some (r, l') -> Permutation l (r :: l').
Proof.
  revert r l'. induction l as [|x l IH]; intros r l' E; cbn [take_sent] in E; [discriminate|].
  destruct (ur_seq x =? q).
  - injection E as <- <-. apply Permutation_refl.
  - destruct (take_sent q l) as [[y l2]|]; [|discriminate]. cbn [obind] in E. injection E as <- <-.
    rewrite (IH y l2 eq_refl). apply perm_swap.
Qed.

Lemma write_all d b d' : write_drv d b = Ok d' -> Permutation (all_blocks d') (all_blocks d).
Proof.
  unfold write_drv. destruct (_ <? _); [intros [=<-]; apply Permutation_refl|].
  destruct (take_sent _ _) as [[r sent]|] eqn:T; [|intros [=<-]; apply Permutation_refl].
  apply take_sent_perm in T.
  assert (Permutation (block_ids (dr_sent d)) (block_ids [r] ++ block_ids sent)) as Pb.
  { rewrite <- block_ids_app. unfold block_ids. rewrite T. apply Permutation_refl. }
  set (d1 := mk_drv (dr_devid d) (dr_seq d) (dr_pending d) sent (dr_partial d) (dr_read d) (dr_done d) (dr_taken d) (dr_out d)).
  assert (Permutation (all_blocks d) (block_ids [r] ++ all_blocks d1)) as Pa.
  { unfold all_blocks, held, d1. cbn [dr_done dr_pending dr_sent dr_partial]. rewrite Pb.
    rewrite <- !app_assoc. rewrite (Permutation_app_comm (block_ids [r]) (map fst (dr_done d) ++ _)), <- !app_assoc.
    apply Permutation_app_head, Permutation_app_head.
    rewrite (app_assoc (block_ids sent)). apply Permutation_app_comm. }
  unfold block_ids in Pa. cbn [flat_map] in Pa. destruct (ur_what r) as [u|].
  - destruct (take_reply u b); cbn [rbind]; [|discriminate]. intros [=<-]. rewrite finish_all, Pa. apply Permutation_refl.
  - intros [=<-]. now rewrite Pa.
Qed.

Lemma step_all w l v : NoDup (all_blocks (wi_drv w)) -> win_step w l = Some (Ok v) ->
  Permutation (all_blocks (wi_drv v)) (all_blocks (wi_drv w) ++ map fst (submitted [l])).
Proof.
  intros N E. destruct l; cbn [win_step] in E; cbn [submitted flat_map app map]; rewrite ?app_nil_r.
  - destruct (submit_block _ _ _) as [d b] eqn:B. injection E as <-. cbn [wi_drv fst]. rewrite (block_all _ _ _ _ _ B).
    apply Permutation_cons_append.
  - destruct (cancel_block _ _) as [[d b]|] eqn:B; [|discriminate]. cbn [obind] in E. injection E as <-. cbn [wi_drv]. eapply cancel_all; eauto.
  - injection E as <-. apply abort_all.
  - destruct (wi_ended w); [discriminate|]. destruct (_ && _); [discriminate|].
    destruct (fwd_step (wi_fwd w) Iterate) as [[g|]|] eqn:F; cbn [obind rbind] in E; try discriminate. injection E as E.
    destruct (match starts _ _ with Some n => _ | None => _ end) as [[d1 rr]|] eqn:R; cbn [rbind] in E; [|discriminate].
    destruct (match starts (pi_writing _) _ with Some b => _ | None => _ end) as [d2|] eqn:Wr; cbn [rbind] in E; [|discriminate].
    injection E as <-. cbn [wi_drv].
    assert (Permutation (all_blocks d1) (all_blocks (wi_drv w))) as P1.
    { destruct (starts _ _) in R; [eapply read_all; eauto|]. injection R as <- _. apply Permutation_refl. }
    rewrite <- P1. destruct (starts _ _) in Wr; [eapply write_all; eauto|]. injection Wr as <-. apply Permutation_refl.
  - destruct (wi_ended w); [discriminate|]. destruct (wi_ready w); [|discriminate]. cbn [obind] in E. unfold fwd_does in E.
    destruct (fwd_step _ _) as [[g|]|]; cbn [obind rbind] in E; try discriminate. injection E as <-. apply Permutation_refl.
  - destruct (wi_ended w); [discriminate|]. destruct (pi_writing _); [|discriminate]. cbn [obind] in E. unfold fwd_does in E.
    destruct (fwd_step _ _) as [[g|]|]; cbn [obind rbind] in E; try discriminate. injection E as <-. apply Permutation_refl.
  - destruct (wi_ended w); [discriminate|]. destruct (pi_writing _); [discriminate|]. unfold fwd_does in E.
    destruct (fwd_step _ _) as [[g|]|]; cbn [obind rbind] in E; try discriminate. injection E as <-. apply Permutation_refl.
  - destruct (wi_ended w); [discriminate|]. unfold fwd_does in E.
    destruct (fwd_step _ _) as [[g|]|]; cbn [obind rbind] in E; try discriminate. injection E as <-. apply Permutation_refl.
Qed.

Theorem once devid ls w : NoDup (map fst (submitted ls)) -> win_run (win0 devid) ls = Some (Ok w) ->
  Permutation (map fst (dr_done (wi_drv w)) ++ held (wi_drv w)) (map fst (submitted ls)).
Proof.
  revert w. induction ls as [|l ls IH] using rev_ind; intros v N R.
  - injection R as <-. apply Permutation_refl.
  - destruct (win_run_snoc _ _ _ _ R) as (w & Rw & E). rewrite submitted_app, map_app in N |- *.
    assert (NoDup (map fst (submitted ls))) as N'.
    { clear -N. induction (map fst (submitted ls)) as [|x l' IH]; [constructor|].
      cbn [app] in N. inversion N as [|? ? N1 N2]. subst. constructor; [intro I; apply N1, in_or_app; now left|auto]. }
    specialize (IH w N' Rw). fold (all_blocks (wi_drv w)) in IH. fold (all_blocks (wi_drv v)).
    rewrite (step_all w l v); [now apply Permutation_app_tail| |exact E].
    apply (Permutation_NoDup (Permutation_sym IH) N').
Qed.
