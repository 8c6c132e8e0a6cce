(* The linked list of the macOS driver is a queue, and uses its memory properly. *)
From Verif Require Import Base M_Mac S_Mac.
From Coq Require Import Permutation.

Section Chain.
Context {D : Type}.
Implicit Types (h : heap D) (q : list (N * D)).

(* the nodes of a queue *)
Fixpoint nodes (q : list (N * D)) : heap D :=
  match q with
  | [] => []
  | (a, d) :: r => (a, mk_node d (match r with [] => 0 | (b, _) :: _ => b end)) :: nodes r
  end.

Definition head_addr q : N := match q with [] => 0 | (a, _) :: _ => a end.
Fixpoint last_addr q : N := match q with [] => 0 | (a, _) :: r => match r with [] => a | _ => last_addr r end end.

Record rep h (l : llist) q : Prop := mk_rep {
  rp_heap : Permutation h (nodes q);
  rp_nodup : NoDup (map fst q);
  rp_null : ~ In 0 (map fst q);
  rp_start : ll_start l = head_addr q;
  rp_end : ll_end l = last_addr q;
  rp_num : ll_num l = len q mod 4294967296 }.

Lemma nodes_keys q : map fst (nodes q) = map fst q.
Proof. induction q as [|[a d] q IH]; [reflexivity|]. cbn. now rewrite IH. Qed.

Lemma heap_keys h q : Permutation h (nodes q) -> NoDup (map fst q) -> NoDup (map fst h).
Proof. intros P N. eapply Permutation_NoDup; [apply Permutation_sym, Permutation_map, P|]. now rewrite nodes_keys. Qed.

Lemma heap_split h a n r : Permutation h ((a, n) :: r) -> NoDup (map fst h) ->
  exists h1 h2, h = h1 ++ (a, n) :: h2 /\ Permutation (h1 ++ h2) r /\ ~ In a (map fst h1).
Proof.
  intros P ND. assert (In (a, n) h) as I by (apply (Permutation_in _ (Permutation_sym P)); now left).
  apply in_split in I as (h1 & h2 & ->). exists h1, h2. split; [reflexivity|]. split.
  - apply Permutation_sym in P. apply Permutation_cons_app_inv in P. now apply Permutation_sym.
  - rewrite map_app in ND. cbn in ND. apply NoDup_remove_2 in ND. intro I. apply ND. apply in_or_app. now left.
Qed.

Lemma load_mid h1 h2 a (n : node D) : ~ In a (map fst h1) -> load (h1 ++ (a, n) :: h2) a = Ok n.
Proof.
  induction h1 as [|[b m] h1 IH]; intro I; cbn [app load].
  - now rewrite N.eqb_refl.
  - destruct (b =? a) eqn:E; [apply N.eqb_eq in E; subst; exfalso; apply I; now left|].
    apply IH. intro J. apply I. now right.
Qed.
Lemma store_mid h1 h2 a (n n' : node D) : ~ In a (map fst h1) ->
  store (h1 ++ (a, n) :: h2) a n' = Ok (h1 ++ (a, n') :: h2).
Proof.
  induction h1 as [|[b m] h1 IH]; intro I; cbn [app store].
  - now rewrite N.eqb_refl.
  - destruct (b =? a) eqn:E; [apply N.eqb_eq in E; subst; exfalso; apply I; now left|].
    rewrite IH; [reflexivity|]. intro J. apply I. now right.
Qed.
Lemma release_mid h1 h2 a (n : node D) : ~ In a (map fst h1) -> release (h1 ++ (a, n) :: h2) a = Ok (h1 ++ h2).
Proof.
  induction h1 as [|[b m] h1 IH]; intro I; cbn [app release].
  - now rewrite N.eqb_refl.
  - destruct (b =? a) eqn:E; [apply N.eqb_eq in E; subst; exfalso; apply I; now left|].
    rewrite IH; [reflexivity|]. intro J. apply I. now right.
Qed.

Lemma rep_empty : rep [] ll_alloc [].
Proof. split; cbn; auto using NoDup_nil. Qed.

Lemma last_addr_snoc q a d : last_addr (q ++ [(a, d)]) = a.
Proof. induction q as [|[b e] q IH]; [reflexivity|]. cbn. destruct q; [reflexivity|]. exact IH. Qed.

Lemma last_in q : q <> [] -> In (last_addr q) (map fst q).
Proof.
  induction q as [|[b e] q IH]; intro H; [congruence|]. cbn. destruct q as [|x q]; [now left|].
  right. apply IH. discriminate.
Qed.

(* the last node, and the queue with its pointer changed *)
Lemma nodes_last q : q <> [] -> exists d r, Permutation (nodes q) ((last_addr q, mk_node d 0) :: r) /\
  forall a e, Permutation (nodes (q ++ [(a, e)])) ((last_addr q, mk_node d a) :: (a, mk_node e 0) :: r).
Proof.
  induction q as [|[b x] q IH]; intro H; [congruence|]. destruct q as [|[c y] q].
  - exists x, []. split; [reflexivity|]. intros. reflexivity.
  - destruct (IH ltac:(discriminate)) as (d & r & P1 & P2). exists d, ((b, mk_node x c) :: r). split.
    + change (nodes ((b, x) :: (c, y) :: q)) with ((b, mk_node x c) :: nodes ((c, y) :: q)).
      change (last_addr ((b, x) :: (c, y) :: q)) with (last_addr ((c, y) :: q)).
      rewrite P1. apply perm_swap.
    + intros a e. change (nodes (((b, x) :: (c, y) :: q) ++ [(a, e)])) with ((b, mk_node x c) :: nodes (((c, y) :: q) ++ [(a, e)])).
      change (last_addr ((b, x) :: (c, y) :: q)) with (last_addr ((c, y) :: q)).
      rewrite (P2 a e). etransitivity; [apply perm_swap|]. apply perm_skip. apply perm_swap.
Qed.

Lemma head_snoc q a d : q <> [] -> head_addr (q ++ [(a, d)]) = head_addr q.
Proof. destruct q as [|[b e] q]; [congruence|reflexivity]. Qed.

Lemma num_succ n : (n mod 4294967296 + 1) mod 4294967296 = (n + 1) mod 4294967296.
Proof. lia. Qed.

Lemma rep_push h l q a d : rep h l q -> a <> 0 -> ~ In a (map fst q) ->
  exists h' l', ll_push h l a d = Ok (h', l') /\ rep h' l' (q ++ [(a, d)]).
Proof.
  intros [P ND Z S En Nu] A F. unfold ll_push. rewrite En.
  assert (ND' : NoDup (map fst (q ++ [(a, d)]))).
  { rewrite map_app. cbn. apply NoDup_rev in ND. rewrite <- (rev_involutive (_ ++ _)). apply NoDup_rev.
    rewrite rev_app_distr. cbn. constructor; [|exact ND]. now rewrite <- in_rev. }
  assert (Z' : ~ In 0 (map fst (q ++ [(a, d)]))).
  { rewrite map_app, in_app_iff. cbn. intuition. }
  assert (Nu' : (ll_num l + 1) mod 4294967296 = len (q ++ [(a, d)]) mod 4294967296).
  { rewrite Nu, num_succ, len_app. reflexivity. }
  destruct q as [|x q].
  - cbn [last_addr]. rewrite N.eqb_refl. cbn in P. apply Permutation_sym, Permutation_nil in P. subst h.
    do 2 eexists. split; [reflexivity|]. split; auto; try reflexivity.
  - destruct (last_addr (x :: q) =? 0) eqn:E0.
    { apply N.eqb_eq in E0. exfalso. apply Z. rewrite <- E0. apply last_in. discriminate. }
    destruct (nodes_last (x :: q) ltac:(discriminate)) as (e & r & P1 & P2).
    assert (PH : Permutation ((a, mk_node d 0) :: h) ((last_addr (x :: q), mk_node e 0) :: (a, mk_node d 0) :: r)).
    { rewrite P, P1. apply perm_swap. }
    assert (NH : NoDup (map fst ((a, mk_node d 0) :: h))).
    { cbn. constructor; [|eapply heap_keys; eauto]. intro I.
      apply F. rewrite <- nodes_keys. eapply Permutation_in; [apply Permutation_map, P|exact I]. }
    destruct (heap_split _ _ _ _ PH NH) as (h1 & h2 & -> & P3 & NI).
    rewrite load_mid by exact NI. cbn [rbind nd_data]. rewrite store_mid by exact NI. cbn [rbind].
    do 2 eexists. split; [reflexivity|]. split; auto.
    + rewrite (P2 a d), <- P3. apply Permutation_sym, Permutation_middle.
    + cbn [ll_end]. now rewrite last_addr_snoc.
Qed.

Lemma num_pred n : ((1 + n) mod 4294967296 + 4294967296 - 1) mod 4294967296 = n mod 4294967296.
Proof. lia. Qed.

Lemma rep_pop_empty h l : rep h l [] -> ll_pop h l = Ok (h, l, None).
Proof. intros [P ND Z S En Nu]. unfold ll_pop. rewrite S. reflexivity. Qed.

Lemma rep_pop h l a d q : rep h l ((a, d) :: q) ->
  exists h' l', ll_pop h l = Ok (h', l', Some d) /\ rep h' l' q.
Proof.
  intros [P ND Z S En Nu]. unfold ll_pop. rewrite S. cbn [head_addr].
  destruct (a =? 0) eqn:E0; [apply N.eqb_eq in E0; subst; exfalso; apply Z; now left|].
  cbn [nodes] in P. destruct (heap_split _ _ _ _ P (heap_keys _ ((a, d) :: q) P ND)) as (h1 & h2 & -> & P3 & NI).
  rewrite load_mid by exact NI. cbn [rbind nd_data nd_next]. rewrite release_mid by exact NI. cbn [rbind].
  do 2 eexists. split; [reflexivity|]. cbn in ND, Z. apply NoDup_cons_iff in ND as [ND1 ND2].
  rewrite Nu, len_cons, num_pred, En. destruct q as [|[b e] q].
  - cbn [last_addr]. rewrite N.eqb_refl. split; auto; reflexivity.
  - replace (a =? last_addr ((a, d) :: (b, e) :: q)) with false.
    { split; auto; try reflexivity. }
    symmetry. apply N.eqb_neq. intro E. apply ND1.
    change (last_addr ((a, d) :: (b, e) :: q)) with (last_addr ((b, e) :: q)) in E. rewrite E. apply last_in. discriminate.
Qed.

Lemma rep_free : forall q fuel h l, rep h l q -> (length q <= fuel)%nat -> ll_free_loop fuel h (ll_start l) = Ok [].
Proof.
  induction q as [|[a d] q IH]; intros fuel h l R F.
  - destruct R as [P ND Z S En Nu]. rewrite S. cbn in P. apply Permutation_sym, Permutation_nil in P. subst.
    destruct fuel; reflexivity.
  - destruct fuel as [|f]; [cbn in F; lia|]. destruct R as [P ND Z S En Nu]. rewrite S. cbn [head_addr ll_free_loop].
    destruct (a =? 0) eqn:E0; [apply N.eqb_eq in E0; subst; exfalso; apply Z; now left|].
    cbn [nodes] in P. destruct (heap_split _ _ _ _ P (heap_keys _ ((a, d) :: q) P ND)) as (h1 & h2 & -> & P3 & NI).
    rewrite load_mid by exact NI. cbn [rbind nd_next]. rewrite release_mid by exact NI. cbn [rbind].
    cbn in ND, Z, F. apply NoDup_cons_iff in ND as [ND1 ND2].
    apply (IH f _ (mk_ll (match q with [] => 0 | (b, _) :: _ => b end) (last_addr q) (len q mod 4294967296))); [|lia].
    split; auto; reflexivity.
Qed.

Lemma rep_length h l q : rep h l q -> length h = length q.
Proof.
  intros [P ND Z S En Nu]. rewrite (Permutation_length P). rewrite <- (map_length fst), nodes_keys. now rewrite map_length.
Qed.

Lemma rep_frees h l q : rep h l q -> ll_free h l = Ok [].
Proof. intro R. unfold ll_free. eapply rep_free; [exact R|]. rewrite (rep_length _ _ _ R). lia. Qed.

Lemma rep_allocated h l q a : rep h l q -> allocated h a = existsb (fun x => fst x =? a) q.
Proof.
  intros [P ND Z S En Nu]. unfold allocated. apply eq_true_iff_eq. rewrite !existsb_exists.
  split; intros (x & I & E).
  - apply (Permutation_in _ P) in I. apply (in_map fst) in I. rewrite nodes_keys in I. apply in_map_iff in I as (y & Ey & Iy).
    exists y. split; [exact Iy|]. now rewrite Ey.
  - apply (in_map fst) in I. rewrite <- nodes_keys in I. apply in_map_iff in I as (y & Ey & Iy).
    exists y. split; [apply (Permutation_in _ (Permutation_sym P)), Iy|]. now rewrite Ey.
Qed.

Lemma not_live q a : existsb (fun x : N * D => fst x =? a) q = false -> ~ In a (map fst q).
Proof.
  intros E I. apply in_map_iff in I as (y & <- & Iy).
  assert (existsb (fun x : N * D => fst x =? fst y) q = true); [|congruence].
  apply existsb_exists. exists y. split; [exact Iy|apply N.eqb_refl].
Qed.

Lemma list_is_queue ops : forall h l q q' out, rep h l q -> queue_run q ops = Some (q', out) ->
  exists h' l', list_run h l ops = Ok (h', l', out) /\ rep h' l' q'.
Proof.
  induction ops as [|[a d|] ops IH]; intros h l q q' out R E; cbn [queue_run list_run] in *.
  - injection E as <- <-. eauto.
  - destruct (a =? 0) eqn:E0; [discriminate|]. cbn [orb] in E. destruct (existsb _ q) eqn:Ex; [discriminate|].
    destruct (rep_push h l q a d R) as (h1 & l1 & E1 & R1); [now apply N.eqb_neq|now apply not_live|].
    rewrite E1. cbn [rbind]. eauto.
  - destruct q as [|[a d] q].
    + rewrite (rep_pop_empty _ _ R). cbn [rbind]. destruct (queue_run [] ops) as [[q1 o1]|] eqn:Q; [|discriminate].
      injection E as <- <-. destruct (IH _ _ _ _ _ R Q) as (h1 & l1 & E1 & R1). rewrite E1. cbn [rbind]. eauto.
    + destruct (rep_pop _ _ _ _ _ R) as (h1 & l1 & E1 & R1). rewrite E1. cbn [rbind].
      destruct (queue_run q ops) as [[q1 o1]|] eqn:Q; [|discriminate].
      injection E as <- <-. destruct (IH _ _ _ _ _ R1 Q) as (h2 & l2 & E2 & R2). rewrite E2. cbn [rbind]. eauto.
Qed.

Lemma fifo_queue ops q out : queue_run [] ops = Some (q, out) ->
  exists h l, list_run [] ll_alloc ops = Ok (h, l, out) /\ ll_num l = len q mod 4294967296 /\
    Permutation (map (fun x => (fst x, nd_data (snd x))) h) q /\ ll_free h l = Ok [].
Proof.
  intro E. destruct (list_is_queue ops [] ll_alloc [] q out rep_empty E) as (h & l & E1 & R).
  exists h, l. split; [exact E1|]. split; [apply R|]. split; [|eapply rep_frees; eauto].
  rewrite (Permutation_map _ (rp_heap _ _ _ R)). clear. induction q as [|[a d] q IH]; [reflexivity|]. cbn. now apply perm_skip.
Qed.
End Chain.
