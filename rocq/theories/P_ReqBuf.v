(* Proofs about the IN endpoint (C15, C16, C17). *)
From Verif Require Import Base M_ReqBuf S_ReqBuf.

Local Open Scope nat_scope.

(* ---------------------------------------------------------- counting *)
Lemma filter_app_len {A} (f : A -> bool) l r :
  length (filter f (l ++ r)) = length (filter f l) + length (filter f r).
Proof. rewrite filter_app, app_length. reflexivity. Qed.

Definition cnt (k : nat) (w : list (N * nat)) : nat :=
  length (filter (fun x => Nat.eqb (snd x) k) w).

Lemma cnt_delete w id k j : NoDup (map fst w) -> In (id, k) w ->
  cnt j w = cnt j (map_delete id w) + (if Nat.eqb k j then 1 else 0).
Proof.
  induction w as [|[i x] w IH]; intros N I; [easy|].
  inversion N as [|? ? N1 N2]; subst. cbn in I. unfold cnt, map_delete in *. cbn [filter fst].
  destruct I as [E|I].
  - injection E as -> ->. replace (id =? id)%N with true by lia. cbn [negb].
    assert (filter (fun x => negb (fst x =? id)%N) w = w) as ->.
    { clear -N1. induction w as [|y w IH]; auto. cbn in *.
      destruct (fst y =? id)%N eqn:E; [exfalso; apply N1; left; lia|].
      cbn. f_equal. apply IH. tauto. }
    cbn [filter snd]. destruct (Nat.eqb k j); cbn [length]; lia.
  - replace (i =? id)%N with false.
    2:{ symmetry. apply N.eqb_neq. intros ->. apply N1. apply (in_map fst) in I. exact I. }
    cbn [negb filter snd]. specialize (IH N2 I).
    destruct (Nat.eqb x j); cbn [length]; lia.
Qed.

Lemma map_has_in id w : map_has id w = true <-> exists k, In (id, k) w.
Proof.
  unfold map_has. rewrite existsb_exists. split.
  - intros ([i k] & H & E). exists k. cbn in E. replace id with i by lia. exact H.
  - intros (k & H). exists (id, k). split; auto. cbn. lia.
Qed.

Lemma in_delete id w x : In x (map_delete id w) <-> In x w /\ fst x <> id.
Proof.
  unfold map_delete. rewrite filter_In. destruct (N.eqb_spec (fst x) id); cbn; intuition congruence.
Qed.

Lemma NoDup_map_filter {A B} (g : A -> B) f l : NoDup (map g l) -> NoDup (map g (filter f l)).
Proof.
  induction l as [|x l IH]; intro N; cbn; auto. inversion N; subst.
  destruct (f x); cbn; auto. constructor; auto.
  intro I. apply H1. apply in_map_iff in I as (y & E & I). apply filter_In in I.
  rewrite <- E. now apply in_map.
Qed.

Lemma NoDup_app {A} (l r : list A) : NoDup l -> NoDup r ->
  (forall x, In x l -> ~ In x r) -> NoDup (l ++ r).
Proof.
  induction l as [|a l IH]; intros A1 A2 D; auto. inversion A1; subst. cbn. constructor.
  - rewrite in_app_iff. intros [H|H]; [easy|]. apply (D a); [now left|exact H].
  - apply IH; auto. intros x Hx. apply D. now right.
Qed.

Lemma drop_nth_in {A} i (l : list A) x : In x (drop_nth i l) -> In x l.
Proof. revert i; induction l; intros [|i] H; cbn in *; intuition eauto. Qed.

Lemma drop_nth_in_other {A} i (l : list A) x y :
  nth_error l i = Some y -> In x l -> x <> y -> In x (drop_nth i l).
Proof.
  revert i; induction l; intros [|i] E H D; cbn in *; try discriminate.
  - injection E as ->. destruct H; congruence.
  - destruct H; [now left|right; eauto].
Qed.

Lemma drop_nth_filter {A} (f : A -> bool) i l x : nth_error l i = Some x ->
  length (filter f l) = length (filter f (drop_nth i l)) + (if f x then 1 else 0).
Proof.
  revert i; induction l as [|y l IH]; intros [|i] E; try discriminate.
  - injection E as ->. cbn [drop_nth filter]. destruct (f x); cbn [length]; lia.
  - cbn [drop_nth filter]. specialize (IH i E). destruct (f y); cbn [length]; lia.
Qed.

(* ---------------------------------------------------------- the invariant *)
Record in_inv (s : in_state) : Prop := mk_in_inv {
  iv_keys : map fst (submissions (in_trace s)) = seq 0 (in_next s);
  iv_ids : NoDup (map snd (submissions (in_trace s)));
  iv_fst : NoDup (map fst (rb_waiting (in_buf s)));
  iv_wait : forall id k, In (id, k) (rb_waiting (in_buf s)) ->
              In (k, id) (submissions (in_trace s)) /\ In (id, k) (in_timers s);
  iv_timer : forall id k, In (id, k) (in_timers s) -> In (k, id) (submissions (in_trace s));
  iv_count : forall k id, In (k, id) (submissions (in_trace s)) ->
     waits k s + flies k s + completions k (in_trace s) + unlinks id (in_trace s) = 1;
  iv_fresh_k : forall k, in_next s <= k ->
     waits k s + flies k s + completions k (in_trace s) = 0;
  iv_fresh_id : forall id, ~ In id (map snd (submissions (in_trace s))) ->
     unlinks id (in_trace s) = 0 }.

Lemma in_init_inv : in_inv in_init.
Proof. constructor; cbn; auto; try constructor; intros; now try destruct H. Qed.

Lemma submissions_app t t' : submissions (t ++ t') = submissions t ++ submissions t'.
Proof. unfold submissions. apply flat_map_app. Qed.

Lemma completions_app k t t' : completions k (t ++ t') = completions k t + completions k t'.
Proof. apply filter_app_len. Qed.

Lemma unlinks_app k t t' : unlinks k (t ++ t') = unlinks k t + unlinks k t'.
Proof. apply filter_app_len. Qed.

Lemma id_of_key s k i j : in_inv s ->
  In (k, i) (submissions (in_trace s)) -> In (k, j) (submissions (in_trace s)) -> i = j.
Proof.
  intros I A B. assert (NoDup (map fst (submissions (in_trace s)))) as N
    by (rewrite (iv_keys s I); apply seq_NoDup).
  revert N A B. generalize (submissions (in_trace s)). clear.
  induction l as [|[x y] l IH]; intros N A B; [easy|]. inversion N; subst. cbn in *.
  destruct A as [A|A], B as [B|B]; try congruence.
  - injection A as -> ->. exfalso. apply H1. apply (in_map fst) in B. exact B.
  - injection B as -> ->. exfalso. apply H1. apply (in_map fst) in A. exact A.
  - auto.
Qed.

Lemma key_of_id s k l i : in_inv s ->
  In (k, i) (submissions (in_trace s)) -> In (l, i) (submissions (in_trace s)) -> k = l.
Proof.
  intros I A B. pose proof (iv_ids s I) as N.
  revert N A B. generalize (submissions (in_trace s)). clear.
  induction l0 as [|[x y] l' IH]; intros N A B; [easy|]. inversion N; subst. cbn in *.
  destruct A as [A|A], B as [B|B]; try congruence.
  - injection A as -> ->. exfalso. apply H1. apply (in_map snd) in B. exact B.
  - injection B as -> ->. exfalso. apply H1. apply (in_map snd) in A. exact A.
  - auto.
Qed.

Lemma key_bound s k i : in_inv s -> In (k, i) (submissions (in_trace s)) -> k < in_next s.
Proof.
  intros I A. apply (in_map fst) in A. rewrite (iv_keys s I) in A. apply in_seq in A.
  cbn in A. lia.
Qed.

(* flies and waits of the states reached by each step *)
Lemma cancel_cases b id b' r : rb_cancel b id = (b', r) ->
  (r = true /\ (exists k, In (id, k) (rb_waiting b)) /\
   b' = mk_reqbuf (map_delete id (rb_waiting b)) (rb_responses b)) \/
  (r = false /\ (forall k, ~ In (id, k) (rb_waiting b)) /\ b' = b).
Proof.
  unfold rb_cancel. destruct (map_has id (rb_waiting b)) eqn:E; intro H; injection H as <- <-.
  - left. apply map_has_in in E. auto.
  - right. split; auto. split; auto. intros k I. enough (map_has id (rb_waiting b) = true) by congruence.
    apply map_has_in. eauto.
Qed.

Lemma flies_app k f g b t n e t' n' e' b' :
  flies k (mk_in b (f ++ g) t n e) =
  flies k (mk_in b' f t' n' e') + length (filter (fun x => Nat.eqb (fl_key x) k) g).
Proof. apply filter_app_len. Qed.

Ltac open_inv I :=
  pose proof (iv_keys _ I) as Ik; pose proof (iv_ids _ I) as Ii; pose proof (iv_fst _ I) as If;
  pose proof (iv_wait _ I) as Iw; pose proof (iv_timer _ I) as It; pose proof (iv_count _ I) as Ic;
  pose proof (iv_fresh_k _ I) as Ifk; pose proof (iv_fresh_id _ I) as Ifi.

Lemma in_step_inv s l s' : in_inv s -> in_step s l = Some s' ->
  (forall id, l = ISubmit id -> ~ In id (map snd (submissions (in_trace s)))) ->
  in_inv s'.
Proof.
  intros I E F. open_inv I. destruct s as [[w q] fl ti nx tr].
  unfold waits, flies in *. cbn [in_buf in_flight in_timers in_next in_trace rb_waiting rb_responses] in *.
  destruct l as [id|choice data|i|i|id]; cbn [in_step in_buf in_flight in_timers in_next in_trace] in E.
  - (* submit *)
    specialize (F id eq_refl). unfold rb_request in E. cbn [rb_waiting rb_responses] in E.
    destruct q as [|d q]; injection E as <-.
    + assert (map_delete id w = w) as Dw.
      { clear -Iw F. unfold map_delete. induction w as [|[i k] w IH]; auto. cbn.
        replace (i =? id)%N with false.
        - cbn. f_equal. apply IH. intros. apply Iw. now right.
        - symmetry. apply N.eqb_neq. intros ->. apply F. destruct (Iw id k) as [A _]; [now left|].
          apply (in_map snd) in A. exact A. }
      rewrite Dw.
      constructor; unfold waits, flies; cbn [in_buf in_flight in_timers in_next in_trace rb_waiting].
      * rewrite submissions_app, map_app, Ik. cbn [submissions flat_map app map fst].
        rewrite seq_S. reflexivity.
      * rewrite submissions_app, map_app. cbn [submissions flat_map app map snd].
        apply NoDup_app; auto; [constructor; [easy|constructor]|].
        intros x Hx [<-|[]]. contradiction.
      * cbn [map fst]. constructor; auto. intro H. apply in_map_iff in H as ([i k] & E1 & H).
        cbn in E1. subst i. apply F. destruct (Iw id k H) as [A _]. apply (in_map snd) in A. exact A.
      * rewrite submissions_app. intros i k [H|H].
        -- injection H as <- <-. split; apply in_or_app; right; now left.
        -- destruct (Iw i k H). split; apply in_or_app; now left.
      * rewrite submissions_app. intros i k H. apply in_or_app. apply in_app_or in H as [H|[H|[]]].
        -- left. auto.
        -- right. injection H as <- <-. now left.
      * rewrite submissions_app. intros k i H.
        rewrite completions_app, unlinks_app. cbn [completions unlinks filter length].
        cbn [snd]. apply in_app_or in H as [H|[H|[]]].
        -- specialize (Ic k i H). replace (Nat.eqb nx k) with false; [lia|].
           pose proof (key_bound _ _ _ I H). cbn in H0. symmetry. apply Nat.eqb_neq. lia.
        -- injection H as <- <-. rewrite Nat.eqb_refl. specialize (Ifk nx (le_n _)).
           specialize (Ifi id F). cbn [length]. lia.
      * intros k H. specialize (Ifk k ltac:(lia)). rewrite completions_app.
        cbn [completions filter length snd]. replace (Nat.eqb nx k) with false; [lia|].
        symmetry. apply Nat.eqb_neq. lia.
      * intros i H. rewrite submissions_app, map_app in H. rewrite unlinks_app.
        rewrite Ifi; [reflexivity|]. intro. apply H. apply in_or_app. now left.
    + constructor; unfold waits, flies; cbn [in_buf in_flight in_timers in_next in_trace rb_waiting].
      * rewrite submissions_app, map_app, Ik. cbn [submissions flat_map app map fst].
        rewrite seq_S. reflexivity.
      * rewrite submissions_app, map_app. cbn [submissions flat_map app map snd].
        apply NoDup_app; auto; [constructor; [easy|constructor]|].
        intros x Hx [<-|[]]. contradiction.
      * auto.
      * rewrite submissions_app. intros i k H. destruct (Iw i k H). split; apply in_or_app; now left.
      * rewrite submissions_app. intros i k H. apply in_or_app. apply in_app_or in H as [H|[H|[]]].
        -- left. auto.
        -- right. injection H as <- <-. now left.
      * rewrite submissions_app. intros k i H.
        rewrite completions_app, unlinks_app. cbn [completions unlinks filter length].
        apply in_app_or in H as [H|[H|[]]].
        -- specialize (Ic k i H). replace (Nat.eqb nx k) with false; [cbn [length]; lia|].
           pose proof (key_bound _ _ _ I H). cbn in H0. symmetry. apply Nat.eqb_neq. lia.
        -- injection H as <- <-. rewrite Nat.eqb_refl. specialize (Ifk nx (le_n _)).
           specialize (Ifi id F). cbn [length]. lia.
      * intros k H. specialize (Ifk k ltac:(lia)). rewrite completions_app.
        cbn [completions filter length snd]. replace (Nat.eqb nx k) with false; [cbn [length]; lia|].
        symmetry. apply Nat.eqb_neq. lia.
      * intros i H. rewrite submissions_app, map_app in H. rewrite unlinks_app.
        rewrite Ifi; [reflexivity|]. intro. apply H. apply in_or_app. now left.
  - (* respond *)
    unfold rb_respond in E. cbn [rb_waiting rb_responses] in E.
    destruct w as [|w0 wr] eqn:Ew.
    + injection E as <-. rewrite app_nil_r. cbn [filter length] in Ic, Ifk.
      constructor; unfold waits, flies;
        cbn [in_buf in_flight in_timers in_next in_trace rb_waiting];
        rewrite ?submissions_app, ?completions_app, ?unlinks_app; cbn [submissions flat_map];
        rewrite ?app_nil_r; auto.
      * intros k id H. specialize (Ic k id H). rewrite completions_app, unlinks_app.
        cbn [completions unlinks filter length]. lia.
      * intros k H. specialize (Ifk k H). rewrite completions_app.
        cbn [completions filter length]. lia.
      * intros id H. rewrite unlinks_app. rewrite (Ifi id H). reflexivity.
    + rewrite <- Ew in *. destruct (nth_error w choice) as [[id k]|] eqn:En; [|discriminate].
      injection E as <-. apply nth_error_In in En.
      constructor; unfold waits, flies;
        cbn [in_buf in_flight in_timers in_next in_trace rb_waiting];
        rewrite ?submissions_app; cbn [submissions flat_map]; rewrite ?app_nil_r; auto.
      * now apply NoDup_map_filter.
      * intros i j H. apply in_delete in H as [H _]. auto.
      * intros j i H. specialize (Ic j i H). rewrite filter_app_len, completions_app, unlinks_app.
        cbn [completions unlinks filter length fl_key].
        pose proof (cnt_delete w id k j If En) as C. unfold cnt in C.
        destruct (Nat.eqb k j); cbn [length]; lia.
      * intros j H. specialize (Ifk j H). rewrite filter_app_len, completions_app.
        cbn [completions filter length fl_key].
        pose proof (cnt_delete w id k j If En) as C. unfold cnt in C.
        destruct (Nat.eqb k j); cbn [length]; lia.
      * intros i H. rewrite unlinks_app. rewrite (Ifi i H). reflexivity.
  - (* run *)
    destruct (nth_error fl i) as [f|] eqn:En; [|discriminate]. injection E as <-.
    constructor; unfold waits, flies;
      cbn [in_buf in_flight in_timers in_next in_trace rb_waiting];
      rewrite ?submissions_app; cbn [submissions flat_map]; rewrite ?app_nil_r; auto.
    + intros k id H. specialize (Ic k id H). rewrite completions_app, unlinks_app.
      cbn [completions unlinks filter length].
      pose proof (drop_nth_filter (fun f => Nat.eqb (fl_key f) k) i fl f En) as D.
      destruct (Nat.eqb (fl_key f) k); cbn [length]; lia.
    + intros k H. specialize (Ifk k H). rewrite completions_app. cbn [completions filter length].
      pose proof (drop_nth_filter (fun f => Nat.eqb (fl_key f) k) i fl f En) as D.
      destruct (Nat.eqb (fl_key f) k); cbn [length]; lia.
    + intros id H. rewrite unlinks_app. rewrite (Ifi id H). reflexivity.
  - (* timeout *)
    destruct (nth_error ti i) as [[id k]|] eqn:En; [|discriminate].
    pose proof (nth_error_In _ _ En) as Hin. pose proof (It id k Hin) as Hs.
    destruct (rb_cancel (mk_reqbuf w q) id) as [b r] eqn:Ec. injection E as <-.
    apply cancel_cases in Ec as [(-> & (k' & Hw) & ->)|(-> & Hn & ->)];
      cbn [rb_waiting rb_responses] in *.
    + assert (k' = k) as ->.
      { destruct (Iw id k' Hw) as [A _]. exact (key_of_id _ _ _ _ I A Hs). }
      constructor; unfold waits, flies;
        cbn [in_buf in_flight in_timers in_next in_trace rb_waiting];
        rewrite ?submissions_app; cbn [submissions flat_map]; rewrite ?app_nil_r; auto.
      * now apply NoDup_map_filter.
      * intros i' j H. apply in_delete in H as [H Hne]. cbn in Hne. destruct (Iw i' j H). split; auto.
        eapply drop_nth_in_other; eauto. congruence.
      * intros i' j H. apply It. now apply drop_nth_in in H.
      * intros j i' H. specialize (Ic j i' H). rewrite filter_app_len, completions_app, unlinks_app.
        cbn [completions unlinks filter length fl_key].
        pose proof (cnt_delete w id k j If Hw) as C. unfold cnt in C.
        destruct (Nat.eqb k j); cbn [length]; lia.
      * intros j H. specialize (Ifk j H). rewrite filter_app_len, completions_app.
        cbn [completions filter length fl_key].
        pose proof (cnt_delete w id k j If Hw) as C. unfold cnt in C.
        destruct (Nat.eqb k j); cbn [length]; lia.
      * intros i' H. rewrite unlinks_app. rewrite (Ifi i' H). reflexivity.
    + rewrite app_nil_r.
      constructor; unfold waits, flies;
        cbn [in_buf in_flight in_timers in_next in_trace rb_waiting];
        rewrite ?submissions_app; cbn [submissions flat_map]; rewrite ?app_nil_r; auto.
      * intros i' j H. destruct (Iw i' j H). split; auto.
        eapply drop_nth_in_other; eauto. intro. apply (Hn j). congruence.
      * intros i' j H. apply It. now apply drop_nth_in in H.
      * intros j i' H. specialize (Ic j i' H). rewrite completions_app, unlinks_app.
        cbn [completions unlinks filter length]. lia.
      * intros j H. specialize (Ifk j H). rewrite completions_app.
        cbn [completions filter length]. lia.
      * intros i' H. rewrite unlinks_app. rewrite (Ifi i' H). reflexivity.
  - (* unlink *)
    destruct (rb_cancel (mk_reqbuf w q) id) as [b r] eqn:Ec. injection E as <-.
    apply cancel_cases in Ec as [(-> & (k & Hw) & ->)|(-> & Hn & ->)];
      cbn [rb_waiting rb_responses] in *.
    + destruct (Iw id k Hw) as [Hs _].
      constructor; unfold waits, flies;
        cbn [in_buf in_flight in_timers in_next in_trace rb_waiting];
        rewrite ?submissions_app; cbn [submissions flat_map]; rewrite ?app_nil_r; auto.
      * now apply NoDup_map_filter.
      * intros i' j H. apply in_delete in H as [H Hne]. auto.
      * intros j i' H. specialize (Ic j i' H). rewrite completions_app, unlinks_app.
        cbn [completions unlinks filter length].
        pose proof (cnt_delete w id k j If Hw) as C. unfold cnt in C.
        destruct (Nat.eqb_spec k j) as [->|D].
        -- assert (i' = id) as -> by exact (id_of_key _ _ _ _ I H Hs). rewrite N.eqb_refl. cbn [length]. lia.
        -- replace (id =? i')%N with false; [cbn [length]; lia|].
           symmetry. apply N.eqb_neq. intros <-. apply D. exact (key_of_id _ _ _ _ I Hs H).
      * intros j H. specialize (Ifk j H). rewrite completions_app.
        cbn [completions filter length].
        pose proof (cnt_delete w id k j If Hw) as C. unfold cnt in C. lia.
      * intros i' H. rewrite unlinks_app. rewrite (Ifi i' H).
        unfold unlinks; cbn [filter]. replace (id =? i')%N with false; [reflexivity|].
        symmetry. apply N.eqb_neq. intros <-. apply H. apply (in_map snd) in Hs. exact Hs.
    + constructor; unfold waits, flies;
        cbn [in_buf in_flight in_timers in_next in_trace rb_waiting];
        rewrite ?submissions_app; cbn [submissions flat_map]; rewrite ?app_nil_r; auto.
      * intros j i' H. specialize (Ic j i' H). rewrite completions_app, unlinks_app.
        cbn [completions unlinks filter length]. lia.
      * intros j H. specialize (Ifk j H). rewrite completions_app.
        cbn [completions filter length]. lia.
      * intros i' H. rewrite unlinks_app. rewrite (Ifi i' H). reflexivity.
Qed.

Lemma in_run_inv ls : forall s s', in_inv s -> in_run s ls = Some s' ->
  NoDup (map snd (submissions (in_trace s)) ++ submitted_ids ls) -> in_inv s'.
Proof.
  induction ls as [|l ls IH]; intros s s' I E N; cbn in E.
  - now injection E as <-.
  - destruct (in_step s l) as [s1|] eqn:E1; [|discriminate]. cbn in E.
    assert (forall id, l = ISubmit id -> ~ In id (map snd (submissions (in_trace s)))) as F.
    { intros id ->. cbn in N. apply NoDup_remove_2 in N. rewrite in_app_iff in N. tauto. }
    apply (IH s1 s'); auto.
    + eapply in_step_inv; eauto.
    + destruct l; cbn in E1, N |- *;
        try (destruct (rb_request _ _ _); injection E1 as <-; cbn;
             rewrite submissions_app, map_app, <- app_assoc; destruct o; exact N).
      all: try (destruct (rb_respond _ _ _) as [[? ?]|]; [|discriminate]; injection E1 as <-; cbn).
      all: try (destruct (nth_error _ _) as [?|]; [|discriminate]).
      all: try (destruct p as [? ?]).
      all: try (destruct (rb_cancel _ _); injection E1 as <-; cbn).
      all: try (injection E1 as <-; cbn).
      all: rewrite submissions_app; cbn; rewrite app_nil_r; exact N.
Qed.

Lemma exactly_once ls s : in_run in_init ls = Some s -> NoDup (submitted_ids ls) ->
  forall k id, In (k, id) (submissions (in_trace s)) ->
  waits k s + flies k s + completions k (in_trace s) + unlinks id (in_trace s) = 1.
Proof.
  intros E N. exact (iv_count s (in_run_inv ls _ _ in_init_inv E N)).
Qed.

(* only submitted transfers are ever completed *)
Lemma only_submitted ls s : in_run in_init ls = Some s -> NoDup (submitted_ids ls) ->
  forall k, completions k (in_trace s) <> 0 -> exists id, In (k, id) (submissions (in_trace s)).
Proof.
  intros E N k H. pose proof (in_run_inv ls _ _ in_init_inv E N) as I.
  assert (k < in_next s) as B.
  { destruct (Nat.lt_ge_cases k (in_next s)) as [B|B]; auto.
    pose proof (iv_fresh_k s I k B). lia. }
  assert (In k (map fst (submissions (in_trace s)))) as M.
  { rewrite (iv_keys s I). apply in_seq. lia. }
  apply in_map_iff in M as ([k' id] & E1 & M). cbn in E1. subst. eauto.
Qed.

(* when no timer sleeps and no callback is in flight, everything is settled *)
Lemma quiescent ls s : in_run in_init ls = Some s -> NoDup (submitted_ids ls) ->
  in_timers s = [] -> in_flight s = [] ->
  forall k id, In (k, id) (submissions (in_trace s)) ->
  completions k (in_trace s) + unlinks id (in_trace s) = 1.
Proof.
  intros E N T F k id H. pose proof (in_run_inv ls _ _ in_init_inv E N) as I.
  pose proof (iv_count s I k id H) as C. unfold flies in C. rewrite F in C. cbn in C.
  assert (rb_waiting (in_buf s) = []) as W.
  { destruct (rb_waiting (in_buf s)) as [|[i j] w] eqn:Ew; auto.
    destruct (iv_wait s I i j) as [_ A]; [rewrite Ew; now left|]. rewrite T in A. easy. }
  unfold waits in C. rewrite W in C. cbn in C. lia.
Qed.

(* and that state is always reachable without the host or the device doing anything *)
Lemma settle s : exists ls s', in_run s ls = Some s' /\ in_timers s' = [] /\ in_flight s' = [] /\
  submitted_ids ls = [] /\ produced (in_trace s') = produced (in_trace s) /\
  submissions (in_trace s') = submissions (in_trace s).
Proof.
  enough (forall n s, length (in_timers s) + length (in_timers s) + length (in_flight s) = n ->
    exists ls s', in_run s ls = Some s' /\ in_timers s' = [] /\ in_flight s' = [] /\
    submitted_ids ls = [] /\ produced (in_trace s') = produced (in_trace s) /\
    submissions (in_trace s') = submissions (in_trace s)) as G by eauto.
  clear s. induction n as [n IH] using lt_wf_ind. intros s E.
  assert (forall t t', produced (t ++ t') = produced t ++ produced t') as Pa
    by (intros; apply flat_map_app).
  destruct (in_flight s) as [|f fs] eqn:Ef.
  - destruct (in_timers s) as [|[id k] ts] eqn:Et.
    + exists [], s. repeat split; auto.
    + destruct (rb_cancel (in_buf s) id) as [b r] eqn:Ec.
      destruct (IH (length ts + length ts + (if r then 1 else 0))) with
        (s := mk_in b (if r then [mk_inflight FromTimer k None] else []) ts (in_next s)
                (in_trace s ++ [EvTimeout k r])) as (ls & s' & R & A1 & A2 & A3 & A4 & A5).
      * cbn in E. destruct r; lia.
      * cbn. destruct r; reflexivity.
      * exists (ITimeout 0 :: ls), s'. repeat split; auto.
        -- cbn [in_run in_step obind]. rewrite Et. cbn [nth_error]. rewrite Ec, Ef. cbn [obind drop_nth app].
           exact R.
        -- rewrite A4. cbn. rewrite Pa. cbn. apply app_nil_r.
        -- rewrite A5. cbn. rewrite submissions_app. cbn. apply app_nil_r.
  - destruct (IH (length (in_timers s) + length (in_timers s) + length fs)) with
        (s := mk_in (in_buf s) fs (in_timers s) (in_next s)
                (in_trace s ++ [EvCallback (fl_key f) (fl_value f)])) as (ls & s' & R & A1 & A2 & A3 & A4 & A5).
    + cbn in E. lia.
    + reflexivity.
    + exists (IRun 0 :: ls), s'. repeat split; auto.
      * cbn [in_run in_step obind]. rewrite Ef. cbn [nth_error obind drop_nth]. exact R.
      * rewrite A4. cbn. rewrite Pa. cbn. apply app_nil_r.
      * rewrite A5. cbn. rewrite submissions_app. cbn. apply app_nil_r.
Qed.

(* ---------------------------------------------------------- C17 *)
Lemma in_run_app ls1 : forall s ls2,
  in_run s (ls1 ++ ls2) = let! s' := in_run s ls1 in in_run s' ls2.
Proof.
  induction ls1 as [|l ls1 IH]; intros; cbn; auto. destruct (in_step s l); cbn; auto.
Qed.

Lemma in_run_trace ls : forall s s', in_run s ls = Some s' -> exists t, in_trace s' = in_trace s ++ t.
Proof.
  induction ls as [|l ls IH]; intros s s' E; cbn in E.
  - injection E as <-. exists []. now rewrite app_nil_r.
  - destruct (in_step s l) as [s1|] eqn:E1; [|discriminate]. apply IH in E as [t Et].
    assert (exists t1, in_trace s1 = in_trace s ++ t1) as [t1 Et1].
    { destruct l; cbn in E1.
      - destruct (rb_request _ _ _); injection E1 as <-; cbn; eauto.
      - destruct (rb_respond _ _ _) as [[? ?]|]; [|discriminate]; injection E1 as <-; cbn; eauto.
      - destruct (nth_error _ _) as [?|]; [|discriminate]; injection E1 as <-; cbn; eauto.
      - destruct (nth_error _ _) as [[? ?]|]; [|discriminate].
        destruct (rb_cancel _ _); injection E1 as <-; cbn; eauto.
      - destruct (rb_cancel _ _); injection E1 as <-; cbn; eauto. }
    exists (t1 ++ t). rewrite Et, Et1. now rewrite app_assoc.
Qed.

Lemma submitted_ids_app a b : submitted_ids (a ++ b) = submitted_ids a ++ submitted_ids b.
Proof. apply flat_map_app. Qed.

(* a successful cancellation: the callback was waiting and never runs *)
Lemma cancel_true ls1 ls2 id s1 s : NoDup (submitted_ids (ls1 ++ ls2)) ->
  in_run in_init ls1 = Some s1 -> snd (rb_cancel (in_buf s1) id) = true ->
  in_run s1 (IUnlink id :: ls2) = Some s ->
  exists k, In (k, id) (submissions (in_trace s1)) /\ waits k s1 = 1 /\
    completions k (in_trace s) = 0.
Proof.
  intros N E1 C E2.
  destruct (rb_cancel (in_buf s1) id) as [b r] eqn:Ec. cbn in C. subst r.
  pose proof Ec as Ec'. apply cancel_cases in Ec as [(_ & (k & Hw) & _)|(A & _)]; [|discriminate].
  assert (NoDup (submitted_ids ls1)) as N1.
  { rewrite submitted_ids_app in N. revert N. generalize (submitted_ids ls1). clear.
    induction l; cbn; intro H; constructor; inversion H; subst; auto. rewrite in_app_iff in *. tauto. }
  pose proof (in_run_inv ls1 _ _ in_init_inv E1 N1) as I1.
  destruct (iv_wait s1 I1 id k Hw) as [Hs _].
  assert (in_run in_init (ls1 ++ IUnlink id :: ls2) = Some s) as E.
  { rewrite in_run_app, E1. exact E2. }
  assert (NoDup (submitted_ids (ls1 ++ IUnlink id :: ls2))) as N2.
  { rewrite submitted_ids_app in *. exact N. }
  pose proof (in_run_inv _ _ _ in_init_inv E N2) as I.
  exists k. split; [exact Hs|]. split.
  - pose proof (iv_count s1 I1 k id Hs) as C1. enough (waits k s1 <> 0) by lia.
    unfold waits. intro Z. assert (In (id, k) (filter (fun x => Nat.eqb (snd x) k) (rb_waiting (in_buf s1)))) as F.
    { apply filter_In. split; auto. apply Nat.eqb_refl. }
    destruct (filter _ _); [easy|discriminate].
  - cbn [in_run in_step obind] in E2. rewrite Ec' in E2. cbn [obind] in E2.
    destruct (in_run_trace _ _ _ E2) as [t Et]. cbn [in_trace] in Et.
    assert (In (k, id) (submissions (in_trace s))) as Hs2.
    { rewrite Et, !submissions_app. apply in_or_app. left. apply in_or_app. now left. }
    pose proof (iv_count s I k id Hs2) as C.
    enough (unlinks id (in_trace s) <> 0) by lia.
    rewrite Et, !unlinks_app. unfold unlinks at 2. cbn [filter]. rewrite N.eqb_refl. cbn [length]. lia.
Qed.

Lemma cancel_false s id : snd (rb_cancel (in_buf s) id) = false ->
  (forall k, ~ In (id, k) (rb_waiting (in_buf s))) /\
  in_step s (IUnlink id) = Some (mk_in (in_buf s) (in_flight s) (in_timers s) (in_next s)
                                   (in_trace s ++ [EvUnlink id false])).
Proof.
  intro C. cbn. destruct (rb_cancel (in_buf s) id) as [b r] eqn:Ec. cbn in C. subst r.
  apply cancel_cases in Ec as [(A & _)|(_ & Hn & ->)]; [discriminate|]. auto.
Qed.

(* ---------------------------------------------------------- C16 *)
Definition fifo_inv (s : in_state) : Prop :=
  produced (in_trace s) =
    delivered (in_trace s) ++ flying_data s ++ rb_responses (in_buf s) /\
  (rb_responses (in_buf s) = [] \/
   rb_waiting (in_buf s) = [] /\ flying_data s = []) /\
  length (flying_data s) <= 1 /\
  Forall (fun f => fl_origin f = FromRespond <-> fl_value f <> None) (in_flight s).

Lemma respond_idle_none s : fifo_inv s -> respond_idle s = true -> flying_data s = [].
Proof.
  intros (_ & _ & _ & F) R. unfold respond_idle, flying_data in *.
  induction (in_flight s) as [|f fs IH]; auto. inversion F; subst. cbn in R |- *.
  destruct (fl_origin f); [discriminate|]. cbn in R. rewrite IH by auto.
  destruct (fl_value f); auto. destruct H1 as [_ H1]. specialize (H1 ltac:(discriminate)). discriminate.
Qed.

Lemma flying_drop fs i f : nth_error fs i = Some f ->
  length (flat_map (fun f => match fl_value f with Some d => [d] | None => [] end) fs) <= 1 ->
  flat_map (fun f => match fl_value f with Some d => [d] | None => [] end) fs =
  match fl_value f with Some d => [d] | None => [] end ++
  flat_map (fun f => match fl_value f with Some d => [d] | None => [] end) (drop_nth i fs).
Proof.
  revert i. induction fs as [|g fs IH]; intros [|i] E L; try discriminate; cbn in *.
  - injection E as ->. reflexivity.
  - rewrite app_length in L. specialize (IH i E ltac:(lia)).
    destruct (fl_value g) eqn:Eg.
    + cbn in L. destruct (flat_map _ fs) eqn:Ef; [|cbn in L; lia].
      symmetry in IH. apply app_eq_nil in IH as [-> ->]. reflexivity.
    + cbn [app]. exact IH.
Qed.

Lemma fifo_step s l s' : fifo_inv s -> in_step s l = Some s' ->
  match l with IRespond _ _ => respond_idle s | _ => true end = true -> fifo_inv s'.
Proof.
  intros I E R. pose proof I as (P & Q & L & F).
  assert (forall t t', produced (t ++ t') = produced t ++ produced t') as Pa
    by (intros; apply flat_map_app).
  assert (forall t t', delivered (t ++ t') = delivered t ++ delivered t') as Da
    by (intros; apply flat_map_app).
  destruct l as [id|choice data|i|i|id]; cbn in E.
  - unfold rb_request in E. destruct (rb_responses (in_buf s)) as [|d q] eqn:Eq; injection E as <-;
      unfold fifo_inv, flying_data; cbn; rewrite Pa, Da; cbn; rewrite ?app_nil_r.
    + split; [rewrite P, app_nil_r; reflexivity|]. auto.
    + destruct Q as [Q|[Q1 Q2]]; [discriminate|]. unfold flying_data in *. rewrite Q2 in *.
      rewrite P. cbn. rewrite <- app_assoc. auto.
  - pose proof (respond_idle_none s I R) as Z.
    unfold rb_respond in E. destruct (rb_waiting (in_buf s)) as [|w0 w] eqn:Ew.
    + injection E as <-. unfold fifo_inv, flying_data in *; cbn; rewrite Pa, Da; cbn.
      rewrite !app_nil_r, P, Z. cbn. rewrite <- !app_assoc. cbn. rewrite <- ?app_assoc. auto.
    + destruct (nth_error (w0 :: w) choice) as [[id k]|]; [|discriminate]. injection E as <-.
      destruct Q as [Q|[Q1 _]]; [|discriminate].
      unfold fifo_inv, flying_data in *; cbn. rewrite Pa, Da, flat_map_app. cbn.
      rewrite Z, Q in *. cbn. rewrite P, !app_nil_r. cbn. split; auto. split; auto. split; auto.
      apply Forall_app. split; auto. repeat constructor. discriminate.
  - destruct (nth_error (in_flight s) i) as [f|] eqn:En; [|discriminate]. injection E as <-.
    unfold fifo_inv, flying_data in *. cbn. rewrite Pa, Da. cbn.
    pose proof (flying_drop _ _ _ En L) as FD. rewrite FD in P, L, Q. clear FD.
    split; [|split; [|split]].
    + rewrite app_nil_r, P. destruct (fl_value f); cbn; now rewrite <- ?app_assoc.
    + destruct Q as [Q|[Q1 Q2]]; auto. apply app_eq_nil in Q2 as [_ Q2]. auto.
    + rewrite app_length in L. lia.
    + rewrite Forall_forall in *. intros x Hx. apply F. now apply drop_nth_in in Hx.
  - destruct (nth_error (in_timers s) i) as [[id k]|]; [|discriminate].
    destruct (rb_cancel (in_buf s) id) as [b r] eqn:Ec. injection E as <-.
    apply cancel_cases in Ec as [(-> & (k' & Hw) & ->)|(-> & _ & ->)];
      unfold fifo_inv, flying_data in *; cbn; rewrite Pa, Da, ?flat_map_app; cbn; rewrite ?app_nil_r; auto.
    split; auto. split; [|split; auto].
    + destruct Q as [Q|[Q1 Q2]]; auto. rewrite Q1 in Hw. easy.
    + apply Forall_app. split; auto. repeat constructor; cbn; congruence.
  - destruct (rb_cancel (in_buf s) id) as [b r] eqn:Ec. injection E as <-.
    apply cancel_cases in Ec as [(-> & (k' & Hw) & ->)|(-> & _ & ->)];
      unfold fifo_inv, flying_data in *; cbn; rewrite Pa, Da, ?flat_map_app; cbn; rewrite ?app_nil_r; auto.
    split; auto. split; [|split; auto].
    destruct Q as [Q|[Q1 Q2]]; auto. rewrite Q1 in Hw. easy.
Qed.

Lemma fifo_run ls : forall s s', fifo_inv s -> in_run s ls = Some s' -> serialised s ls = true ->
  fifo_inv s'.
Proof.
  induction ls as [|l ls IH]; intros s s' I E S; cbn in E, S.
  - now injection E as <-.
  - destruct (in_step s l) as [s1|] eqn:E1; [|discriminate]. cbn in E.
    apply andb_prop in S as [S1 S2]. apply (IH s1); auto. eapply fifo_step; eauto.
Qed.

Lemma fifo ls s : in_run in_init ls = Some s -> serialised in_init ls = true ->
  produced (in_trace s) = delivered (in_trace s) ++ flying_data s ++ rb_responses (in_buf s) /\
  (rb_responses (in_buf s) <> [] -> rb_waiting (in_buf s) = []) /\
  length (flying_data s) <= 1.
Proof.
  intros E S. assert (fifo_inv in_init) as I0.
  { unfold fifo_inv, flying_data. cbn. auto. }
  destruct (fifo_run ls _ _ I0 E S) as (P & Q & L & _). split; [exact P|]. split; [|exact L].
  intro H. destruct Q as [Q|[Q _]]; [contradiction|exact Q].
Qed.
