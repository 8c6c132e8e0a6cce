(* Proofs about logging from several goroutines. *)
From Verif Require Import Base M_LogRace S_LogRace.

(* ------------------------------------------------------------ lists *)
Lemma nth_mid {A} (pre : list A) x post : nth_error (pre ++ x :: post) (length pre) = Some x.
Proof. induction pre; cbn; auto. Qed.
Lemma nth_mid_ne {A} (pre : list A) x y post j : j <> length pre ->
  nth_error (pre ++ x :: post) j = nth_error (pre ++ y :: post) j.
Proof.
  revert j. induction pre as [|a pre IH]; intros [|j] H; cbn in *; auto; try lia.
Qed.
Lemma nth_mid_in {A} (pre : list A) x post j t : j <> length pre ->
  nth_error (pre ++ x :: post) j = Some t -> In t (pre ++ post).
Proof.
  revert j. induction pre as [|a pre IH]; intros [|j] H E; cbn in *; try lia.
  - apply nth_error_In in E. exact E.
  - left. now injection E.
  - right. apply (IH j); [lia|exact E].
Qed.

Lemma chain_set_len i b c : length (chain_set i b c) = length c.
Proof. revert i. induction c as [|x c IH]; intros [|i]; cbn; auto. Qed.
Lemma chain_set_same i b c : (i < length c)%nat -> nth_error (chain_set i b c) i = Some b.
Proof. revert i. induction c as [|x c IH]; intros [|i] H; cbn in *; try lia; auto. apply IH. lia. Qed.
Lemma chain_set_other i j b c : i <> j -> nth_error (chain_set i b c) j = nth_error c j.
Proof. revert i j. induction c as [|x c IH]; intros [|i] [|j] H; cbn; auto; try lia. Qed.
Lemma chain_set_on i b b' c : nth_error c i = Some b -> lb_on b' = lb_on b ->
  map lb_on (chain_set i b' c) = map lb_on c.
Proof.
  revert i. induction c as [|x c IH]; intros [|i] H E; cbn in *; try discriminate.
  - injection H as ->. now rewrite E.
  - f_equal. now apply (IH i).
Qed.

Lemma onat_eqb_eq a b : onat_eqb a b = true <-> a = b.
Proof.
  destruct a, b; cbn; split; intro H; try discriminate; auto.
  - apply Nat.eqb_eq in H. now subst.
  - injection H as ->. apply Nat.eqb_refl.
Qed.

(* ------------------------------------------------------------ where texts go *)
Lemma stop_off on i : nth_error on i = Some false -> stop on i = Some i.
Proof.
  revert i. induction on as [|x on IH]; intros [|i] H; cbn in *; try discriminate.
  - now injection H as ->.
  - rewrite (IH i H). now destruct x.
Qed.
Lemma stop_next on i : nth_error on i = Some true -> stop on (S i) = stop on i.
Proof.
  revert i. induction on as [|x on IH]; intros [|i] H; cbn in *; try discriminate.
  - injection H as ->. now destruct on.
  - rewrite (IH i H). now destruct x.
Qed.
Lemma stop_end on i : nth_error on i = None -> stop on i = None.
Proof.
  revert i. induction on as [|x on IH]; intros [|i] H; cbn in *; try discriminate; auto.
  rewrite (IH i H). now destruct x.
Qed.
Lemma stop_some on i d : stop on i = Some d -> nth_error on d = Some false.
Proof.
  revert i d. induction on as [|x on IH]; intros i d H; cbn in H; [discriminate|].
  destruct x; destruct i as [|i].
  - destruct (stop on 0) as [e|] eqn:E; [|discriminate H]. injection H as <-. cbn. now apply (IH 0%nat).
  - destruct (stop on i) as [e|] eqn:E; [|discriminate H]. injection H as <-. cbn. now apply (IH i).
  - injection H as <-. reflexivity.
  - destruct (stop on i) as [e|] eqn:E; [|discriminate H]. injection H as <-. cbn. now apply (IH i).
Qed.

Lemma texts_at_app on lev d a b : texts_at on lev d (a ++ b) = texts_at on lev d a ++ texts_at on lev d b.
Proof. unfold texts_at. now rewrite filter_app, map_app. Qed.
Lemma calls_of_app j a b : calls_of j (a ++ b) = calls_of j a ++ calls_of j b.
Proof. unfold calls_of. now rewrite filter_app, map_app. Qed.

(* ------------------------------------------------------------ the invariant *)
Definition pc_ok (on : list bool) (lev : N -> nat) (t : lthread) : Prop :=
  match lt_pc t with
  | LIdle => True
  | LAt i => exists l p r, lt_calls t = (l, p) :: r /\ stop on i = stop on (lev l)
  | LCopy i _ => exists l p r, lt_calls t = (l, p) :: r /\ stop on (lev l) = Some i
  end.

Record linv (on : list bool) (lev : N -> nat) (ps : list (list lcall)) (tr : list (nat * lcall)) (w : lworld) : Prop := {
  li_on : map lb_on (lw_chain w) = on;
  li_sink : lw_sink w = texts_at on lev None tr;
  li_calls : forall j t, nth_error (lw_threads w) j = Some t ->
     nth_error ps j = Some (calls_of j tr ++ lt_calls t);
  li_count : length (lw_threads w) = length ps;
  li_pc : forall j t, nth_error (lw_threads w) j = Some t -> pc_ok on lev t;
  li_mutex : forall j j' t t' l, nth_error (lw_threads w) j = Some t -> nth_error (lw_threads w) j' = Some t' ->
     holds l t = true -> holds l t' = true -> j = j'
}.

Lemma linv_start on lev ps : linv on lev ps [] (lstart on ps).
Proof.
  assert (forall j t, nth_error (map (fun p => mk_lthread p LIdle) ps) j = Some t ->
    exists p, nth_error ps j = Some p /\ t = mk_lthread p LIdle) as A.
  { intros j t H. rewrite nth_error_map in H. destruct (nth_error ps j) as [p|]; [|discriminate H].
    injection H as <-. eauto. }
  split; cbn [lstart lw_chain lw_threads lw_sink].
  - rewrite map_map. cbn. now rewrite map_id.
  - reflexivity.
  - intros j t H. destruct (A j t H) as (p & E & ->). exact E.
  - now rewrite map_length.
  - intros j t H. destruct (A j t H) as (p & E & ->). exact I.
  - intros j j' t t' l H H' K. destruct (A j t H) as (p & E & ->). discriminate K.
Qed.

(* A thread moves within its call. *)
Lemma linv_move on lev ps tr pre post l p r c c' ch sk :
  linv on lev ps tr (mk_lworld (pre ++ mk_lthread ((l, p) :: r) c :: post) ch sk) ->
  c' <> LIdle -> pc_ok on lev (mk_lthread ((l, p) :: r) c') ->
  (c = LIdle -> existsb (holds l) (pre ++ post) = false) ->
  linv on lev ps tr (mk_lworld (pre ++ mk_lthread ((l, p) :: r) c' :: post) ch sk).
Proof.
  intros [A B C D E F] Hc Hp Hf. cbn [lw_threads lw_chain lw_sink] in *.
  set (t := mk_lthread ((l, p) :: r) c) in *. set (t2 := mk_lthread ((l, p) :: r) c').
  split; cbn [lw_threads lw_chain lw_sink]; auto.
  - intros j u H. destruct (Nat.eq_dec j (length pre)) as [->|N].
    + rewrite nth_mid in H. injection H as <-. apply (C _ t). apply nth_mid.
    + rewrite (nth_mid_ne pre t2 t post j N) in H. now apply C.
  - rewrite app_length in *. cbn [length] in *. exact D.
  - intros j u H. destruct (Nat.eq_dec j (length pre)) as [->|N].
    + rewrite nth_mid in H. now injection H as <-.
    + rewrite (nth_mid_ne pre t2 t post j N) in H. eauto.
  - assert (forall j u m, j <> length pre -> nth_error (pre ++ t2 :: post) j = Some u ->
      holds m t2 = true -> holds m u = true -> False) as G.
    { intros j u m N H K K'.
      assert (m = l) as -> by (unfold holds in K; cbn in K; destruct c'; [congruence| |];
        apply N.eqb_eq in K; auto).
      destruct c as [|i|i n].
      - specialize (Hf eq_refl). pose proof (nth_mid_in pre t2 post j u N H) as In_.
        assert (existsb (holds l) (pre ++ post) = true) as X by (apply existsb_exists; eauto). congruence.
      - rewrite (nth_mid_ne pre t2 t post j N) in H.
        apply N. apply (F j (length pre) u t l H (nth_mid _ _ _) K'). cbn. apply N.eqb_refl.
      - rewrite (nth_mid_ne pre t2 t post j N) in H.
        apply N. apply (F j (length pre) u t l H (nth_mid _ _ _) K'). cbn. apply N.eqb_refl. }
    intros j j' u u' m H H' K K'.
    destruct (Nat.eq_dec j (length pre)) as [->|N]; destruct (Nat.eq_dec j' (length pre)) as [->|N']; auto.
    + rewrite nth_mid in H. injection H as <-. destruct (G j' u' m N' H' K K').
    + rewrite nth_mid in H'. injection H' as <-. destruct (G j u m N H K' K).
    + rewrite (nth_mid_ne pre t2 t post j N) in H. rewrite (nth_mid_ne pre t2 t post j' N') in H'. eauto.
Qed.

(* A thread finishes its call. *)
Lemma linv_finish on lev ps tr pre post l p r c ch sk ch' sk' :
  linv on lev ps tr (mk_lworld (pre ++ mk_lthread ((l, p) :: r) c :: post) ch sk) ->
  map lb_on ch' = map lb_on ch -> sk' = sk ++ texts_at on lev None [(length pre, (l, p))] ->
  linv on lev ps (tr ++ [(length pre, (l, p))]) (mk_lworld (pre ++ mk_lthread r LIdle :: post) ch' sk').
Proof.
  intros [A B C D E F] Ho Hs. cbn [lw_threads lw_chain lw_sink] in *.
  set (t := mk_lthread ((l, p) :: r) c) in *. set (t2 := mk_lthread r LIdle).
  split; cbn [lw_threads lw_chain lw_sink].
  - congruence.
  - now rewrite texts_at_app, Hs, B.
  - intros j u H. rewrite calls_of_app. destruct (Nat.eq_dec j (length pre)) as [->|N].
    + rewrite nth_mid in H. injection H as <-. rewrite (C _ t (nth_mid _ _ _)).
      unfold calls_of at 3. cbn [filter fst map]. rewrite Nat.eqb_refl. cbn [map snd lt_calls t t2].
      now rewrite <- app_assoc.
    + rewrite (nth_mid_ne pre t2 t post j N) in H. rewrite (C _ _ H).
      unfold calls_of at 3. cbn [filter fst map].
      destruct (Nat.eqb_spec (length pre) j) as [X|X]; [congruence|]. cbn [map]. now rewrite app_nil_r.
  - rewrite app_length in *. cbn [length] in *. exact D.
  - intros j u H. destruct (Nat.eq_dec j (length pre)) as [->|N].
    + rewrite nth_mid in H. injection H as <-. exact I.
    + rewrite (nth_mid_ne pre t2 t post j N) in H. eauto.
  - intros j j' u u' m H H' K K'.
    destruct (Nat.eq_dec j (length pre)) as [->|N]; destruct (Nat.eq_dec j' (length pre)) as [->|N']; auto.
    + rewrite nth_mid in H. injection H as <-. discriminate K.
    + rewrite nth_mid in H'. injection H' as <-. discriminate K'.
    + rewrite (nth_mid_ne pre t2 t post j N) in H. rewrite (nth_mid_ne pre t2 t post j' N') in H'. eauto.
Qed.

Lemma on_nth on ch i b : map lb_on ch = on -> nth_error ch i = Some b -> nth_error on i = Some (lb_on b).
Proof. intros <- H. now rewrite nth_error_map, H. Qed.
Lemma on_none on ch i : map lb_on ch = on -> nth_error ch i = None -> nth_error on i = None.
Proof. intros <- H. now rewrite nth_error_map, H. Qed.

Lemma text_here on lev j l p d : texts_at on lev d [(j, (l, p))] =
  if onat_eqb (stop on (lev l)) d then [p] else [].
Proof. unfold texts_at. cbn [filter fst snd]. now destruct (onat_eqb _ d). Qed.

Lemma linv_step on lev ps tr w e w' : linv on lev ps tr w -> lstep lev w e w' -> linv on lev ps (tr ++ e) w'.
Proof.
  intros V S. destruct S as [pre post l p r ch sk Hf|pre post l p r i b ch sk Hn Ho|pre post l p r i ch sk Hn|
      pre post l p r i b ch sk Hn Ho|pre post l p r i m b ch sk Hn]; rewrite ?app_nil_r.
  - eapply linv_move; eauto; [discriminate|]. cbn. eauto 10.
  - pose proof (li_on _ _ _ _ _ V) as O. pose proof (li_pc _ _ _ _ _ V _ _ (nth_mid _ _ _)) as P.
    cbn in O, P. destruct P as (l' & p' & r' & Q & P). injection Q as <- <- <-.
    eapply linv_move; eauto; [discriminate| |discriminate]. cbn. exists l, p, r. split; [reflexivity|].
    rewrite <- P. apply stop_next. rewrite <- Ho. now apply (on_nth on ch).
  - pose proof (li_on _ _ _ _ _ V) as O. pose proof (li_pc _ _ _ _ _ V _ _ (nth_mid _ _ _)) as P.
    cbn in O, P. destruct P as (l' & p' & r' & Q & P). injection Q as <- <- <-.
    eapply linv_finish; eauto. rewrite text_here, <- P, (stop_end on i (on_none on ch i O Hn)). reflexivity.
  - pose proof (li_on _ _ _ _ _ V) as O. pose proof (li_pc _ _ _ _ _ V _ _ (nth_mid _ _ _)) as P.
    cbn in O, P. destruct P as (l' & p' & r' & Q & P). injection Q as <- <- <-.
    eapply linv_move; eauto; [discriminate| |discriminate]. cbn. exists l, p, r. split; [reflexivity|].
    rewrite <- P. apply stop_off. rewrite <- Ho. now apply (on_nth on ch).
  - pose proof (li_pc _ _ _ _ _ V _ _ (nth_mid _ _ _)) as P.
    cbn in P. destruct P as (l' & p' & r' & Q & P). injection Q as <- <- <-.
    eapply linv_finish; eauto; [now apply (chain_set_on i b)|].
    rewrite text_here, P. cbn. now rewrite app_nil_r.
Qed.

Lemma linv_steps on lev ps tr w : lsteps lev (lstart on ps) tr w -> linv on lev ps tr w.
Proof.
  intro S. remember (lstart on ps) as w0 eqn:E. induction S as [w|w tr w' e w'' S IH T].
  - subst. apply linv_start.
  - eapply linv_step; eauto.
Qed.

(* ------------------------------------------------------------ one writer at a time *)
(* Calls of different goroutines that end up in buffer [i] use the same logger. *)
Definition one_logger (on : list bool) (lev : N -> nat) (ps : list (list lcall)) (i : nat) : Prop :=
  forall j j' q q' l l' p p', j <> j' -> nth_error ps j = Some q -> nth_error ps j' = Some q' ->
    In (l, p) q -> In (l', p') q' -> stop on (lev l) = Some i -> stop on (lev l') = Some i -> l = l'.

Record binv (on : list bool) (lev : N -> nat) (i : nat) (tr : list (nat * lcall)) (w : lworld) : Prop := {
  bi_buf : forall b, nth_error (lw_chain w) i = Some b ->
     lb_array b = concat (texts_at on lev (Some i) tr) /\ lb_len b = len (lb_array b);
  bi_copy : forall j t m b, nth_error (lw_threads w) j = Some t -> lt_pc t = LCopy i m ->
     nth_error (lw_chain w) i = Some b -> m = lb_len b
}.

Lemma binv_start on lev i ps : binv on lev i [] (lstart on ps).
Proof.
  split; cbn [lstart lw_chain lw_threads].
  - intros b H. rewrite nth_error_map in H. destruct (nth_error on i); [|discriminate H].
    injection H as <-. split; reflexivity.
  - intros j t m b H K. rewrite nth_error_map in H. destruct (nth_error ps j); [|discriminate H].
    injection H as <-. discriminate K.
Qed.

Lemma only_copier on lev ps i tr w j j' t t' m m' :
  one_logger on lev ps i -> linv on lev ps tr w ->
  nth_error (lw_threads w) j = Some t -> nth_error (lw_threads w) j' = Some t' ->
  lt_pc t = LCopy i m -> lt_pc t' = LCopy i m' -> j = j'.
Proof.
  intros O V H H' K K'. destruct (Nat.eq_dec j j') as [E|N]; [exact E|exfalso].
  pose proof (li_pc _ _ _ _ _ V _ _ H) as P. pose proof (li_pc _ _ _ _ _ V _ _ H') as P'.
  unfold pc_ok in P, P'. rewrite K in P. rewrite K' in P'.
  destruct P as (l & p & r & C & S). destruct P' as (l' & p' & r' & C' & S').
  pose proof (li_calls _ _ _ _ _ V _ _ H) as A. pose proof (li_calls _ _ _ _ _ V _ _ H') as A'.
  rewrite C in A. rewrite C' in A'.
  assert (l = l') as <-.
  { apply (O j j' _ _ l l' p p' N A A'); auto; apply in_or_app; right; now left. }
  apply N. apply (li_mutex _ _ _ _ _ V j j' t t' l H H'); unfold holds; rewrite ?K, ?K', ?C, ?C'; apply N.eqb_refl.
Qed.

Lemma binv_move on lev i tr pre post t t2 ch sk :
  binv on lev i tr (mk_lworld (pre ++ t :: post) ch sk) ->
  (forall m b, lt_pc t2 = LCopy i m -> nth_error ch i = Some b -> m = lb_len b) ->
  binv on lev i tr (mk_lworld (pre ++ t2 :: post) ch sk).
Proof.
  intros [A B] H. cbn [lw_chain lw_threads] in *. split; cbn [lw_chain lw_threads]; [exact A|].
  intros j u m b N K L. destruct (Nat.eq_dec j (length pre)) as [->|Hj].
  - rewrite nth_mid in N. injection N as <-. eauto.
  - rewrite (nth_mid_ne pre t2 t post j Hj) in N. eauto.
Qed.

Lemma binv_step on lev ps i tr w e w' : one_logger on lev ps i -> linv on lev ps tr w ->
  binv on lev i tr w -> lstep lev w e w' -> binv on lev i (tr ++ e) w'.
Proof.
  intros O V B S. destruct S as [pre post l p r ch sk Hf|pre post l p r k b ch sk Hn Ho|pre post l p r k ch sk Hn|
      pre post l p r k b ch sk Hn Ho|pre post l p r k m b ch sk Hn]; rewrite ?app_nil_r.
  - eapply binv_move; eauto. discriminate.
  - eapply binv_move; eauto. discriminate.
  - pose proof (li_on _ _ _ _ _ V) as On. pose proof (li_pc _ _ _ _ _ V _ _ (nth_mid _ _ _)) as P.
    cbn in On, P. destruct P as (l' & p' & r' & Q & P). injection Q as <- <- <-.
    assert (binv on lev i (tr ++ [(length pre, (l, p))]) (mk_lworld (pre ++ mk_lthread ((l, p) :: r) (LAt k) :: post) ch sk)) as B'.
    { destruct B as [B1 B2]. split; [|exact B2]. intros b H. rewrite texts_at_app, text_here, <- P,
        (stop_end on k (on_none on ch k On Hn)). cbn [onat_eqb]. rewrite app_nil_r. now apply B1. }
    destruct (binv_move on lev i _ pre post _ (mk_lthread r LIdle) ch sk B') as [C1 C2]; [discriminate|].
    split; [exact C1|exact C2].
  - eapply binv_move; eauto. cbn. intros m b' Q H. injection Q as -> <-. congruence.
  - pose proof (li_pc _ _ _ _ _ V _ _ (nth_mid _ _ _)) as P.
    cbn in P. destruct P as (l' & p' & r' & Q & P). injection Q as <- <- <-.
    assert (k < length ch)%nat as Hk by (apply nth_error_Some; congruence).
    destruct (Nat.eq_dec k i) as [->|Hne].
    + pose proof (bi_buf _ _ _ _ _ B b Hn) as [B1 B2].
      pose proof (bi_copy _ _ _ _ _ B _ _ m b (nth_mid _ _ _) eq_refl Hn) as ->.
      split; cbn [lw_chain lw_threads].
      * intros b' H. rewrite chain_set_same in H by exact Hk. injection H as <-. cbn [lb_copy lb_array lb_len].
        rewrite texts_at_app, text_here, P. cbn [onat_eqb]. rewrite Nat.eqb_refl, concat_app, <- B1.
        cbn [concat]. rewrite app_nil_r.
        replace (takeN (lb_len b) (lb_array b)) with (lb_array b) by (rewrite B2; symmetry; apply takeN_all; lia).
        replace (dropN (lb_len b + len p) (lb_array b)) with (@nil N) by (symmetry; apply dropN_all; lia).
        rewrite app_nil_r. split; [reflexivity|]. rewrite len_app. lia.
      * intros j t n b' H K _. destruct (Nat.eq_dec j (length pre)) as [->|Hj].
        -- rewrite nth_mid in H. injection H as <-. discriminate K.
        -- rewrite (nth_mid_ne pre _ (mk_lthread ((l, p) :: r) (LCopy i (lb_len b))) post j Hj) in H.
           exfalso. apply Hj.
           exact (only_copier on lev ps i tr _ j (length pre) t _ n (lb_len b) O V H (nth_mid _ _ _) K eq_refl).
    + destruct B as [B1 B2]. cbn [lw_chain lw_threads] in *. split; cbn [lw_chain lw_threads].
      * intros b' H. rewrite chain_set_other in H by exact Hne.
        rewrite texts_at_app, text_here, P. cbn [onat_eqb].
        destruct (Nat.eqb_spec k i); [congruence|]. rewrite app_nil_r. now apply B1.
      * intros j t n b' H K H'. rewrite chain_set_other in H' by exact Hne.
        destruct (Nat.eq_dec j (length pre)) as [->|Hj].
        -- rewrite nth_mid in H. injection H as <-. discriminate K.
        -- rewrite (nth_mid_ne pre _ (mk_lthread ((l, p) :: r) (LCopy k m)) post j Hj) in H. eauto.
Qed.

Lemma binv_steps on lev ps i tr w : one_logger on lev ps i ->
  lsteps lev (lstart on ps) tr w -> binv on lev i tr w.
Proof.
  intros O S. remember (lstart on ps) as w0 eqn:E. induction S as [w|w tr w' e w'' S IH T].
  - subst. apply binv_start.
  - subst. eapply binv_step; eauto. now apply linv_steps.
Qed.

(* ------------------------------------------------------------ progress *)
Lemma never_stuck on lev ps tr w : lsteps lev (lstart on ps) tr w ->
  at_rest w \/ exists e w', lstep lev w e w'.
Proof.
  intro S. pose proof (linv_steps _ _ _ _ _ S) as V. destruct w as [ts ch sk].
  destruct (existsb (fun t => match lt_pc t with LIdle => false | _ => true end) ts) eqn:X.
  - apply existsb_exists in X. destruct X as (t & I & Y). apply in_split in I. destruct I as (pre & post & ->).
    pose proof (li_pc _ _ _ _ _ V _ _ (nth_mid _ _ _)) as P. pose proof (li_on _ _ _ _ _ V) as On. cbn in On.
    destruct t as [cs pc]. unfold pc_ok in P. cbn in P, Y. right. destruct pc as [|i|i m]; [discriminate Y| |].
    + destruct P as (l & p & r & -> & _). destruct (nth_error ch i) as [b|] eqn:E.
      * destruct (lb_on b) eqn:F; do 2 eexists; [now apply (LNext lev) with (b := b)|now apply (LLen lev) with (b := b)].
      * do 2 eexists. now apply (LOut lev).
    + destruct P as (l & p & r & -> & Q). apply stop_some in Q. rewrite <- On, nth_error_map in Q.
      destruct (nth_error ch i) as [b|] eqn:E; [|discriminate Q]. do 2 eexists. now apply (LDone lev) with (b := b).
  - assert (forall t, In t ts -> lt_pc t = LIdle) as Id.
    { intros t I. destruct (lt_pc t) eqn:E; auto; exfalso;
        (assert (existsb (fun t => match lt_pc t with LIdle => false | _ => true end) ts = true) as Z
          by (apply existsb_exists; exists t; split; [exact I|now rewrite E])); congruence. }
    destruct (existsb (fun t => match lt_calls t with [] => false | _ => true end) ts) eqn:Y.
    + right. apply existsb_exists in Y. destruct Y as (t & I & Y). pose proof (Id t I) as Ht.
      apply in_split in I. destruct I as (pre & post & ->). destruct t as [cs pc]. cbn in Ht, Y. subst pc.
      destruct cs as [|[l p] r]; [discriminate Y|]. do 2 eexists. apply (LLock lev).
      destruct (existsb (holds l) (pre ++ post)) eqn:Z; [exfalso|reflexivity].
      apply existsb_exists in Z. destruct Z as (u & J & K). unfold holds in K. rewrite (Id u) in K; [discriminate K|].
      apply in_app_or in J. apply in_or_app. destruct J; [now left|right; now right].
    + left. apply Forall_forall. intros t I. split; [|now apply Id].
      destruct (lt_calls t) eqn:E; [reflexivity|exfalso].
      assert (existsb (fun t => match lt_calls t with [] => false | _ => true end) ts = true) as Z
        by (apply existsb_exists; exists t; split; [exact I|now rewrite E]). cbn [lw_threads] in *. congruence.
Qed.

Lemma rest_calls on lev ps tr w : lsteps lev (lstart on ps) tr w -> at_rest w ->
  forall j, calls_of j tr = nth j ps [].
Proof.
  intros S R j. pose proof (linv_steps _ _ _ _ _ S) as V.
  destruct (nth_error (lw_threads w) j) as [t|] eqn:E.
  - pose proof (li_calls _ _ _ _ _ V _ _ E) as C. unfold at_rest in R. rewrite Forall_forall in R.
    destruct (R t (nth_error_In _ _ E)) as [Z _]. rewrite Z, app_nil_r in C. symmetry. now apply nth_error_nth.
  - apply nth_error_None in E. rewrite (li_count _ _ _ _ _ V) in E. rewrite nth_overflow by exact E.
    clear R. remember (lstart on ps) as w0 eqn:E0. induction S as [w|w tr w' e w'' S IH T]; [reflexivity|].
    subst. pose proof (linv_steps _ _ _ _ _ S) as V'. rewrite calls_of_app, IH by auto. cbn [app].
    pose proof (li_count _ _ _ _ _ V') as L.
    assert (forall x, In x e -> fst x <> j) as G.
    { destruct T; cbn [In]; intros x Hx; try contradiction; destruct Hx as [<-|[]]; cbn [fst];
        cbn [lw_threads] in L; rewrite app_length in L; cbn [length] in L; lia. }
    unfold calls_of. clear -G. induction e as [|x e IH]; [reflexivity|]. cbn [filter].
    destruct (Nat.eqb_spec (fst x) j) as [X|X]; [destruct (G x (or_introl eq_refl) X)|].
    apply IH. intros y Hy. apply G. now right.
Qed.
