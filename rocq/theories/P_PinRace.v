(* Counting the guesses. *)
From Coq Require Import Permutation.
From Verif Require Import Base M_HidConc M_PinRace S_PinRace.
Local Open Scope nat_scope.

(* ---- the triangle ---- *)

(* D (v + 1) m is (v + m) choose v. *)
Fixpoint D (v m : nat) {struct v} : nat :=
  match v with
  | O => match m with O => 1 | S _ => 0 end
  | S v' => (fix go m := match m with O => 1 | S m' => D v' (S m') + go m' end) m
  end.

Lemma D_0 v : D v 0 = 1. Proof. destruct v; reflexivity. Qed.
Lemma D_pascal v m : D (S v) (S m) = D v (S m) + D (S v) m. Proof. reflexivity. Qed.
Lemma D_mono v m : D (S v) m <= D (S v) (S m). Proof. rewrite D_pascal. lia. Qed.
Lemma D_pos v m : 1 <= D (S v) m.
Proof. induction m as [|m IH]. now rewrite D_0. rewrite D_pascal. lia. Qed.
Lemma D_1 m : D 1 m = 1.
Proof. induction m as [|m IH]. reflexivity. rewrite D_pascal, IH. reflexivity. Qed.

Lemma choose_gt n : forall k, n < k -> choose n k = 0.
Proof.
  induction n as [|n IH]; intros [|k] L; cbn; try lia.
  rewrite !IH by lia. reflexivity.
Qed.
Lemma choose_nn n : choose n n = 1.
Proof. induction n as [|n IH]; cbn. reflexivity. rewrite IH, choose_gt by lia. reflexivity. Qed.
Lemma choose_S n k : choose (S n) (S k) = choose n k + choose n (S k). Proof. reflexivity. Qed.
Lemma choose_0 n : choose n 0 = 1. Proof. destruct n; reflexivity. Qed.
Lemma D_choose c : forall m, D (S c) m = choose (c + m) c.
Proof.
  induction c as [|c IH]; intro m.
  - rewrite D_1, choose_0. reflexivity.
  - induction m as [|m IHm].
    + rewrite D_0, Nat.add_0_r, choose_nn. reflexivity.
    + rewrite D_pascal, IHm, IH. cbn [Nat.add]. rewrite choose_S.
      rewrite Nat.add_succ_r. reflexivity.
Qed.

(* ---- what can still be got out of the values in hand ---- *)

Fixpoint W (k : nat) (l : list nat) : nat :=
  match l with [] => 0 | x :: r => D x k + W (k - 1) r end.

Definition big (l : list nat) : Prop := Forall (fun v => 1 <= v) l.

Lemma W_mono l : big l -> forall k, W k l <= W (S k) l.
Proof.
  induction 1 as [|x r L F IH]; intro k. reflexivity.
  cbn [W]. destruct x as [|x]. lia. pose proof (D_mono x k).
  replace (S k - 1) with k by lia. destruct k as [|k].
  - cbn [Nat.sub]. lia.
  - replace (S k - 1) with k by lia. pose proof (IH k). lia.
Qed.

(* [shuffle w r rV]: r is rV with some copies of w put in between. *)
Inductive shuffle (w : nat) : list nat -> list nat -> Prop :=
| sh_nil : shuffle w [] []
| sh_copy r rV : shuffle w r rV -> shuffle w (w :: r) rV
| sh_keep e r rV : shuffle w r rV -> shuffle w (e :: r) (e :: rV).

Lemma shuffle_copies w r rV : shuffle w r rV -> big rV -> forall m, length r <= m ->
  D (S w) (m - length r) + W m r <= D (S w) m + W m rV.
Proof.
  induction 1 as [|r rV H IH|e r rV H IH]; intros B m L.
  - cbn. rewrite Nat.sub_0_r. lia.
  - cbn [length W] in *. destruct m as [|m]. lia.
    specialize (IH B m ltac:(lia)). rewrite D_pascal.
    replace (S m - S (length r)) with (m - length r) by lia.
    replace (S m - 1) with m by lia. pose proof (W_mono rV B m). lia.
  - cbn [length W] in *. destruct m as [|m]. lia. inversion_clear B as [|? ? B1 B2].
    specialize (IH B2 m ltac:(lia)). pose proof (D_mono w m).
    replace (S m - S (length r)) with (m - length r) by lia.
    replace (S m - 1) with m by lia. lia.
Qed.

Lemma shuffle_store w r rV : shuffle w r rV -> big rV -> forall m, length r <= m -> length rV < m ->
  exists l, Permutation l (S w :: rV) /\ D (S w) (m - length r) + W m r <= W m l.
Proof.
  induction 1 as [|r rV H IH|e r rV H IH]; intros B m L Lv.
  - exists [S w]. split. reflexivity. cbn. rewrite Nat.sub_0_r. lia.
  - exists (S w :: rV). split. reflexivity. cbn [length W] in *. destruct m as [|m]. lia.
    pose proof (shuffle_copies w r rV H B m ltac:(lia)) as Q.
    rewrite D_pascal. replace (S m - S (length r)) with (m - length r) by lia.
    replace (S m - 1) with m by lia. lia.
  - cbn [length W] in *. destruct m as [|m]. lia. inversion_clear B as [|? ? B1 B2].
    destruct (IH B2 m ltac:(lia) ltac:(lia)) as (l & P & Q).
    exists (e :: l). split. rewrite P. constructor.
    cbn [W]. replace (S m - S (length r)) with (m - length r) by lia.
    replace (S m - 1) with m by lia. lia.
Qed.

Lemma perm_shuffle w l : forall V n, Permutation l (V ++ repeat w n) ->
  exists V', Permutation V' V /\ shuffle w l V'.
Proof.
  induction l as [|e r IH]; intros V n P.
  - apply Permutation_nil in P. apply app_eq_nil in P as [-> _]. exists []. split; constructor.
  - assert (In e (V ++ repeat w n)) as I by (rewrite <- P; now left).
    apply in_app_or in I as [I|I].
    + apply in_split in I as (a & b & ->).
      assert (Permutation r ((a ++ b) ++ repeat w n)) as P'.
      { apply Permutation_cons_inv with (a := e). rewrite P. rewrite <- !app_assoc. cbn.
        symmetry. apply Permutation_middle. }
      destruct (IH _ _ P') as (V' & Q & S). exists (e :: V'). split.
      * rewrite Q. apply Permutation_middle.
      * now constructor.
    + assert (e = w) as -> by (eapply repeat_spec; exact I). destruct n as [|n]. now destruct I.
      assert (Permutation r (V ++ repeat w n)) as P'.
      { apply Permutation_cons_inv with (a := w). rewrite P. cbn. symmetry. apply Permutation_middle. }
      destruct (IH _ _ P') as (V' & Q & S). exists V'. split. exact Q. now constructor.
Qed.

(* ---- the invariant ---- *)

(* With at most k values in hand, V of them held and c in the counter, n stores done. *)
Definition budget (k : nat) (n c : nat) (V : list nat) : Prop :=
  forall x l, Permutation l (V ++ repeat c x) -> length l <= k ->
    n + D (S c) (k - length l) + W k l <= D 9 k.

Lemma budget_start k : budget k 0 8 [].
Proof.
  intros x l P L. cbn [app] in P. apply Permutation_repeat in P. subst l.
  rewrite repeat_length in *. cbn [Nat.add]. revert k L. induction x as [|x IH]; intros k L.
  - cbn [repeat W]. rewrite Nat.sub_0_r. lia.
  - destruct k as [|k]. lia. cbn [repeat W]. replace (S k - 1) with k by lia.
    replace (S k - S x) with (k - x) by lia. specialize (IH k ltac:(lia)). rewrite (D_pascal 8 k). lia.
Qed.

Lemma budget_perm k n c V V' : Permutation V V' -> budget k n c V -> budget k n c V'.
Proof. intros P H x l Q. apply (H x). rewrite P. exact Q. Qed.

Lemma budget_load k n c V : budget k n c V -> budget k n c (c :: V).
Proof.
  intros H x l P. apply (H (S x)). rewrite P. cbn. apply Permutation_middle.
Qed.

Lemma budget_store k n c v V : 1 <= v -> big V -> length V < k ->
  budget k n c (v :: V) -> budget k (S n) (v - 1) V.
Proof.
  intros Lv B LV H x l P L. destruct v as [|w]. lia. replace (S w - 1) with w in * by lia.
  destruct (perm_shuffle _ _ _ _ P) as (V' & Q & S).
  assert (big V') as B' by (unfold big; rewrite Q; exact B).
  assert (length V' < k) as LV' by now rewrite (Permutation_length Q).
  destruct (shuffle_store w l V' S B' k L LV') as (l' & P' & I).
  rewrite Q in P'. assert (length l' = Datatypes.S (length V)) as E by (now rewrite (Permutation_length P')).
  specialize (H 0 l'). cbn [repeat] in H. rewrite app_nil_r in H. specialize (H P' ltac:(lia)).
  pose proof (D_pos c (k - length l')). lia.
Qed.

Lemma budget_bound k n c V : length V <= k -> budget k n c V -> n + 1 <= D 9 k.
Proof.
  intros L H. specialize (H 0 V). cbn [repeat] in H. rewrite app_nil_r in H.
  specialize (H (Permutation_refl V) L). pose proof (D_pos c (k - length V)). lia.
Qed.

(* ---- the threads ---- *)

Definition holds (t : bool * guess_thread) : list nat := match snd t with G_store r => [r] | _ => [] end.
Definition past (t : bool * guess_thread) : list unit :=
  match snd t with G_compare | G_done false => [tt] | _ => [] end.
Definition held (s : pins) : list nat := flat_map holds (pn_threads s).
Definition stores (s : pins) : nat := length (flat_map past (pn_threads s)).
Definition wrongs (s : pins) : Prop :=
  Forall (fun t => fst t = false /\ snd t <> G_reset /\ snd t <> G_done true) (pn_threads s).

Lemma set_split {A} (l : list A) i x y : nth_error l i = Some y ->
  exists a b, l = a ++ y :: b /\ list_set i x l = a ++ x :: b /\ length a = i.
Proof.
  revert i. induction l as [|z l IH]; intros [|i] E; cbn in E; try discriminate.
  - injection E as ->. exists [], l. repeat split.
  - destruct (IH i E) as (a & b & -> & Q & L). exists (z :: a), b. cbn. rewrite Q, L. repeat split.
Qed.

Lemma held_le s : length (held s) <= in_flight s.
Proof.
  unfold held, in_flight. induction (pn_threads s) as [|[r t] l IH]. reflexivity.
  cbn [flat_map filter snd]. destruct t; cbn; lia.
Qed.

Lemma tried_le s : tried s <= stores s.
Proof.
  unfold tried, stores. induction (pn_threads s) as [|[r t] l IH]. reflexivity.
  cbn [flat_map filter snd]. destruct t as [| | | | |[]]; cbn; lia.
Qed.

Record counted (k : nat) (s : pins) : Prop := {
  ct_wrong : wrongs s;
  ct_big : big (held s);
  ct_budget : budget k (stores s) (pn_retries s) (held s)
}.

Lemma counted_start k : counted k pin_start.
Proof. split. constructor. constructor. apply budget_start. Qed.

Lemma flat_app {A B} (f : A -> list B) a b : flat_map f (a ++ b) = flat_map f a ++ flat_map f b.
Proof. apply flat_map_app. Qed.

Lemma counted_step k s e s' : counted k s -> in_flight s <= k -> e <> PArrive true ->
  pin_step s e = Some s' -> counted k s'.
Proof.
  intros C F N E. unfold pin_step in E. destruct (pn_dead s); [discriminate|].
  destruct C as [C1 C2 C3]. destruct e as [r|i].
  - injection E as <-. destruct r; [congruence|]. split; unfold wrongs, held, stores in *; cbn [pn_threads pn_retries].
    + apply Forall_app. split. exact C1. constructor; [|constructor]. cbn. repeat split; discriminate.
    + rewrite flat_app. cbn. rewrite app_nil_r. exact C2.
    + rewrite !flat_app. cbn. rewrite !app_nil_r. exact C3.
  - destruct (nth_error (pn_threads s) i) as [[r t]|] eqn:G; [|discriminate].
    assert (forall s'' t' c', pn_threads s'' = list_set i (r, t') (pn_threads s) -> pn_retries s'' = c' ->
      t' <> G_reset -> t' <> G_done true ->
      exists a b, pn_threads s = a ++ (r, t) :: b /\ wrongs s'' /\
        Permutation (held s) (holds (r, t) ++ flat_map holds (a ++ b)) /\
        Permutation (held s'') (holds (r, t') ++ flat_map holds (a ++ b)) /\
        stores s = length (past (r, t)) + length (flat_map past (a ++ b)) /\
        stores s'' = length (past (r, t')) + length (flat_map past (a ++ b))) as K.
    { intros s'' t' c' T R N1 N2. destruct (set_split (pn_threads s) i (r, t') (r, t) G) as (a & b & T1 & T2 & _).
      exists a, b. unfold wrongs, held, stores in *. rewrite T, T2, T1.
      rewrite T1 in C1. apply Forall_app in C1 as [Ca Cb]. inversion_clear Cb as [|? ? Cr Cb'].
      split; [reflexivity|]. split.
      { apply Forall_app. split. exact Ca. constructor; [|exact Cb']. cbn in *. intuition. }
      rewrite !flat_app. cbn [flat_map].
      split. { apply Permutation_app_swap_app. }
      split. { apply Permutation_app_swap_app. }
      rewrite !app_length. split; lia. }
    assert (r = false) as Rf.
    { unfold wrongs in C1. rewrite Forall_forall in C1. apply nth_error_In in G. now destruct (C1 _ G). }
    destruct t as [| |v| | |ok].
    + destruct (retries_ok (pn_retries s)).
      * injection E as <-. destruct (K (pin_goes s i r G_load) G_load _ eq_refl eq_refl) as (a & b & _ & Wr & H1 & H2 & S1 & S2); try discriminate.
        cbn [holds past snd app length Nat.add] in H1, H2, S1, S2. rewrite <- H1 in H2. split. exact Wr. unfold big. rewrite H2. exact C2.
        rewrite S2, <- S1. eapply budget_perm; [symmetry; exact H2|exact C3].
      * injection E as <-. split; assumption.
    + destruct (retries_ok (pn_retries s)) eqn:R.
      * injection E as <-. destruct (K (pin_goes s i r (G_store (pn_retries s))) (G_store (pn_retries s)) _ eq_refl eq_refl) as (a & b & _ & Wr & H1 & H2 & S1 & S2); try discriminate.
        cbn [holds past snd app length Nat.add] in H1, H2, S1, S2. rewrite <- H1 in H2. split. exact Wr.
        { unfold big. rewrite H2. constructor; [|exact C2]. unfold retries_ok in R.
          apply andb_true_iff in R as [R _]. apply Nat.ltb_lt in R. lia. }
        rewrite S2, <- S1. eapply budget_perm; [symmetry; exact H2|]. apply budget_load. exact C3.
      * injection E as <-. split; assumption.
    + injection E as <-. destruct (K (pin_sets s i r G_compare (v - 1)) G_compare _ eq_refl eq_refl) as (a & b & _ & Wr & H1 & H2 & S1 & S2); try discriminate.
      cbn [holds past snd app length Nat.add] in H1, H2, S1, S2. rewrite <- H2 in H1. unfold big in C2. rewrite H1 in C2.
      inversion_clear C2 as [|? ? V1 V2]. split. exact Wr. exact V2.
      rewrite S2, <- S1. cbn [pn_retries pin_sets]. eapply budget_store; [exact V1|exact V2| |].
      * pose proof (held_le s) as L. rewrite (Permutation_length H1) in L. cbn [length] in L. lia.
      * eapply budget_perm; [exact H1|exact C3].
    + subst r. injection E as <-. destruct (K (pin_goes s i false (G_done false)) (G_done false) _ eq_refl eq_refl) as (a & b & _ & Wr & H1 & H2 & S1 & S2); try discriminate.
      cbn [holds past snd app length Nat.add] in H1, H2, S1, S2. rewrite <- H1 in H2. split. exact Wr. unfold big. rewrite H2. exact C2.
      rewrite S2, <- S1. eapply budget_perm; [symmetry; exact H2|exact C3].
    + exfalso. unfold wrongs in C1. rewrite Forall_forall in C1. apply nth_error_In in G. now destruct (C1 _ G) as (_ & Q & _).
    + discriminate.
Qed.

Lemma pin_run_app l1 l2 s : pin_run (l1 ++ l2) s = match pin_run l1 s with Some s' => pin_run l2 s' | None => None end.
Proof. revert s. induction l1 as [|e l1 IH]; intro s. reflexivity. cbn. destruct (pin_step s e). apply IH. reflexivity. Qed.

Lemma counted_run k l s : all_wrong l -> crowd k l -> pin_run l pin_start = Some s -> counted k s.
Proof.
  revert s. induction l as [|e l IH] using rev_ind; intros s A C R.
  - injection R as <-. apply counted_start.
  - rewrite pin_run_app in R. destruct (pin_run l pin_start) as [s1|] eqn:R1; [|discriminate].
    cbn in R. destruct (pin_step s1 e) as [s2|] eqn:E; [|discriminate]. injection R as ->.
    eapply counted_step; [| | |exact E].
    + apply IH. { intro I. apply A, in_or_app. now left. }
      { intros l1 l2 t -> R. apply (C l1 (l2 ++ [e]) t). now rewrite app_assoc. exact R. } reflexivity.
    + exact (C l [e] s1 eq_refl R1).
    + intros ->. apply A, in_or_app. right. now left.
Qed.

Lemma guesses_bounded k l s : all_wrong l -> crowd k l -> pin_run l pin_start = Some s ->
  tried s + 1 <= choose (8 + k) 8.
Proof.
  intros A C R. pose proof (counted_run k l s A C R) as [_ _ B].
  pose proof (C l [] s (eq_sym (app_nil_r l)) R) as F. pose proof (held_le s). pose proof (tried_le s).
  assert (length (held s) <= k) as Lh by lia. pose proof (budget_bound k _ _ _ Lh B) as Q. rewrite D_choose in Q. cbn [Nat.add] in *. lia.
Qed.

(* ---- and the bound is reached ---- *)

(* A run of l from s in which never more than k requests are unanswered. *)
Inductive quiet (k : nat) : pins -> list pin_event -> pins -> Prop :=
| qu_nil s : in_flight s <= k -> quiet k s [] s
| qu_cons s e s1 l s2 : in_flight s <= k -> e <> PArrive true -> pin_step s e = Some s1 -> quiet k s1 l s2 ->
    quiet k s (e :: l) s2.

Lemma quiet_app k s l1 s1 l2 s2 : quiet k s l1 s1 -> quiet k s1 l2 s2 -> quiet k s (l1 ++ l2) s2.
Proof. induction 1; intro Q. exact Q. cbn. econstructor; eauto. Qed.

Lemma quiet_run k s l s' : quiet k s l s' -> pin_run l s = Some s'.
Proof. induction 1 as [|s e s1 l s2 F N E Q IH]. reflexivity. cbn. rewrite E. exact IH. Qed.

Lemma quiet_wrong k s l s' : quiet k s l s' -> all_wrong l.
Proof.
  induction 1 as [|s e s1 l s2 F N E Q IH]. intros []. intros [I|I]. congruence. now apply IH.
Qed.

Lemma quiet_crowd k s l s' : quiet k s l s' -> forall l1 l2 t, l = l1 ++ l2 -> pin_run l1 s = Some t -> in_flight t <= k.
Proof.
  induction 1 as [s F|s e s1 l s2 F N E Q IH]; intros l1 l2 t L R.
  - symmetry in L. apply app_eq_nil in L as [-> _]. injection R as <-. exact F.
  - destruct l1 as [|e' l1]. injection R as <-. exact F.
    injection L as <- ->. cbn in R. rewrite E in R. eapply IH. reflexivity. exact R.
Qed.

Definition settled (t : bool * guess_thread) : Prop := snd t = G_done false.

Lemma in_flight_settled c ts x d : Forall settled x -> in_flight (mk_pins c (ts ++ x) d) = in_flight (mk_pins c ts d).
Proof.
  intro F. unfold in_flight. cbn [pn_threads]. rewrite filter_app, app_length.
  replace (filter _ x) with (@nil (bool * guess_thread)). cbn; lia.
  induction F as [|[r t] l H F IH]. reflexivity. cbn in *. rewrite H. exact IH.
Qed.

Lemma set_last {A} (a b : list A) x y : list_set (length a) x (a ++ y :: b) = a ++ x :: b.
Proof. induction a as [|z a IH]; cbn. reflexivity. now rewrite IH. Qed.
Lemma nth_last {A} (a b : list A) y : nth_error (a ++ y :: b) (length a) = Some y.
Proof. induction a as [|z a IH]; cbn. reflexivity. exact IH. Qed.

Lemma fl_one c ts t x d : in_flight (mk_pins c (ts ++ (false, t) :: x) d) =
  (match t with G_done _ => 0 | _ => 1 end) + in_flight (mk_pins c (ts ++ x) d).
Proof.
  unfold in_flight. cbn [pn_threads]. rewrite !filter_app, !app_length. cbn [filter snd].
  destruct t; cbn [length]; lia.
Qed.
Lemma fl_retries c c' ts d d' : in_flight (mk_pins c ts d) = in_flight (mk_pins c' ts d').
Proof. reflexivity. Qed.
Lemma tr_app c ts x d : Forall settled x -> tried (mk_pins c (ts ++ x) d) = tried (mk_pins 0 ts false) + length x.
Proof.
  intro F. unfold tried. cbn [pn_threads]. rewrite filter_app, app_length. f_equal.
  induction F as [|[r t] l H F IH]. reflexivity. cbn in *. rewrite H. cbn. now rewrite IH.
Qed.

(* From a counter at c, with m places left, D (c + 1) m - 1 guesses can be had. *)
Ltac fl_norm := unfold in_flight in *; cbn [pn_threads] in *.

Lemma can_play k m : forall c ts, c <= 8 -> in_flight (mk_pins c ts false) + m <= k ->
  exists l x c', quiet k (mk_pins c ts false) l (mk_pins c' (ts ++ x) false) /\
    Forall settled x /\ length x + 1 = D (S c) m.
Proof.
  induction m as [|m IHm].
  { intros c ts Lc L. exists [], [], c. rewrite app_nil_r, D_0. split; [|split; [constructor|reflexivity]].
    constructor. lia. }
  induction c as [|c IHc]; intros ts Lc L.
  { exists [], [], 0. rewrite app_nil_r, D_1. split; [|split; [constructor|reflexivity]]. constructor. lia. }
  set (i := length ts).
  (* one more request comes in and loads the counter *)
  assert (retries_ok (S c) = true) as Rk.
  { unfold retries_ok. apply andb_true_iff. split. now apply Nat.ltb_lt; lia. now apply Nat.leb_le. }
  destruct (IHm (S c) (ts ++ [(false, G_store (S c))]) Lc) as (l1 & x1 & c1 & Q1 & F1 & N1).
  { rewrite fl_one, app_nil_r. fl_norm. lia. }
  rewrite <- app_assoc in Q1. cbn [app] in Q1.
  destruct (IHc (ts ++ (false, G_done false) :: x1) ltac:(lia)) as (l2 & x2 & c2 & Q2 & F2 & N2).
  { rewrite in_flight_settled by (constructor; [reflexivity|exact F1]). fl_norm. lia. }
  rewrite <- app_assoc in Q2. cbn [app] in Q2.
  exists ([PArrive false; PStep i; PStep i] ++ l1 ++ [PStep i; PStep i] ++ l2), ((false, G_done false) :: x1 ++ x2), c2.
  split; [|split].
  - apply quiet_app with (mk_pins (S c) (ts ++ (false, G_store (S c)) :: []) false).
    { apply qu_cons with (mk_pins (S c) (ts ++ (false, G_check) :: []) false); [lia|discriminate|reflexivity|].
      apply qu_cons with (mk_pins (S c) (ts ++ (false, G_load) :: []) false);
        [rewrite fl_one, app_nil_r; fl_norm; lia|discriminate| |].
      { cbn [pin_step pn_dead pn_threads pn_retries]. unfold i. rewrite nth_last. rewrite Rk. unfold pin_goes. cbn [pn_threads pn_retries pn_dead]. now rewrite set_last. }
      apply qu_cons with (mk_pins (S c) (ts ++ (false, G_store (S c)) :: []) false);
        [rewrite fl_one, app_nil_r; fl_norm; lia|discriminate| |].
      { cbn [pin_step pn_dead pn_threads pn_retries]. unfold i. rewrite nth_last. rewrite Rk. unfold pin_goes. cbn [pn_threads pn_retries pn_dead]. now rewrite set_last. }
      constructor. rewrite fl_one, app_nil_r; fl_norm; lia. }
    eapply quiet_app; [exact Q1|].
    eapply quiet_app; [|exact Q2].
    apply qu_cons with (mk_pins c (ts ++ (false, G_compare) :: x1) false); [|discriminate| |].
    { rewrite fl_one, in_flight_settled by exact F1. fl_norm. lia. }
    { cbn [pin_step pn_dead pn_threads pn_retries]. unfold i. rewrite nth_last. unfold pin_sets. cbn [pn_threads pn_retries pn_dead].
      rewrite set_last. replace (S c - 1) with c by lia. reflexivity. }
    apply qu_cons with (mk_pins c (ts ++ (false, G_done false) :: x1) false); [|discriminate| |].
    { rewrite fl_one, in_flight_settled by exact F1. fl_norm. lia. }
    { cbn [pin_step pn_dead pn_threads pn_retries]. unfold i. rewrite nth_last. unfold pin_goes. cbn [pn_threads pn_retries pn_dead]. now rewrite set_last. }
    constructor. rewrite fl_one, in_flight_settled by exact F1. fl_norm. lia.
  - constructor. reflexivity. apply Forall_app. now split.
  - cbn [length]. rewrite app_length. rewrite D_pascal. lia.
Qed.

Lemma guesses_reached k : exists l s, all_wrong l /\ crowd k l /\ pin_run l pin_start = Some s /\
  tried s + 1 = choose (8 + k) 8.
Proof.
  destruct (can_play k k 8 []) as (l & x & c' & Q & F & N). { reflexivity. } { cbn. lia. }
  exists l, (mk_pins c' x false). cbn [app] in Q. split; [|split; [|split]].
  - eapply quiet_wrong, Q.
  - intros l1 l2 s. exact (quiet_crowd _ _ _ _ Q l1 l2 s).
  - exact (quiet_run _ _ _ _ Q).
  - change x with ([] ++ x). rewrite tr_app by exact F. cbn [tried pn_threads filter length].
    replace (tried (mk_pins 0 [] false)) with 0 by reflexivity. rewrite D_choose in N. exact N.
Qed.

Lemma choose_grows k : k < choose (8 + k) 8.
Proof.
  rewrite <- D_choose. induction k as [|k IH]. rewrite D_0; lia.
  rewrite D_pascal. pose proof (D_pos 7 (S k)). lia.
Qed.
