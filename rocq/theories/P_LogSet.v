(* Logging while outputs are set. *)
From Verif Require Import Base M_LogSet S_LogSet.
From Coq Require Import Lia Permutation.
Open Scope N_scope.

Lemma line_dec (x y : line) : {x = y} + {x <> y}.
Proof. decide equality; [apply list_eq_dec, N.eq_dec|apply Nat.eq_dec]. Qed.

Definition cnt (x : line) (l : list line) : nat := count_occ line_dec l x.
Lemma cnt_app x a b : cnt x (a ++ b) = (cnt x a + cnt x b)%nat.
Proof. apply count_occ_app. Qed.
Lemma cnt_nil x : cnt x [] = 0%nat.
Proof. reflexivity. Qed.
Lemma cnt_in x l : In x l <-> (cnt x l > 0)%nat.
Proof. apply count_occ_In. Qed.

Definition lines_of (o : option writing) : list line := match o with Some w => wt_lines w | None => [] end.

(* ------------------------------------------------- no line is made, doubled or dropped *)
Lemma set_nth_lines x i w o ws : nth_error ws i = Some w ->
  (cnt x (flat_map wt_lines (set_nth i o ws)) + cnt x (wt_lines w) = cnt x (flat_map wt_lines ws) + cnt x (lines_of o))%nat.
Proof.
  intro E. destruct (nth_error_split _ _ E) as (a & b & -> & L). unfold set_nth. subst i.
  rewrite firstn_app, firstn_all, Nat.sub_diag. cbn [firstn]. rewrite app_nil_r.
  replace (skipn (S (length a)) (a ++ w :: b)) with b.
  2:{ rewrite skipn_app. rewrite (skipn_all2 a) by lia. replace (S (length a) - length a)%nat with 1%nat by lia. reflexivity. }
  rewrite !flat_map_app. cbn [flat_map]. destruct o as [w'|]; cbn [flat_map app lines_of]; rewrite ?app_nil_r, !cnt_app, ?cnt_nil; lia.
Qed.

Definition level_of (p : wpc) : nat := match p with Decide l | Keep l => l end.
Definition pc_ok (p : wpc) : Prop := match p with Decide l => (l <= 4)%nat | Keep l => (l <= 3)%nat end.
Definition sane (s : lset) : Prop :=
  Forall (fun w => pc_ok (wt_pc w)) (lg_writers s) /\ Forall (fun j => (j <= 3)%nat) (lg_todo s) /\
  match lg_pc s with Pass w => pc_ok (wt_pc w) | _ => True end /\ (lg_todo s = [] -> lg_pc s = Test).

Lemma kept_upd x s f k l : (k <= 3)%nat -> lg_buf s = upd f k l ->
  (cnt x (kept s) + cnt x (f k) = cnt x (f 0%nat ++ f 1%nat ++ f 2%nat ++ f 3%nat) + cnt x l)%nat.
Proof.
  intros K E. unfold kept. rewrite E. unfold upd.
  destruct k as [|[|[|[|k]]]]; cbn [Nat.eqb]; rewrite !cnt_app; lia.
Qed.

Lemma write_lines x s w s' o : pc_ok (wt_pc w) -> write_step s w = (s', o) ->
  (cnt x (lg_shown s') + cnt x (kept s') + cnt x (lines_of o) = cnt x (lg_shown s) + cnt x (kept s) + cnt x (wt_lines w))%nat /\
  lg_writers s' = lg_writers s /\ lg_todo s' = lg_todo s /\ lg_pc s' = lg_pc s /\ lg_on s' = lg_on s /\
  match o with Some w' => pc_ok (wt_pc w') | None => True end.
Proof.
  unfold write_step. destruct w as [ls [l|l]]; cbn [wt_pc wt_lines pc_ok]; intros K E.
  - destruct (Nat.eqb_spec l 4) as [->|N4].
    + injection E as <- <-. cbn [lg_shown lg_writers lg_todo lg_pc lg_on lines_of]. rewrite cnt_app, cnt_nil. unfold kept. cbn [lg_buf]. split; [lia|auto 8].
    + destruct (lg_on s l); injection E as <- <-; cbn [lines_of wt_lines wt_pc pc_ok]; (split; [lia|]); repeat (split; [reflexivity|]); lia.
  - injection E as <- <-. cbn [lg_shown lg_writers lg_todo lg_pc lg_on lines_of]. rewrite cnt_nil.
    match goal with |- context [kept ?t] => pose proof (kept_upd x t (lg_buf s) l (lg_buf s l ++ ls) K eq_refl) as H end.
    rewrite (cnt_app x (lg_buf s l) ls) in H. change (lg_buf s 0 ++ _) with (kept s) in H. split; [lia|auto 8].
Qed.

Definition total (x : line) (s : lset) : nat := (cnt x (lg_shown s) + cnt x (kept s) + cnt x (under_way s) + cnt x (in_hand s))%nat.

Lemma nth_Forall {A} (P : A -> Prop) l i x : Forall P l -> nth_error l i = Some x -> P x.
Proof. intros F E. rewrite Forall_forall in F. apply F. eapply nth_error_In; eauto. Qed.

Lemma set_nth_Forall {A} (P : A -> Prop) i o l : Forall P l -> match o with Some x => P x | None => True end -> Forall P (set_nth i o l).
Proof.
  intros F H. unfold set_nth. rewrite <- (firstn_skipn i l) in F. apply Forall_app in F. destruct F as (F1 & F2).
  apply Forall_app. split; [exact F1|]. apply Forall_app. split; [destruct o; auto|].
  rewrite <- (firstn_skipn 1 (skipn i l)) in F2. apply Forall_app in F2. destruct F2 as (_ & F2).
  revert F2. generalize l. clear. induction i as [|i IH]; intros l; [exact (fun x => x)|]. destruct l as [|a l]; [cbn; auto|]. cbn [skipn]. exact (IH l).
Qed.

Lemma levels_ok c : Forall (fun j => (j <= 3)%nat) (levels c).
Proof.
  destruct c as [|l]; [repeat constructor|]. cbn [levels].
  destruct (l <=? 0), (l <=? 1), (l <=? 2); cbn [app]; repeat constructor; lia.
Qed.

Lemma step_total x s l s' : sane s -> ls_step s l = Some s' ->
  sane s' /\ total x s' = (total x s + cnt x (begun [l]))%nat.
Proof.
  intros (S1 & S2 & S3 & S4) E. destruct l as [y lv|i|c|n]; cbn [ls_step] in E.
  - destruct (Nat.leb_spec lv 3); [|discriminate]. injection E as <-. split.
    + split; [apply Forall_app; split; [exact S1|constructor; [cbn; lia|constructor]]|]. split; [exact S2|split; [exact S3|exact S4]].
    + unfold total, under_way, with_writers, kept, in_hand. cbn [lg_shown lg_buf lg_writers lg_pc begun flat_map app]. rewrite flat_map_app, !cnt_app.
      cbn [flat_map app wt_lines]. lia.
  - destruct (nth_error (lg_writers s) i) as [w|] eqn:N; [|discriminate]. cbn [obind] in E.
    destruct (write_step s w) as [s1 o] eqn:W. injection E as <-.
    destruct (write_lines x s w s1 o (nth_Forall _ _ _ _ S1 N) W) as (H1 & H2 & H3 & H4 & H5 & H6). split.
    + split; [cbn [with_writers lg_writers]; now apply set_nth_Forall|]. unfold with_writers. cbn [lg_todo lg_pc]. rewrite H3, H4. auto.
    + pose proof (set_nth_lines x i w o _ N) as H. unfold total, under_way, with_writers, in_hand. cbn [lg_shown lg_writers lg_pc begun flat_map]. rewrite H4, cnt_nil.
      unfold kept in *. cbn [lg_buf] in *. lia.
  - destruct (lg_todo s) eqn:T; [|discriminate]. injection E as <-. split; [split; [exact S1|]; split; [apply levels_ok|split; [exact I|reflexivity]]|].
    unfold total, under_way, kept, in_hand. cbn [lg_shown lg_buf lg_writers lg_pc begun flat_map]. rewrite (S4 eq_refl), !cnt_nil. lia.
  - destruct (lg_todo s) as [|j rest] eqn:T; [discriminate|]. pose proof (Forall_inv S2) as Hj. pose proof (Forall_inv_tail S2) as Hr. cbn beta in Hj.
    cbn [begun flat_map]. rewrite cnt_nil. unfold total, in_hand. destruct (lg_pc s) as [|got|w|] eqn:P.
    + injection E as <-. unfold with_pc, sane, under_way, kept. cbn [lg_shown lg_buf lg_writers lg_pc lg_todo]. rewrite T.
      split; [split; [exact S1|]; split; [exact S2|]; split; [now destruct (lg_buf s j)|discriminate]|]. destruct (lg_buf s j); cbn [wt_lines]; rewrite ?cnt_nil; lia.
    + destruct (lg_buf s j) as [|y b] eqn:B; injection E as <-.
      * unfold with_pc, sane, under_way, kept. cbn [lg_shown lg_buf lg_writers lg_pc lg_todo wt_pc wt_lines pc_ok]. rewrite T.
        split; [split; [exact S1|]; split; [exact S2|]; split; [lia|discriminate]|lia].
      * unfold sane, under_way. cbn [lg_shown lg_writers lg_pc lg_todo]. split; [split; [exact S1|]; split; [exact S2|]; split; [exact I|discriminate]|].
        match goal with |- context [kept ?t] => pose proof (kept_upd x t (lg_buf s) j (skipn n b) Hj eq_refl) as H end.
        change (lg_buf s 0 ++ _) with (kept s) in H. rewrite B in H. pose proof (cnt_app x (firstn (S n) (y :: b)) (skipn (S n) (y :: b))) as H'. rewrite firstn_skipn in H'. change (skipn (S n) (y :: b)) with (skipn n b) in H'. change (firstn (S n) (y :: b)) with (y :: firstn n b) in H'. rewrite (cnt_app x got). lia.
    + destruct (write_step s w) as [s1 o] eqn:W. injection E as <-.
      destruct (write_lines x s w s1 o S3 W) as (H1 & H2 & H3 & H4 & H5 & H6). unfold sane, with_pc, under_way, kept in *.
      cbn [lg_shown lg_buf lg_writers lg_pc lg_todo]. rewrite H2, H3, T.
      split; [split; [exact S1|]; split; [exact S2|]; split; [destruct o; auto|discriminate]|]. destruct o; cbn [lines_of] in H1; rewrite ?cnt_nil in *; lia.
    + injection E as <-. unfold sane, under_way, kept. cbn [lg_shown lg_buf lg_writers lg_pc lg_todo].
      split; [split; [exact S1|]; split; [exact Hr|]; split; [exact I|reflexivity]|]. rewrite cnt_nil. lia.
Qed.

Lemma begun_cons l ls : begun (l :: ls) = begun [l] ++ begun ls.
Proof. unfold begun. cbn [flat_map]. now rewrite app_nil_r. Qed.

Lemma run_total x ls : forall s s', sane s -> ls_run s ls = Some s' ->
  sane s' /\ total x s' = (total x s + cnt x (begun ls))%nat.
Proof.
  induction ls as [|l ls IH]; intros s s' S R; cbn [ls_run] in R; [injection R as <-; split; [exact S|]; cbn; lia|].
  destruct (ls_step s l) as [s1|] eqn:E; [|discriminate]. cbn [obind] in R.
  destruct (step_total x _ _ _ S E) as (S1 & T1). destruct (IH _ _ S1 R) as (S2 & T2). split; [exact S2|].
  rewrite begun_cons, cnt_app. lia.
Qed.

Lemma sane0 : sane lset0.
Proof. split; [constructor|]. split; [constructor|]. split; [exact I|reflexivity]. Qed.

Theorem conserved ls s : ls_run lset0 ls = Some s ->
  Permutation (begun ls) (lg_shown s ++ kept s ++ under_way s ++ in_hand s).
Proof.
  intro R. apply (Permutation_count_occ line_dec). intro x. destruct (run_total x _ _ _ sane0 R) as (_ & T).
  change (cnt x (begun ls) = cnt x (lg_shown s ++ kept s ++ under_way s ++ in_hand s)). rewrite !cnt_app.
  unfold total at 2 in T. cbn in T. unfold total in T. lia.
Qed.

Lemma run_app a : forall s b, ls_run s (a ++ b) = let! s1 := ls_run s a in ls_run s1 b.
Proof. induction a as [|l a IH]; intros s b; cbn [ls_run app]; [reflexivity|]. destruct (ls_step s l); cbn [obind]; auto. Qed.

(* ------------------------------------------------- lines kept before a call are passed on *)
Fixpoint covers (on : nat -> bool) (todo : list nat) : Prop :=
  match todo with
  | [] => True
  | j :: rest => (j <= 3)%nat /\ (forall m, (j < m <= 3)%nat -> In m rest \/ on m = true) /\ covers on rest
  end.

Lemma covers_more on on' todo : (forall m, on m = true -> on' m = true) -> covers on todo -> covers on' todo.
Proof. intro H. induction todo as [|j r IH]; cbn [covers]; [auto|]. intros (A0 & A & B). split; [exact A0|]. split; [|auto]. intros m M. destruct (A m M); auto. Qed.

Definition waits (s : lset) : list nat := match lg_pc s with Test | Read _ => lg_todo s | _ => tl (lg_todo s) end.

Definition found (s : lset) (x : line) : Prop :=
  In x (lg_shown s) \/ In x (in_hand s) \/ exists m, In m (waits s) /\ In x (lg_buf s m).

Definition passing (s : lset) : Prop :=
  covers (lg_on s) (lg_todo s) /\
  match lg_pc s, lg_todo s with
  | Pass (mk_writing _ (Decide m)), j :: _ => (j < m <= 4)%nat
  | Pass (mk_writing _ (Keep m)), _ :: rest => In m rest
  | _, _ => True
  end.

Lemma write_found s w s' o x : write_step s w = (s', o) ->
  (In x (lg_shown s) -> In x (lg_shown s')) /\ (forall m, In x (lg_buf s m) -> In x (lg_buf s' m)).
Proof.
  unfold write_step. intro E. destruct (wt_pc w) as [l|l].
  - destruct (Nat.eqb l 4); [injection E as <- _; cbn [lg_shown lg_buf]; split; [intro; apply in_or_app; now left|auto]|].
    destruct (lg_on s l); injection E as <- _; auto.
  - injection E as <- _. cbn [lg_shown lg_buf]. split; [auto|]. intros m Im. unfold upd. destruct (Nat.eqb_spec m l) as [->|]; [apply in_or_app; now left|exact Im].
Qed.

Lemma found_step x s l s' : passing s -> found s x -> ls_step s l = Some s' -> (forall c, l <> LCall c) -> passing s' /\ found s' x.
Proof.
  intros (C & P) F E Nc. destruct l as [y lv|i|c|n]; cbn [ls_step] in E.
  - destruct (Nat.leb lv 3); [|discriminate]. injection E as <-. split; [split; assumption|exact F].
  - destruct (nth_error (lg_writers s) i) as [w|] eqn:N; [|discriminate]. cbn [obind] in E.
    destruct (write_step s w) as [s1 o] eqn:W. injection E as <-. destruct (write_found _ _ _ _ x W) as (F1 & F2).
    assert (lg_todo s1 = lg_todo s /\ lg_pc s1 = lg_pc s /\ lg_on s1 = lg_on s) as (A & B & D).
    { unfold write_step in W. destruct (wt_pc w) as [l|l]; [destruct (Nat.eqb l 4); [|destruct (lg_on s l)]|]; injection W as <- _; auto. }
    unfold passing, found, in_hand, waits, with_writers in *. cbn [lg_on lg_todo lg_pc lg_shown lg_buf]. rewrite A, B, D. split; [split; assumption|].
    destruct F as [F|[F|(m & M1 & M2)]]; [left; auto|auto|right; right; exists m; auto].
  - now destruct (Nc c).
  - destruct (lg_todo s) as [|j rest] eqn:T; [discriminate|]. destruct C as (C0 & C1 & C2). unfold passing, found, in_hand, waits in *. rewrite T in F.
    destruct (lg_pc s) as [|got|w|] eqn:Q.
    + injection E as <-. unfold with_pc. cbn [lg_on lg_todo lg_pc lg_shown lg_buf]. rewrite T. split; [split; [exact (conj C0 (conj C1 C2))|destruct (lg_buf s j); exact I]|].
      destruct F as [F|[[]|(m & M1 & M2)]]; [now left|]. right; right. exists m. split; [|exact M2].
      destruct (lg_buf s j) eqn:B; [|exact M1]. destruct M1 as [<-|M1]; [rewrite B in M2; destruct M2|exact M1].
    + destruct (lg_buf s j) as [|y b] eqn:B; injection E as <-.
      * unfold with_pc. cbn [lg_on lg_todo lg_pc lg_shown lg_buf wt_lines]. rewrite T. split; [split; [exact (conj C0 (conj C1 C2))|lia]|].
        destruct F as [F|[F|(m & M1 & M2)]]; [now left|right; now left|]. right; right. exists m. split; [|exact M2].
        destruct M1 as [<-|M1]; [rewrite B in M2; destruct M2|exact M1].
      * cbn [lg_on lg_todo lg_pc lg_shown lg_buf]. try rewrite T. split; [split; [exact (conj C0 (conj C1 C2))|exact I]|].
        destruct F as [F|[F|(m & M1 & M2)]]; [now left|right; left; apply in_or_app; now left|].
        destruct (Nat.eq_dec m j) as [->|Nj].
        -- rewrite B in M2. rewrite <- (firstn_skipn (S n) (y :: b)) in M2. apply in_app_or in M2. destruct M2 as [M2|M2].
           ++ right; left. apply in_or_app. now right.
           ++ right; right. exists j. split; [now left|]. unfold upd. now rewrite Nat.eqb_refl.
        -- right; right. exists m. split; [exact M1|]. unfold upd. destruct (Nat.eqb_spec m j); [contradiction|exact M2].
    + destruct (write_step s w) as [s1 o] eqn:W. injection E as <-. destruct (write_found _ _ _ _ x W) as (F1 & F2).
      assert (lg_todo s1 = j :: rest /\ lg_on s1 = lg_on s) as (A & D).
      { unfold write_step in W. destruct (wt_pc w) as [l|l]; [destruct (Nat.eqb l 4); [|destruct (lg_on s l)]|]; injection W as <- _; auto. }
      unfold with_pc. cbn [lg_on lg_todo lg_pc lg_shown lg_buf]. rewrite A, D. cbn [tl] in *.
      destruct w as [wl [m|m]]; unfold write_step in W; cbn [wt_pc wt_lines] in *.
      * destruct (Nat.eqb_spec m 4) as [->|N4].
        -- injection W as <- <-. cbn [lg_shown lg_buf] in *. split; [split; [exact (conj C0 (conj C1 C2))|exact I]|].
           destruct F as [F|[F|(k & M1 & M2)]]; [left; auto|left; apply in_or_app; now right|right; right; exists k; auto].
        -- destruct (lg_on s m) eqn:O; injection W as <- <-.
           ++ split; [split; [exact (conj C0 (conj C1 C2))|lia]|]. cbn [wt_lines]. destruct F as [F|[F|F]]; auto.
           ++ split; [split; [exact (conj C0 (conj C1 C2))|]|cbn [wt_lines]; destruct F as [F|[F|F]]; auto].
              destruct (C1 m ltac:(lia)) as [H|H]; [exact H|congruence].
      * injection W as <- <-. cbn [lg_shown lg_buf] in *. split; [split; [exact (conj C0 (conj C1 C2))|exact I]|].
        destruct F as [F|[F|(k & M1 & M2)]]; [left; auto| |right; right; exists k; auto].
        right; right. exists m. split; [exact P|]. unfold upd. rewrite Nat.eqb_refl. apply in_or_app. now right.
    + injection E as <-. cbn [lg_on lg_todo lg_pc lg_shown lg_buf]. cbn [tl] in F.
      split; [split; [eapply covers_more; [|exact C2]|exact I]|].
      * intros m M. unfold upd. destruct (Nat.eqb m j); auto.
      * destruct F as [F|[[]|F]]; auto.
Qed.

Lemma found_run x ls : forall s s', passing s -> found s x -> ls_run s ls = Some s' -> calls ls = [] -> passing s' /\ found s' x.
Proof.
  induction ls as [|l ls IH]; intros s s' P F R N; cbn [ls_run] in R; [injection R as <-; auto|].
  destruct (ls_step s l) as [s1|] eqn:E; [|discriminate]. cbn [obind] in R.
  assert (forall c, l <> LCall c) as Nc by (intros c ->; discriminate).
  destruct (found_step x _ _ _ P F E Nc) as (P1 & F1). eapply IH; eauto. destruct l; try exact N. discriminate.
Qed.

Theorem call_passes s1 c ls s2 k x : lg_todo s1 = [] -> ls_run s1 (LCall c :: ls) = Some s2 -> calls ls = [] -> lg_todo s2 = [] -> lg_pc s2 = Test ->
  (c = COutput \/ lg_on s1 3 = true) -> In k (levels c) -> In x (lg_buf s1 k) -> In x (lg_shown s2).
Proof.
  intros T R N T2 Q H K I. cbn [ls_run ls_step] in R. rewrite T in R. cbn [obind] in R.
  match type of R with ls_run ?a _ = _ => assert (passing a) as Pa; [|assert (found a x) as Fa] end.
  - split; [|exact Logic.I]. cbn [lg_on lg_todo]. destruct c as [|l]; [split; [lia|]; split; [intros m M; lia|exact Logic.I]|].
    destruct H as [H|H]; [discriminate|]. cbn [levels].
    destruct (N.leb_spec l 0), (N.leb_spec l 1), (N.leb_spec l 2); try lia; cbn [app covers In];
    repeat match goal with |- _ /\ _ => split end; try exact Logic.I; try lia; intros m M; assert (m = 1 \/ m = 2 \/ m = 3)%nat as [->|[->| ->]] by lia; auto; lia.
  - right; right. exists k. split; [exact K|exact I].
  - destruct (found_run x _ _ _ Pa Fa R N) as (_ & F). unfold found, in_hand, waits in F. rewrite Q, T2 in F. destruct F as [F|[[]|(m & [] & _)]]. exact F.
Qed.

(* ------------------------------------------------- lines begun when the outputs are set *)
Definition on_from (k : nat) (s : lset) : Prop := forall m, (k <= m <= 3)%nat -> lg_on s m = true.
Definition direct (k : nat) (x : line) (s : lset) : Prop :=
  on_from k s /\ ~ In x (kept s) /\ ~ In x (in_hand s) /\
  Forall (fun w => In x (wt_lines w) -> exists m, wt_pc w = Decide m /\ (k <= m)%nat) (lg_writers s).

Lemma upd_more on j m : on m = true -> upd on j true m = true.
Proof. intro H. unfold upd. now destruct (Nat.eqb m j). Qed.

Lemma not_kept x s : ~ In x (kept s) <-> forall m, (m <= 3)%nat -> ~ In x (lg_buf s m).
Proof.
  unfold kept. rewrite !in_app_iff. split.
  - intros H m M I. apply H. assert (m = 0 \/ m = 1 \/ m = 2 \/ m = 3)%nat as [->|[->|[->| ->]]] by lia; auto.
  - intros H [I|[I|[I|I]]]; [apply (H 0%nat)|apply (H 1%nat)|apply (H 2%nat)|apply (H 3%nat)]; auto; lia.
Qed.

Lemma write_direct k x s w s' o : on_from k s -> ~ In x (kept s) -> pc_ok (wt_pc w) ->
  (In x (wt_lines w) -> exists m, wt_pc w = Decide m /\ (k <= m)%nat) -> write_step s w = (s', o) ->
  ~ In x (kept s') /\ lg_on s' = lg_on s /\ lg_pc s' = lg_pc s /\ lg_todo s' = lg_todo s /\
  match o with Some w' => In x (wt_lines w') -> exists m, wt_pc w' = Decide m /\ (k <= m)%nat | None => True end.
Proof.
  intros On K Pc H E. destruct w as [wl [m|m]]; unfold write_step in E; cbn [wt_pc wt_lines pc_ok] in *.
  - destruct (Nat.eqb_spec m 4) as [->|N4]; [injection E as <- <-; auto|].
    destruct (lg_on s m) eqn:O; injection E as <- <-; cbn [wt_lines wt_pc]; repeat (split; [assumption || reflexivity|]).
    + intro Hi. destruct (H Hi) as (m' & [= <-] & L). exists (S m). split; [reflexivity|lia].
    + intro Hi. destruct (H Hi) as (m' & [= <-] & L). rewrite On in O by lia. discriminate.
  - injection E as <- <-. split; [|auto]. apply not_kept. cbn [lg_buf]. rewrite not_kept in K. intros l L. unfold upd.
    destruct (Nat.eqb_spec l m) as [->|]; [|now apply K]. rewrite in_app_iff. intros [I|I]; [now apply (K m)|].
    destruct (H I) as (m' & [=] & _).
Qed.

Lemma direct_step k x s l s' : sane s -> direct k x s -> ls_step s l = Some s' -> (forall lv, l = LBegin x lv -> (k <= lv)%nat) -> direct k x s'.
Proof.
  intros (S1 & S2 & S3 & _) (On & K & H & W) E B. destruct l as [y lv|i|c|n]; cbn [ls_step] in E.
  - destruct (Nat.leb_spec lv 3); [|discriminate]. injection E as <-. repeat (split; [assumption|]). cbn [with_writers lg_writers].
    apply Forall_app. split; [exact W|]. constructor; [|constructor]. cbn [wt_lines wt_pc In]. intros [->|[]]. exists lv. split; [reflexivity|]. now apply B.
  - destruct (nth_error (lg_writers s) i) as [w|] eqn:N; [|discriminate]. cbn [obind] in E.
    destruct (write_step s w) as [s1 o] eqn:Ew. injection E as <-.
    destruct (write_direct k x s w s1 o On K (nth_Forall _ _ _ _ S1 N) (nth_Forall _ _ _ _ W N) Ew) as (D1 & D2 & D3 & D4 & D5).
    unfold direct, on_from, in_hand, with_writers in *. cbn [lg_on lg_pc lg_writers]. rewrite D2, D3.
    split; [exact On|]. split; [exact D1|]. split; [exact H|]. apply set_nth_Forall; [exact W|exact D5].
  - destruct (lg_todo s); [|discriminate]. injection E as <-. split; [exact On|]. split; [exact K|]. split; [intros []|exact W].
  - destruct (lg_todo s) as [|j rest] eqn:T; [discriminate|]. pose proof (Forall_inv S2) as Hj. cbn beta in Hj. unfold direct, in_hand in *. destruct (lg_pc s) as [|got|w|] eqn:Q.
    + injection E as <-. unfold with_pc. cbn [lg_pc lg_writers]. repeat (split; [assumption|]). split; [destruct (lg_buf s j); intros []|exact W].
    + destruct (lg_buf s j) as [|y b] eqn:Bj; injection E as <-.
      * unfold with_pc. cbn [lg_pc lg_writers wt_lines]. repeat (split; [assumption|]). exact W.
      * cbn [lg_pc lg_writers]. split; [exact On|]. rewrite not_kept in K. pose proof (K j Hj) as Kj. rewrite Bj in Kj.
        change (y :: firstn n b) with (firstn (S n) (y :: b)). rewrite <- (firstn_skipn (S n) (y :: b)), in_app_iff in Kj.
        split; [apply not_kept; cbn [lg_buf]; intros m M; unfold upd; destruct (Nat.eqb_spec m j); [intro I; apply Kj; now right|now apply K]|].
        split; [|exact W]. rewrite in_app_iff. intros [I|I]; [now apply H|apply Kj; now left].
    + destruct (write_step s w) as [s1 o] eqn:Ew. injection E as <-.
      destruct (write_direct k x s w s1 o On K S3 ltac:(intro I; now destruct (H I)) Ew) as (D1 & D2 & D3 & D4 & _).
      assert (lg_writers s1 = lg_writers s /\ match o with Some w' => wt_lines w' = wt_lines w | None => True end) as (Ws & Wl).
      { unfold write_step in Ew. destruct (wt_pc w) as [l|l]; [destruct (Nat.eqb l 4); [|destruct (lg_on s l)]|]; injection Ew as <- <-; auto. }
      unfold with_pc, on_from. cbn [lg_on lg_pc lg_writers]. rewrite D2, Ws. split; [exact On|]. split; [exact D1|].
      split; [|exact W]. destruct o as [w'|]; [now rewrite Wl|intros []].
    + injection E as <-. split; [intros m M; cbn [lg_on]; apply upd_more; now apply On|]. split; [exact K|]. split; [intros []|exact W].
Qed.

Lemma sane_step s l s' : sane s -> ls_step s l = Some s' -> sane s'.
Proof. intros S E. exact (proj1 (step_total (0%nat, []) _ _ _ S E)). Qed.

Theorem direct_run k x ls : forall s s', sane s -> direct k x s -> ls_run s ls = Some s' -> (forall lv, In (LBegin x lv) ls -> (k <= lv)%nat) -> direct k x s'.
Proof.
  induction ls as [|l ls IH]; intros s s' S D R B; cbn [ls_run] in R; [now injection R as <-|].
  destruct (ls_step s l) as [s1|] eqn:E; [|discriminate]. cbn [obind] in R.
  eapply IH; [eapply sane_step; eauto| |exact R|intros lv I; apply B; now right].
  eapply direct_step; eauto. intros lv ->. apply B. now left.
Qed.

(* ------------------------------------------------- lines left behind *)
Lemma left_step x k s l s' : ~ In k (lg_todo s) -> In x (lg_buf s k) -> ls_step s l = Some s' -> (forall c, l = LCall c -> ~ In k (levels c)) ->
  ~ In k (lg_todo s') /\ In x (lg_buf s' k).
Proof.
  intros T I E C. destruct l as [y lv|i|c|n]; cbn [ls_step] in E.
  - destruct (Nat.leb lv 3); [|discriminate]. injection E as <-. auto.
  - destruct (nth_error (lg_writers s) i) as [w|] eqn:N; [|discriminate]. cbn [obind] in E.
    destruct (write_step s w) as [s1 o] eqn:W. injection E as <-. destruct (write_found _ _ _ _ x W) as (_ & F2). split; [|now apply F2].
    unfold write_step in W. destruct (wt_pc w) as [l|l]; [destruct (Nat.eqb l 4); [|destruct (lg_on s l)]|]; injection W as <- _; exact T.
  - destruct (lg_todo s); [|discriminate]. injection E as <-. split; [now apply C|exact I].
  - destruct (lg_todo s) as [|j rest] eqn:Td; [discriminate|]. destruct (lg_pc s) as [|got|w|].
    + injection E as <-. unfold with_pc. cbn [lg_todo lg_buf]. rewrite Td. auto.
    + destruct (lg_buf s j) eqn:B; injection E as <-; unfold with_pc; cbn [lg_todo lg_buf]; [rewrite Td; auto|]. split; [exact T|].
      unfold upd. destruct (Nat.eqb_spec k j) as [->|]; [exfalso; apply T; now left|exact I].
    + destruct (write_step s w) as [s1 o] eqn:W. injection E as <-. destruct (write_found _ _ _ _ x W) as (_ & F2). split; [|now apply F2].
      unfold with_pc. cbn [lg_todo].
      unfold write_step in W. destruct (wt_pc w) as [l|l]; [destruct (Nat.eqb l 4); [|destruct (lg_on s l)]|]; injection W as <- _; cbn [lg_todo]; rewrite Td; exact T.
    + injection E as <-. cbn [lg_todo lg_buf]. split; [intro H; apply T; now right|exact I].
Qed.

Lemma left_run x k ls : forall s s', ~ In k (lg_todo s) -> In x (lg_buf s k) -> ls_run s ls = Some s' -> (forall c, In c (calls ls) -> ~ In k (levels c)) ->
  In x (lg_buf s' k).
Proof.
  induction ls as [|l ls IH]; intros s s' T I R C; cbn [ls_run] in R; [now injection R as <-|].
  destruct (ls_step s l) as [s1|] eqn:E; [|discriminate]. cbn [obind] in R.
  destruct (left_step x k _ _ _ T I E) as (T1 & I1); [intros c ->; apply C; now left|].
  eapply IH; eauto. intros c Ic. apply C. unfold calls in *. cbn [flat_map]. apply in_or_app. now right.
Qed.

Lemma run_sane ls s : ls_run lset0 ls = Some s -> sane s.
Proof. intro R. exact (proj1 (run_total (0%nat, []) _ _ _ sane0 R)). Qed.

Theorem left_behind ls ls' s s' x k : ls_run lset0 ls = Some s -> NoDup (map fst (begun (ls ++ ls'))) -> (k <= 3)%nat ->
  ~ In k (lg_todo s) -> In x (lg_buf s k) -> ls_run s ls' = Some s' -> (forall c, In c (calls ls') -> ~ In k (levels c)) ->
  ~ In x (lg_shown s').
Proof.
  intros R N K T I R' C J. pose proof (left_run x k _ _ _ T I R' C) as I'.
  assert (ls_run lset0 (ls ++ ls') = Some s') as Ra by (rewrite run_app, R; exact R').
  destruct (run_total x _ _ _ sane0 Ra) as (_ & Tt). unfold total in Tt. cbn [lset0 lg_shown] in Tt. cbn in Tt.
  assert (In x (kept s')) as Ik by (unfold kept; rewrite !in_app_iff; assert (k = 0 \/ k = 1 \/ k = 2 \/ k = 3)%nat as [->|[->|[->| ->]]] by lia; auto).
  apply cnt_in in Ik. apply cnt_in in J.
  assert (NoDup (begun (ls ++ ls'))) as Nb by (eapply NoDup_map_inv; exact N). rewrite (NoDup_count_occ line_dec) in Nb. specialize (Nb x).
  change (count_occ line_dec (begun (ls ++ ls')) x) with (cnt x (begun (ls ++ ls'))) in Nb. lia.
Qed.
