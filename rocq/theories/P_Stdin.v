(* Proofs about the demo's questions. *)
From Verif Require Import Base M_Demo M_Stdin S_Demo S_Stdin P_Demo.

Lemma tty_ind (Inv : option tty -> list happened -> Prop) (ok : list happened -> Prop) :
  (forall a b, ok (a ++ b) -> ok a) ->
  (forall s past d s' h, Inv s past -> tty_step s d = Some (s', h) -> ok (past ++ h) -> Inv s' (past ++ h)) ->
  forall ds s past s' hs, Inv s past -> tty_run s ds = Some (s', hs) -> ok (past ++ hs) -> Inv s' (past ++ hs).
Proof.
  intros CL ST. induction ds as [|d r IH]; intros s past s' hs I R O; cbn [tty_run] in R.
  - injection R as <- <-. now rewrite app_nil_r.
  - destruct (tty_step s d) as [[s1 h]|] eqn:S; [|discriminate]. destruct (tty_run s1 r) as [[s2 h2]|] eqn:R2; [|discriminate].
    injection R as <- <-. rewrite app_assoc in *. eapply IH; eauto.
Qed.

Lemma typed_app a b : typed (a ++ b) = typed a ++ typed b. Proof. apply flat_map_app. Qed.
Lemma got_app a b : got (a ++ b) = got a ++ got b. Proof. apply flat_map_app. Qed.
Lemma answers_app a b : answers (a ++ b) = answers a ++ answers b. Proof. apply flat_map_app. Qed.

Lemma cut_some s x t : cut_line s = Some (x, t) -> s = x ++ t /\ one_line x.
Proof.
  revert x. induction s as [|b r IH]; intros x H; cbn [cut_line] in H; [discriminate|].
  destruct (b =? 10) eqn:B.
  - apply N.eqb_eq in B. subst b. injection H as <- <-. split; [reflexivity|]. exists []. split; [reflexivity|intros []].
  - apply N.eqb_neq in B. destruct (cut_line r) as [[l u]|]; [|discriminate]. injection H as <- <-.
    destruct (IH l eq_refl) as (-> & l' & -> & N). split; [reflexivity|]. exists (b :: l'). split; [reflexivity|]. intros [X|X]; auto.
Qed.
Lemma cut_none s : cut_line s = None -> ~ In 10 s.
Proof.
  induction s as [|b r IH]; cbn [cut_line]; intro H; [intros []|]. destruct (b =? 10) eqn:B; [discriminate|]. apply N.eqb_neq in B.
  destruct (cut_line r) as [[l u]|]; [discriminate|]. intros [X|X]; [congruence|now apply IH].
Qed.
Lemma one_line_app a x : ~ In 10 a -> one_line x -> one_line (a ++ x).
Proof.
  intros N (l & -> & M). exists (a ++ l). split; [now rewrite app_assoc|]. rewrite in_app_iff. tauto.
Qed.

(* ------------------------------------------------------------------ *)
Lemma one_question_app a b : one_question (a ++ b) -> one_question a.
Proof. intros H h1 k h2 ->. apply (H h1 k (h2 ++ b)). now rewrite <- app_assoc. Qed.
Lemma nothing_ahead_app a b : nothing_ahead (a ++ b) -> nothing_ahead a.
Proof. intros H h1 k h2 ->. apply (H h1 k (h2 ++ b)). now rewrite <- app_assoc. Qed.
Lemma stops_app a b : stops_at_lines (a ++ b) -> stops_at_lines a.
Proof. intros H k s I. apply (H k). apply in_app_iff. now left. Qed.

(* What was typed and not read is in the queue, and at most one question waits. *)
Definition single (t : tty) (hs : list happened) : Prop :=
  typed hs = got hs ++ ty_queue t /\
  ((ty_asked t = [] /\ asked hs = []) \/ exists k acc, ty_asked t = [(k, acc)] /\ asked hs = [k]).

Lemma asked_app a b : asked (a ++ b) = fold_left (fun l h => match h with
                        | Shown k => k :: l
                        | Answered k _ => filter (fun j => negb (j =? k)) l
                        | _ => l
                        end) b (asked a).
Proof. apply fold_left_app. Qed.

(* The steps of one question at a time. *)
Inductive one_step (t : tty) : option tty -> list happened -> Prop :=
| O_ask k : ty_asked t = [] -> one_step t (Some (mk_tty (ty_queue t) (ty_closed t) [(k, [])])) [Shown k]
| O_type x : one_step t (Some (mk_tty (ty_queue t ++ x) (ty_closed t) (ty_asked t))) [Typed x]
| O_close : one_step t (Some (mk_tty (ty_queue t) true (ty_asked t))) [Closed]
| O_line k acc x r q : ty_asked t = [(k, acc)] -> ty_queue t = (x ++ r) ++ q -> one_line x ->
    one_step t (Some (mk_tty q (ty_closed t) [])) [Got k (x ++ r); Answered k (answer (acc ++ x))]
| O_part k acc x q : ty_asked t = [(k, acc)] -> ty_queue t = x ++ q -> ~ In 10 x ->
    one_step t (Some (mk_tty q (ty_closed t) [(k, acc ++ x)])) [Got k x]
| O_die k acc : ty_asked t = [(k, acc)] -> one_step t None [Died k].

Lemma take_drop (q : bytes) n : q = takeN n q ++ dropN n q.
Proof. symmetry. apply firstn_skipn. Qed.

Lemma one_step_ok t past d s' h : single t past -> tty_step (Some t) d = Some (s', h) -> one_question (past ++ h) ->
  one_step t s' h /\ match s' with Some t' => single t' (past ++ h) | None => True end.
Proof.
  intros (Q & A) S O. destruct t as [q cl l]; cbn [ty_queue ty_closed ty_asked] in *.
  destruct d as [k|x|k n| |k]; cbn [tty_step] in S.
  - destruct (waiting k l); [discriminate|]. injection S as <- <-.
    assert (Z : asked past = []) by (apply (O past k []); reflexivity).
    assert (l = []) as -> by (destruct A as [[-> _]|(k0 & acc & _ & X)]; [reflexivity|congruence]).
    split; [apply O_ask; reflexivity|]. unfold single. rewrite typed_app, got_app, asked_app, Z. cbn. rewrite !app_nil_r.
    split; [assumption|]. right. eauto.
  - destruct cl; [discriminate|]. injection S as <- <-. split; [exact (O_type (mk_tty q false l) x)|].
    unfold single. rewrite typed_app, got_app, asked_app. cbn. rewrite !app_nil_r, Q, app_assoc. auto.
  - destruct (waiting k l) as [acc|] eqn:W; [|discriminate].
    destruct A as [[-> _]|(k0 & acc0 & -> & A)]; [discriminate W|]. cbn [waiting] in W. destruct (k0 =? k) eqn:K; [|discriminate].
    apply N.eqb_eq in K. subst k0. injection W as ->.
    destruct ((0 <? n) && (n <=? len q) && (n <=? room acc))%bool; [|discriminate].
    assert (WO : without k [(k, acc)] = []) by (unfold without; cbn; now rewrite N.eqb_refl).
    rewrite WO in S.
    destruct (cut_line (takeN n q)) as [[x r]|] eqn:C.
    + apply cut_some in C as (C & X). pose proof (take_drop q n) as T. rewrite C in T. injection S as <- <-. rewrite C.
      split; [apply (O_line (mk_tty q cl [(k, acc)]) k acc x r (dropN n q)); auto|].
      unfold single. rewrite typed_app, got_app, asked_app, A. cbn. rewrite N.eqb_refl, !app_nil_r. cbn. split; [|auto].
      rewrite Q. rewrite T at 1. now rewrite !app_assoc.
    + apply cut_none in C. pose proof (take_drop q n) as T. injection S as <- <-.
      split; [apply (O_part (mk_tty q cl [(k, acc)]) k acc (takeN n q) (dropN n q)); auto|].
      unfold single. rewrite typed_app, got_app, asked_app, A. cbn. rewrite !app_nil_r. split; [|right; eauto].
      rewrite Q. rewrite T at 1. now rewrite !app_assoc.
  - destruct cl; [discriminate|]. injection S as <- <-. split; [exact (O_close (mk_tty q false l))|].
    unfold single. rewrite typed_app, got_app, asked_app. cbn. rewrite !app_nil_r. auto.
  - destruct (waiting k l) as [acc|] eqn:W; [|discriminate]. destruct q; [|discriminate]. destruct cl; [|discriminate].
    injection S as <- <-. split; [|exact I].
    destruct A as [[-> _]|(k0 & acc0 & -> & A)]; [discriminate W|]. cbn [waiting] in W. destruct (k0 =? k) eqn:K; [|discriminate].
    apply N.eqb_eq in K. subst k0. eapply O_die. reflexivity.
Qed.

Lemma single0 : single tty0 [].
Proof. split; [reflexivity|left; split; reflexivity]. Qed.

(* An invariant of one question at a time. *)
Lemma single_ind (ok : list happened -> Prop) (Inv : tty -> list happened -> Prop) (Fin : list happened -> Prop) :
  (forall a b, ok (a ++ b) -> ok a) ->
  Inv tty0 [] ->
  (forall t hs, Inv t hs -> Fin hs) ->
  (forall t past s' h, single t past -> Inv t past -> one_step t s' h -> ok (past ++ h) ->
     match s' with Some t' => Inv t' (past ++ h) | None => Fin (past ++ h) end) ->
  forall ds s hs, tty_run (Some tty0) ds = Some (s, hs) -> one_question hs -> ok hs -> Fin hs.
Proof.
  intros CL I0 IF ST ds s hs R O K.
  refine (proj2 (tty_ind (fun s hs => (forall t, s = Some t -> single t hs /\ Inv t hs) /\ Fin hs)
    (fun hs => one_question hs /\ ok hs) _ _ ds (Some tty0) [] s hs _ R (conj O K))).
  - intros a b [X Y]. split; [now apply one_question_app in X|eauto].
  - intros s1 past d s' h [I F] S [X Y]. destruct s1 as [t|]; [|discriminate S].
    destruct (I t eq_refl) as [I1 I2]. destruct (one_step_ok _ _ _ _ _ I1 S X) as [P Q].
    specialize (ST _ _ _ _ I1 I2 P Y). destruct s' as [t'|].
    + split; [|eauto]. intros t2 [= <-]. auto.
    + split; [|assumption]. intros t2 H. discriminate H.
  - split; [|eauto]. intros t [= <-]. split; [apply single0|assumption].
Qed.

(* ------------------------------------------------------------------ *)
(* The n-th answer is that of the n-th line. *)
Definition acc_of (t : tty) : bytes := concat (map snd (ty_asked t)).

Lemma in_order ds s hs : tty_run (Some tty0) ds = Some (s, hs) -> one_question hs -> stops_at_lines hs ->
  exists ls, begins ls (typed hs) /\ answers hs = map answer ls.
Proof.
  apply (single_ind stops_at_lines (fun t hs => exists ls, Forall one_line ls /\ got hs = concat ls ++ acc_of t /\ ~ In 10 (acc_of t) /\
      answers hs = map answer ls /\ typed hs = got hs ++ ty_queue t)
    (fun hs => exists ls, begins ls (typed hs) /\ answers hs = map answer ls)).
  - exact stops_app.
  - exists []. split; [constructor|]. split; [reflexivity|]. split; [intros []|]. split; reflexivity.
  - clear. intros t hs (ls & F & G & _ & A & T). exists ls. split; [|assumption]. split; [assumption|]. rewrite T, G, <- app_assoc. eauto.
  - intros t past s' h (Q & _) (ls & F & G & NI & A & T) S O.
    assert (L : one_line [10]) by (exists []; split; [reflexivity|intros []]).
    inversion S; subst s' h; cbn [ty_queue ty_closed ty_asked].
    + exists ls. rewrite !typed_app, !got_app, !answers_app. unfold acc_of in *. rewrite H in *. cbn in *. rewrite !app_nil_r in *. auto.
    + exists ls. rewrite !typed_app, !got_app, !answers_app. unfold acc_of in *. cbn in *. rewrite !app_nil_r in *.
      rewrite Q, app_assoc. auto.
    + exists ls. rewrite !typed_app, !got_app, !answers_app. unfold acc_of in *. cbn in *. rewrite !app_nil_r in *. auto.
    + assert (r = []) as ->.
      { destruct H1 as (y & -> & _). apply (O k (((y ++ [10]) ++ r))) with (a := y); [apply in_app_iff; right; now left|].
        rewrite <- app_assoc. reflexivity. }
      unfold acc_of in *. rewrite H in *. cbn [map snd concat] in *. rewrite app_nil_r in *.
      exists (ls ++ [acc ++ x]). rewrite !typed_app, !got_app, !answers_app, A. cbn. rewrite !app_nil_r.
      split; [apply Forall_app; split; [assumption|constructor; [now apply one_line_app|constructor]]|].
      split; [rewrite concat_app, G; cbn; now rewrite app_nil_r, <- app_assoc|]. split; [intros []|].
      split; [now rewrite map_app|]. rewrite Q, H0. now rewrite app_assoc.
    + unfold acc_of in *. rewrite H in *. cbn [map snd concat] in *. rewrite app_nil_r in *.
      exists ls. rewrite !typed_app, !got_app, !answers_app. cbn. rewrite !app_nil_r.
      split; [assumption|]. split; [now rewrite G, <- app_assoc|]. split; [rewrite in_app_iff; tauto|]. split; [assumption|].
      rewrite Q, H0. now rewrite app_assoc.
    + exists ls. rewrite typed_app, answers_app. cbn. rewrite !app_nil_r. split; [|assumption]. split; [assumption|].
      rewrite T, G, <- app_assoc. eauto.
Qed.

(* ------------------------------------------------------------------ *)
(* However the reads cut the input, the answers are ends of lines, in order. *)
Lemma pieces_more ls s t : pieces ls s -> pieces ls (s ++ t).
Proof. intro H. induction H; [constructor|]. rewrite <- !app_assoc. now constructor. Qed.
Lemma pieces_snoc ls s l gap t : pieces ls s -> one_line l -> pieces (ls ++ [l]) (s ++ gap ++ l ++ t).
Proof.
  intros H L. induction H.
  - cbn [app]. rewrite app_assoc. constructor; [assumption|constructor].
  - rewrite <- !app_assoc. cbn [app]. constructor; assumption.
Qed.

Lemma in_pieces ds s hs : tty_run (Some tty0) ds = Some (s, hs) -> one_question hs ->
  exists ls, pieces ls (typed hs) /\ answers hs = map answer ls.
Proof.
  intros R O.
  refine (single_ind (fun _ => True) (fun t hs => exists ls g, pieces ls g /\ got hs = g ++ acc_of t /\ ~ In 10 (acc_of t) /\
      answers hs = map answer ls /\ typed hs = got hs ++ ty_queue t)
    (fun hs => exists ls, pieces ls (typed hs) /\ answers hs = map answer ls) _ _ _ _ ds s hs R O I).
  - auto.
  - exists [], []. split; [constructor|]. split; [reflexivity|]. split; [intros []|]. split; reflexivity.
  - intros t h (ls & g & F & G & _ & A & T). exists ls. split; [|assumption]. rewrite T, G, <- app_assoc. now apply pieces_more.
  - clear. intros t past s' h (Q & _) (ls & g & F & G & NI & A & T) S _.
    inversion S; subst s' h; cbn [ty_queue ty_closed ty_asked].
    + exists ls, g. rewrite !typed_app, !got_app, !answers_app. unfold acc_of in *. rewrite H in *. cbn in *. rewrite !app_nil_r in *. auto.
    + exists ls, g. rewrite !typed_app, !got_app, !answers_app. unfold acc_of in *. cbn in *. rewrite !app_nil_r in *.
      rewrite Q, app_assoc. auto.
    + exists ls, g. rewrite !typed_app, !got_app, !answers_app. unfold acc_of in *. cbn in *. rewrite !app_nil_r in *. auto.
    + unfold acc_of in *. rewrite H in *. cbn [map snd concat] in *. rewrite app_nil_r in *.
      exists (ls ++ [acc ++ x]), (g ++ [] ++ (acc ++ x) ++ r). rewrite !typed_app, !got_app, !answers_app, A. cbn [map concat answers got typed flat_map]. rewrite !app_nil_r.
      split; [apply pieces_snoc; [assumption|now apply one_line_app]|].
      split; [rewrite G; cbn; now rewrite <- !app_assoc|]. split; [intros []|].
      split; [now rewrite map_app|]. rewrite Q, H0. now rewrite <- !app_assoc.
    + unfold acc_of in *. rewrite H in *. cbn [map snd concat] in *. rewrite app_nil_r in *.
      exists ls, g. rewrite !typed_app, !got_app, !answers_app. cbn. rewrite !app_nil_r.
      split; [assumption|]. split; [now rewrite G, <- app_assoc|]. split; [rewrite in_app_iff; tauto|]. split; [assumption|].
      rewrite Q, H0. now rewrite app_assoc.
    + exists ls. rewrite typed_app, answers_app. cbn. rewrite !app_nil_r. split; [|assumption].
      rewrite T, G, <- app_assoc. now apply pieces_more.
Qed.

Lemma yes_lines ls : Forall2 (fun b l => b = true <-> says_yes l) (map answer ls) ls.
Proof. induction ls; constructor; [apply answer_yes|assumption]. Qed.

(* ------------------------------------------------------------------ *)
(* With nothing typed ahead, the first line typed after the question answers it. *)
Definition decided (h1 : list happened) (k : N) (b : bool) : Prop :=
  exists a c line r, h1 = a ++ Shown k :: c /\ no_shown c /\ typed c = line ++ r /\ one_line line /\ (b = true <-> says_yes line).
Definition all_decided (hs : list happened) : Prop := forall h1 k b h2, hs = h1 ++ Answered k b :: h2 -> decided h1 k b.

Lemma decided_more hs h : (forall k b, ~ In (Answered k b) h) -> all_decided hs -> all_decided (hs ++ h).
Proof.
  intros N D h1 k b h2 Q. apply app_eq_app in Q as (l & [[Q1 Q2]|[Q1 Q2]]).
  - destruct l as [|x l]; cbn [app] in Q2; [exfalso; apply (N k b); rewrite <- Q2; now left|]. injection Q2 as <- Q2.
    apply (D h1 k b l). assumption.
  - exfalso. apply (N k b). rewrite Q2. apply in_app_iff. right. now left.
Qed.

Lemma first_line ds s hs : tty_run (Some tty0) ds = Some (s, hs) -> one_question hs -> nothing_ahead hs -> all_decided hs.
Proof.
  apply (single_ind nothing_ahead (fun t hs => all_decided hs /\
    forall k acc, ty_asked t = [(k, acc)] -> exists a c, hs = a ++ Shown k :: c /\ no_shown c /\ typed a = got a /\ got c = acc /\ ~ In 10 acc)).
  - exact nothing_ahead_app.
  - split; [intros h1 k b h2 Q; destruct h1; discriminate Q|]. intros k acc H. discriminate H.
  - clear. intros t hs [H _]. exact H.
  - intros t past s' h (Q & _) (D & P) S O. inversion S; subst s' h; cbn [ty_queue ty_closed ty_asked].
    + split; [apply decided_more; [intros j b [X|[]]; discriminate X|assumption]|]. intros j acc [= <- <-].
      exists past, []. split; [reflexivity|]. split; [intros j []|]. split; [apply (O past k []); reflexivity|]. split; [reflexivity|intros []].
    + split; [apply decided_more; [intros j b [X|[]]; discriminate X|assumption]|]. intros j acc H.
      destruct (P j acc H) as (a & c & -> & N1 & N2 & N3 & N4). exists a, (c ++ [Typed x]). rewrite <- app_assoc. split; [reflexivity|].
      split; [intros i X; apply in_app_iff in X as [X|[X|[]]]; [now apply N1 in X|discriminate X]|].
      rewrite got_app. cbn. rewrite app_nil_r. auto.
    + split; [apply decided_more; [intros j b [X|[]]; discriminate X|assumption]|]. intros j acc H.
      destruct (P j acc H) as (a & c & -> & N1 & N2 & N3 & N4). exists a, (c ++ [Closed]). rewrite <- app_assoc. split; [reflexivity|].
      split; [intros i X; apply in_app_iff in X as [X|[X|[]]]; [now apply N1 in X|discriminate X]|].
      rewrite got_app. cbn. rewrite app_nil_r. auto.
    + split; [|intros j z X; discriminate X].
      destruct (P k acc H) as (a & c & -> & N1 & N2 & N3 & N4).
      change [Got k (x ++ r); Answered k (answer (acc ++ x))] with ([Got k (x ++ r)] ++ [Answered k (answer (acc ++ x))]).
      rewrite app_assoc.
      assert (B : all_decided ((a ++ Shown k :: c) ++ [Got k (x ++ r)])).
      { apply decided_more; [intros j b [X|[]]; discriminate X|assumption]. }
      intros h1 j b h2 E. apply app_eq_app in E as (l & [[E1 E2]|[E1 E2]]).
      * destruct l as [|y l]; cbn [app] in E2.
        -- injection E2 as -> -> ->. rewrite app_nil_r in E1. subst h1.
           exists a, (c ++ [Got k (x ++ r)]), (acc ++ x), (r ++ q). split; [now rewrite <- app_assoc|].
           split; [intros i X; apply in_app_iff in X as [X|[X|[]]]; [now apply N1 in X|discriminate X]|].
           split; [|split; [now apply one_line_app|apply answer_yes]].
           rewrite typed_app. cbn. rewrite app_nil_r.
           change (Shown k :: c) with ([Shown k] ++ c) in Q. rewrite !typed_app, !got_app in Q. cbn in Q. rewrite N2, N3, <- app_assoc in Q.
           apply app_inv_head in Q. rewrite Q, H0. now rewrite <- !app_assoc.
        -- injection E2 as <- E2. apply (B h1 j b l). assumption.
      * destruct l as [|y l]; cbn [app] in E2.
        -- injection E2 as <- <- <-. rewrite app_nil_r in E1. subst h1.
           exists a, (c ++ [Got k (x ++ r)]), (acc ++ x), (r ++ q). split; [now rewrite <- app_assoc|].
           split; [intros i X; apply in_app_iff in X as [X|[X|[]]]; [now apply N1 in X|discriminate X]|].
           split; [|split; [now apply one_line_app|apply answer_yes]].
           rewrite typed_app. cbn. rewrite app_nil_r.
           change (Shown k :: c) with ([Shown k] ++ c) in Q. rewrite !typed_app, !got_app in Q. cbn in Q. rewrite N2, N3, <- app_assoc in Q.
           apply app_inv_head in Q. rewrite Q, H0. now rewrite <- !app_assoc.
        -- injection E2 as _ E2. destruct l; discriminate E2.
    + split; [apply decided_more; [intros j b [X|[]]; discriminate X|assumption]|]. intros j z [= <- <-].
      destruct (P k acc H) as (a & c & -> & N1 & N2 & N3 & N4). exists a, (c ++ [Got k x]). rewrite <- app_assoc. split; [reflexivity|].
      split; [intros i X; apply in_app_iff in X as [X|[X|[]]]; [now apply N1 in X|discriminate X]|].
      rewrite got_app. cbn. rewrite app_nil_r, N3. repeat (split; [auto|]). rewrite in_app_iff. tauto.
    + apply decided_more; [intros j b [X|[]]; discriminate X|assumption].
Qed.

(* ------------------------------------------------------------------ *)
(* After the end of the input nothing is answered. *)
Lemma queue_run ds s hs : tty_run (Some tty0) ds = Some (s, hs) ->
  match s with Some t => typed hs = got hs ++ ty_queue t /\ (In Closed hs -> ty_closed t = true) | None => True end.
Proof.
  intro R. refine (tty_ind (fun s hs => match s with Some t => typed hs = got hs ++ ty_queue t /\ (In Closed hs -> ty_closed t = true) | None => True end)
    (fun _ => True) _ _ ds (Some tty0) [] s hs _ R I).
  - auto.
  - clear. intros s past d s' h Q S _. destruct s as [[q cl l]|]; [|discriminate S]. cbn [ty_queue ty_closed] in Q. destruct Q as [Q CQ].
    assert (CC : forall h0, (forall x, In x h0 -> x <> Closed) -> In Closed (past ++ h0) -> cl = true).
    { intros h0 N X. apply in_app_iff in X as [X|X]; [auto|]. now apply N in X. }
    destruct d as [k|x|k n| |k]; cbn [tty_step] in S.
    + destruct (waiting k l); [discriminate|]. injection S as <- <-. rewrite typed_app, got_app. cbn. rewrite !app_nil_r. split; [assumption|].
      apply CC. intros y [<-|[]]; discriminate.
    + destruct cl; [discriminate|]. injection S as <- <-. rewrite typed_app, got_app. cbn. rewrite !app_nil_r, Q, app_assoc. split; [reflexivity|].
      apply CC. intros y [<-|[]]; discriminate.
    + destruct (waiting k l) as [acc|]; [|discriminate].
      destruct ((0 <? n) && (n <=? len q) && (n <=? room acc))%bool; [|discriminate].
      pose proof (take_drop q n) as T. destruct (cut_line (takeN n q)) as [[x r]|]; injection S as <- <-; rewrite typed_app, got_app; cbn;
        rewrite !app_nil_r; (split; [rewrite Q; rewrite T at 1; now rewrite app_assoc|]); apply CC.
      * intros y [<-|[<-|[]]]; discriminate.
      * intros y [<-|[]]; discriminate.
    + destruct cl; [discriminate|]. injection S as <- <-. rewrite typed_app, got_app. cbn. rewrite !app_nil_r. auto.
    + destruct (waiting k l); [|discriminate]. destruct q; [|discriminate]. destruct cl; [|discriminate]. now injection S as <- <-.
  - cbn. split; [reflexivity|intros []].
Qed.

Lemma dead_run s ds s' hs : tty_run s ds = Some (s', hs) -> s = None -> hs = [].
Proof. intros R ->. destruct ds; cbn in R; [now injection R as _ <-|discriminate]. Qed.

Lemma closed_run ds : forall t s hs, tty_run (Some t) ds = Some (s, hs) -> ty_queue t = [] -> ty_closed t = true -> answers hs = [].
Proof.
  induction ds as [|d r IH]; intros [q cl l] s hs R Q C; cbn [ty_queue ty_closed] in *; subst q cl; cbn [tty_run] in R; [now injection R as _ <-|].
  destruct (tty_step (Some (mk_tty [] true l)) d) as [[s1 h]|] eqn:S; [|discriminate].
  destruct (tty_run s1 r) as [[s2 h2]|] eqn:R2; [|discriminate]. injection R as _ <-. rewrite answers_app.
  destruct d as [k|x|k n| |k]; cbn [tty_step] in S; try discriminate S.
  - destruct (waiting k l); [discriminate|]. injection S as <- <-. cbn. apply (IH _ _ _ R2); reflexivity.
  - destruct (waiting k l) as [acc|]; [|discriminate]. destruct (0 <? n) eqn:Z; [|discriminate]. apply N.ltb_lt in Z.
    destruct (n <=? len (@nil N)) eqn:Y; [|discriminate]. apply N.leb_le in Y. unfold len in Y. cbn in Y. lia.
  - destruct (waiting k l); [|discriminate]. injection S as <- <-. cbn. now rewrite (dead_run _ _ _ _ R2 eq_refl).
Qed.

Lemma after_the_end d1 s1 h1 d2 s2 h2 : tty_run (Some tty0) d1 = Some (s1, h1) -> tty_run s1 d2 = Some (s2, h2) ->
  In Closed h1 -> typed h1 = got h1 -> answers h2 = [].
Proof.
  intros R1 R2 C T. pose proof (queue_run _ _ _ R1) as Q. destruct s1 as [t|]; [|now rewrite (dead_run _ _ _ _ R2 eq_refl)].
  destruct Q as [Q CC]. apply (closed_run _ _ _ _ R2); [|auto].
  rewrite T in Q. rewrite <- (app_nil_r (got h1)) in Q at 1. apply app_inv_head in Q. auto.
Qed.
