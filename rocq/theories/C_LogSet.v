(* Logging while SetLogOutput and SetLogLevel run (C152). *)
From Verif Require Import Base M_LogSet S_LogSet P_LogSet.
From Coq Require Import Lia Permutation.
Open Scope N_scope.

(* ------------------------------------------------- C152 *)
(* The claim: when SetLogOutput has returned and no call of a logger is under way, every
   line of a logger of level enabled has been shown. *)
Definition C152_claim : Prop := forall ls s x, ls_run lset0 ls = Some s -> In COutput (calls ls) ->
  lg_todo s = [] -> lg_writers s = [] -> In (LBegin x 3) ls -> In x (lg_shown s).

(* In every interleaving each line is at one place: shown, kept, or with a call that has
   not returned.  So none is shown twice and none is made up. *)
Theorem C152_once : forall ls s, ls_run lset0 ls = Some s ->
  Permutation (begun ls) (lg_shown s ++ kept s ++ under_way s ++ in_hand s).
Proof. exact conserved. Qed.
Print Assumptions C152_once.

(* What was kept when SetLogOutput (or, once an output was set, SetLogLevel) was called is
   shown when it returns: of the levels that the call sets. *)
Theorem C152_before_partial : forall ls1 s1 c ls s2 k x, ls_run lset0 ls1 = Some s1 -> lg_todo s1 = [] ->
  ls_run s1 (LCall c :: ls) = Some s2 -> calls ls = [] -> lg_todo s2 = [] ->
  (c = COutput /\ k = 3%nat \/ (exists l, c = CLevel l /\ l <= N.of_nat k) /\ (k <= 2)%nat /\ lg_on s1 3 = true) ->
  In x (lg_buf s1 k) -> In x (lg_shown s2).
Proof.
  intros ls1 s1 c ls s2 k x R1 T R N T2 H I.
  assert (sane s2) as (_ & _ & _ & P).
  { apply (run_sane (ls1 ++ LCall c :: ls)). rewrite run_app, R1. exact R. }
  apply (call_passes s1 c ls s2 k x T R N T2 (P T2)); [destruct H as [(H & _)|(_ & _ & H)]; auto| |exact I].
  destruct H as [(-> & ->)|((l & -> & L) & K & _)]; [now left|]. cbn [levels].
  assert (k = 0 \/ k = 1 \/ k = 2)%nat as [->|[->| ->]] by lia; cbn in L;
  destruct (N.leb_spec l 0), (N.leb_spec l 1), (N.leb_spec l 2); try lia; cbn [app In]; auto.
Qed.
Print Assumptions C152_before_partial.

(* A line whose writing began when the outputs from its level on were set has been shown
   when it has returned. *)
Theorem C152_after_partial : forall ls1 s1 k ls s2 x, ls_run lset0 ls1 = Some s1 ->
  (forall m, (k <= m <= 3)%nat -> lg_on s1 m = true) -> ~ In x (begun ls1) ->
  ls_run s1 ls = Some s2 -> In x (begun ls) -> (forall lv, In (LBegin x lv) ls -> (k <= lv)%nat) ->
  ~ In x (under_way s2) -> In x (lg_shown s2).
Proof.
  intros ls1 s1 k ls s2 x R1 On Fr R I B U.
  pose proof (conserved _ _ R1) as C1.
  assert (~ In x (lg_shown s1 ++ kept s1 ++ under_way s1 ++ in_hand s1)) as F1.
  { intro H. apply Fr. eapply Permutation_in; [apply Permutation_sym; exact C1|exact H]. }
  rewrite !in_app_iff in F1.
  assert (direct k x s1) as D.
  { split; [exact On|]. split; [tauto|]. split; [tauto|]. apply Forall_forall. intros w Iw Ix. exfalso. apply F1. right; right; left.
    unfold under_way. apply in_flat_map. eauto. }
  destruct (direct_run k x ls s1 s2 (run_sane _ _ R1) D R B) as (_ & K & H & _).
  assert (ls_run lset0 (ls1 ++ ls) = Some s2) as Ra by (rewrite run_app, R1; exact R).
  pose proof (conserved _ _ Ra) as C2.
  assert (In x (begun (ls1 ++ ls))) as Ib by (unfold begun; rewrite flat_map_app; apply in_or_app; right; exact I).
  apply (Permutation_in _ C2) in Ib. rewrite !in_app_iff in Ib. tauto.
Qed.
Print Assumptions C152_after_partial.

(* A line in a buffer that no running call sets is not shown, whatever happens, before
   another call sets that buffer. *)
Theorem C152_lost : forall ls ls' s s' x k, ls_run lset0 ls = Some s -> NoDup (map fst (begun (ls ++ ls'))) -> (k <= 3)%nat ->
  ~ In k (lg_todo s) -> In x (lg_buf s k) -> ls_run s ls' = Some s' -> (forall c, In c (calls ls') -> ~ In k (levels c)) ->
  ~ In x (lg_shown s').
Proof. exact left_behind. Qed.
Print Assumptions C152_lost.

(* SetLogOutput has found nothing kept; a goroutine finds that no output is set; the output
   is set; the goroutine keeps its line. *)
Definition lost_line : line := (1%nat, [108; 111; 115; 116]).
Definition lost_run : list ls_label := [LCall COutput; LSet 0; LBegin lost_line 3; LStep 0; LSet 0; LStep 0].
Definition set_at (ls : list ls_label) : lset := match ls_run lset0 ls with Some s => s | None => lset0 end.
Lemma set_at_ok ls : match ls_run lset0 ls with Some _ => true | None => false end = true -> ls_run lset0 ls = Some (set_at ls).
Proof. unfold set_at. now destruct (ls_run lset0 ls). Qed.
Lemma set_at_more a b : match ls_run lset0 a with Some _ => true | None => false end = true ->
  match ls_run lset0 (a ++ b) with Some _ => true | None => false end = true -> ls_run (set_at a) b = Some (set_at (a ++ b)).
Proof. intros H1 H2. apply set_at_ok in H1, H2. rewrite run_app, H1 in H2. exact H2. Qed.

Theorem C152_refuted : exists ls s x, ls_run lset0 ls = Some s /\ In COutput (calls ls) /\ lg_todo s = [] /\ lg_writers s = [] /\
  In (LBegin x 3) ls /\
  (forall ls' s', ls_run s ls' = Some s' -> ~ In COutput (calls ls') -> NoDup (map fst (begun (ls ++ ls'))) -> ~ In x (lg_shown s')).
Proof.
  exists lost_run, (set_at lost_run), lost_line. split; [reflexivity|]. split; [now left|]. split; [reflexivity|]. split; [reflexivity|].
  split; [right; right; now left|]. intros ls' s' R N Nd.
  apply (left_behind lost_run ls' (set_at lost_run) s' lost_line 3%nat eq_refl Nd); [lia|intros []|now left|exact R|].
  intros [|l] I H; [contradiction|]. cbn [levels] in H.
  destruct (l <=? 0), (l <=? 1), (l <=? 2); cbn [app In] in H; intuition discriminate.
Qed.
Print Assumptions C152_refuted.

Theorem C152_claim_refuted : ~ C152_claim.
Proof. intro H. destruct (H lost_run (set_at lost_run) lost_line eq_refl (or_introl eq_refl) eq_refl eq_refl (or_intror (or_intror (or_introl eq_refl)))). Qed.
Print Assumptions C152_claim_refuted.

(* The next SetLogOutput shows the line, behind one that the goroutine logged later. *)
Definition later_line : line := (2%nat, [108; 97; 116; 101; 114]).
Definition order_run : list ls_label :=
  lost_run ++ [LBegin later_line 3; LStep 0; LStep 0; LCall COutput; LSet 0; LSet 0; LSet 0; LSet 0; LSet 0].

Theorem C152_order_refuted : exists ls s, ls_run lset0 ls = Some s /\ lg_todo s = [] /\ lg_writers s = [] /\
  begun ls = [lost_line; later_line] /\ lg_shown s = [later_line; lost_line].
Proof. exists order_run, (set_at order_run). split; [apply set_at_ok; vm_compute; reflexivity|]. do 3 (split; [vm_compute; reflexivity|]). vm_compute. reflexivity. Qed.
Print Assumptions C152_order_refuted.

(* Two lines of level debug and one of level trace are kept; the output is set; SetLogLevel
   1 runs while a line of level debug comes. *)
Definition deb (n : nat) : line := (n, [100; N.of_nat n]).
Definition kept_run : list ls_label :=
  [LBegin (deb 1) 2; LStep 0; LStep 0; LBegin (deb 2) 1; LStep 0; LStep 0; LBegin (deb 3) 2; LStep 0; LStep 0;
   LCall COutput; LSet 0; LSet 0].
Definition level_run : list ls_label :=
  [LSet 0; LSet 0; LSet 0; LBegin (deb 4) 2; LStep 0; LSet 0; LSet 0; LSet 0; LStep 0; LSet 0; LSet 0; LSet 0; LSet 5; LSet 0; LSet 0; LSet 0; LSet 0].

Example C152_before_example : exists s1 s2, ls_run lset0 kept_run = Some s1 /\ lg_todo s1 = [] /\ lg_on s1 3 = true /\
  lg_buf s1 2 = [deb 1; deb 3] /\ lg_buf s1 1 = [deb 2] /\ lg_shown s1 = [] /\
  ls_run s1 (LCall (CLevel 1) :: level_run) = Some s2 /\ calls level_run = [] /\ lg_todo s2 = [] /\
  lg_shown s2 = [deb 1; deb 3; deb 2; deb 4] /\ kept s2 = [].
Proof.
  exists (set_at kept_run), (set_at (kept_run ++ LCall (CLevel 1) :: level_run)). split; [apply set_at_ok; vm_compute; reflexivity|].
  do 5 (split; [vm_compute; reflexivity|]). split; [apply set_at_more; vm_compute; reflexivity|]. do 3 (split; [vm_compute; reflexivity|]). vm_compute. reflexivity.
Qed.

Example C152_after_example : exists s1 s2, ls_run lset0 (kept_run ++ LCall (CLevel 1) :: level_run) = Some s1 /\
  (forall m, (1 <= m <= 3)%nat -> lg_on s1 m = true) /\ ~ In (deb 5) (begun (kept_run ++ LCall (CLevel 1) :: level_run)) /\
  ls_run s1 [LBegin (deb 5) 1; LStep 0; LCall COutput; LStep 0; LStep 0; LSet 0; LStep 0] = Some s2 /\ under_way s2 = [] /\
  lg_shown s2 = [deb 1; deb 3; deb 2; deb 4; deb 5].
Proof.
  exists (set_at (kept_run ++ LCall (CLevel 1) :: level_run)),
    (set_at ((kept_run ++ LCall (CLevel 1) :: level_run) ++ [LBegin (deb 5) 1; LStep 0; LCall COutput; LStep 0; LStep 0; LSet 0; LStep 0])).
  split; [apply set_at_ok; vm_compute; reflexivity|].
  split; [intros m M; assert (m = 1 \/ m = 2 \/ m = 3)%nat as [->|[->| ->]] by lia; vm_compute; reflexivity|].
  split; [vm_compute; intuition discriminate|]. split; [apply set_at_more; vm_compute; reflexivity|]. split; vm_compute; reflexivity.
Qed.

Example C152_once_example : exists s, ls_run lset0 lost_run = Some s /\ lg_shown s = [] /\ kept s = [lost_line].
Proof. exists (set_at lost_run). split; [reflexivity|]. split; reflexivity. Qed.
