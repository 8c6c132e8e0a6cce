(* Properties C116 to C118: the demo's questions on its standard input. *)
From Verif Require Import Base M_Str M_Demo M_Stdin S_Demo S_Stdin P_Demo P_Stdin.

(* ---------------------------------------------------------------- C116 *)
(* The n-th answer is that of the n-th line of the input. *)
Definition C116_full : Prop := forall ds s hs, tty_run (Some tty0) ds = Some (s, hs) ->
  exists ls, begins ls (typed hs) /\ Forall2 (fun b l => b = true <-> says_yes l) (answers hs) ls.

(* On a terminal, where a read returns at most one line, with one question at a time. *)
Theorem C116_terminal_partial : forall ds s hs, tty_run (Some tty0) ds = Some (s, hs) -> one_question hs -> stops_at_lines hs ->
  exists ls, begins ls (typed hs) /\ Forall2 (fun b l => b = true <-> says_yes l) (answers hs) ls.
Proof.
  intros ds s hs R O T. destruct (in_order ds s hs R O T) as (ls & B & A). exists ls. split; [assumption|]. rewrite A. apply yes_lines.
Qed.
Print Assumptions C116_terminal_partial.

(* From a pipe the answers are ends of lines, in order; the rest is skipped. *)
Theorem C116_pipe : forall ds s hs, tty_run (Some tty0) ds = Some (s, hs) -> one_question hs ->
  exists ls, pieces ls (typed hs) /\ Forall2 (fun b l => b = true <-> says_yes l) (answers hs) ls.
Proof.
  intros ds s hs R O. destruct (in_pieces ds s hs R O) as (ls & B & A). exists ls. split; [assumption|]. rewrite A. apply yes_lines.
Qed.
Print Assumptions C116_pipe.

(* Two lines from a pipe, "n" and "no, not y": the second question is approved. *)
Definition piped : bytes := str "n" ++ [10] ++ str "no, not y" ++ [10].
Definition deeds1 : list deed := [DAsk 1; DType piped; DRead 1 10; DAsk 2; DRead 2 2].
Definition happens1 : list happened :=
  [Shown 1; Typed piped; Got 1 (str "n" ++ [10] ++ str "no, not "); Answered 1 false; Shown 2; Got 2 (str "y" ++ [10]); Answered 2 true].
Definition state_of (r : option (option tty * list happened)) : option tty := match r with Some (s, _) => s | None => None end.

Lemma first_is a t c d : ~ In 10 a -> one_line c -> a ++ 10 :: t = c ++ d -> c = a ++ [10] /\ t = d.
Proof.
  intros N (l & -> & M) E. rewrite <- app_assoc in E. cbn [app] in E.
  revert l M E. induction a as [|x a IH]; intros [|y l] M E; cbn [app] in E.
  - now injection E as ->.
  - injection E as <- _. exfalso. apply M. now left.
  - injection E as -> _. exfalso. apply N. now left.
  - injection E as <- E. destruct (IH (fun X => N (or_intror X)) l (fun X => M (or_intror X)) E) as [X ->]. split; [|reflexivity].
    cbn [app]. now f_equal.
Qed.

Theorem C116_pipe_refuted : ~ C116_full.
Proof.
  intro H. destruct (H deeds1 (state_of (tty_run (Some tty0) deeds1)) happens1) as (ls & (F & r & B) & A).
  - vm_compute. reflexivity.
  - inversion A as [|b1 l1 bs ls1 A1 A']; subst. inversion A' as [|b2 l2 bs2 ls2 A2 A'']; subst. inversion A''; subst. clear A A' A''.
    inversion F as [|x y F1 F']; subst. inversion F' as [|x y F2 F'']; subst. cbn [concat] in B. rewrite app_nil_r in B.
    change (typed happens1) with (str "n" ++ 10 :: str "no, not y" ++ 10 :: []) in B. rewrite <- app_assoc in B.
    apply first_is in B as [_ B]; [|vm_compute; intuition discriminate|assumption].
    apply first_is in B as [-> _]; [|vm_compute; intuition discriminate|assumption].
    destruct A2 as [A2 _]. specialize (A2 eq_refl). apply answer_yes in A2. vm_compute in A2. discriminate A2.
Qed.
Print Assumptions C116_pipe_refuted.

(* On a terminal: a long refusal in two reads, then an approval. *)
Definition deeds2 : list deed :=
  [DAsk 1; DType (str "no"); DRead 1 2; DType (str ", not y" ++ [10]); DRead 1 8; DAsk 2; DType (str "Yes" ++ [10]); DRead 2 4].
Definition happens2 : list happened :=
  [Shown 1; Typed (str "no"); Got 1 (str "no"); Typed (str ", not y" ++ [10]); Got 1 (str ", not y" ++ [10]); Answered 1 false;
   Shown 2; Typed (str "Yes" ++ [10]); Got 2 (str "Yes" ++ [10]); Answered 2 true].

(* Decided forms of the conditions. *)
Fixpoint fine (past hs : list happened) : bool :=
  match hs with
  | [] => true
  | h :: r => (match h with Shown _ => match asked past with [] => bytes_eqb (typed past) (got past) | _ => false end | _ => true end &&
               fine (past ++ [h]) r)%bool
  end.
Lemma fine_ok hs : forall past, fine past hs = true -> forall h1 k h2, hs = h1 ++ Shown k :: h2 ->
  asked (past ++ h1) = [] /\ typed (past ++ h1) = got (past ++ h1).
Proof.
  induction hs as [|h r IH]; intros past F h1 k h2 Q; [destruct h1; discriminate|].
  cbn [fine] in F. apply andb_prop in F as [F1 F2]. destruct h1 as [|x h1]; cbn [app] in Q; injection Q as -> Q.
  - rewrite app_nil_r. destruct (asked past); [|discriminate]. apply bytes_eqb_eq in F1. auto.
  - specialize (IH _ F2 h1 k h2 Q). rewrite <- app_assoc in IH. exact IH.
Qed.
Lemma fine_both hs : fine [] hs = true -> one_question hs /\ nothing_ahead hs.
Proof. intro F. split; intros h1 k h2 Q; apply (fine_ok hs [] F h1 k h2 Q). Qed.

Definition ends_only (s : bytes) : bool := match cut_line s with Some (_, r) => match r with [] => true | _ => false end | None => true end.
Lemma stops_ok hs : Forall (fun h => match h with Got _ s => ends_only s = true | _ => True end) hs -> stops_at_lines hs.
Proof.
  rewrite Forall_forall. intros F k s I a b ->. specialize (F _ I). cbn in F. unfold ends_only in F.
  destruct (cut_line (a ++ 10 :: b)) as [[x [|y r]]|] eqn:C; try discriminate F.
  - apply cut_some in C as (C & l & -> & N). rewrite app_nil_r in C. clear F I. revert l N C.
    induction a as [|z a IH]; intros [|w l] N C; cbn [app] in C.
    + now injection C as ->.
    + injection C as <- _. exfalso. apply N. now left.
    + injection C as -> C. destruct a; discriminate C.
    + injection C as -> C. apply (IH l); [|assumption]. intro X. apply N. now right.
  - apply cut_none in C. exfalso. apply C. apply in_app_iff. right. now left.
Qed.

Example C116_example : exists s, tty_run (Some tty0) deeds2 = Some (s, happens2) /\ one_question happens2 /\ stops_at_lines happens2 /\
  nothing_ahead happens2 /\ answers happens2 = [false; true].
Proof.
  eexists. split; [vm_compute; reflexivity|]. split; [apply fine_both; vm_compute; reflexivity|].
  split; [apply stops_ok; repeat constructor|]. split; [apply fine_both; vm_compute; reflexivity|reflexivity].
Qed.
(* The pipe of the refutation asks one question at a time. *)
Example C116_pipe_example : exists s, tty_run (Some tty0) deeds1 = Some (s, happens1) /\ one_question happens1 /\ answers happens1 = [false; true].
Proof.
  eexists. split; [vm_compute; reflexivity|]. split; [|reflexivity].
  intros h1 k h2 Q. do 7 (destruct h1 as [|? h1]; cbn [app] in Q; [first [discriminate Q|injection Q as <- <-; reflexivity]|injection Q as <- Q]). destruct h1; discriminate Q.
Qed.

(* ---------------------------------------------------------------- C117 *)
(* What approves an action is typed while its question is the last one shown. *)
Definition C117_full : Prop := forall ds s hs h1 k h2, tty_run (Some tty0) ds = Some (s, hs) -> hs = h1 ++ Answered k true :: h2 ->
  exists a c x line r, h1 = a ++ Shown k :: c /\ no_shown c /\ typed c = x ++ line ++ r /\ says_yes line.

(* With one question at a time and nothing typed ahead: the first line typed after the question decides. *)
Theorem C117_first_line_partial : forall ds s hs h1 k b h2, tty_run (Some tty0) ds = Some (s, hs) ->
  one_question hs -> nothing_ahead hs -> hs = h1 ++ Answered k b :: h2 ->
  exists a c line r, h1 = a ++ Shown k :: c /\ no_shown c /\ typed c = line ++ r /\ one_line line /\ (b = true <-> says_yes line).
Proof. intros ds s hs h1 k b h2 R O A Q. exact (first_line ds s hs R O A h1 k b h2 Q). Qed.
Print Assumptions C117_first_line_partial.

(* What was typed before the question, unseen, approves it. *)
Theorem C117_ahead_refuted : ~ C117_full.
Proof.
  intro H. destruct (H [DType (str "y" ++ [10]); DAsk 1; DRead 1 2] (state_of (tty_run (Some tty0) [DType (str "y" ++ [10]); DAsk 1; DRead 1 2]))
    _ [Typed (str "y" ++ [10]); Shown 1; Got 1 (str "y" ++ [10])] 1 []
    eq_refl eq_refl) as (a & c & x & line & r & Q & _ & T & Y).
  assert (c = [Got 1 (str "y" ++ [10])]) as ->.
  { destruct a as [|? a]; cbn [app] in Q; [discriminate Q|]. injection Q as _ Q. destruct a as [|? a]; cbn [app] in Q; [now injection Q as <-|].
    injection Q as _ Q. destruct a as [|? a]; cbn [app] in Q; [discriminate Q|]. injection Q as _ Q. destruct a; discriminate Q. }
  cbn in T. destruct x; [|discriminate T]. destruct line; [|discriminate T].
  apply answer_yes in Y. discriminate Y.
Qed.
Print Assumptions C117_ahead_refuted.

(* With two questions waiting, the answer to the second one shown may approve the first. *)
Theorem C117_two_refuted : ~ C117_full.
Proof.
  intro H. destruct (H [DAsk 1; DAsk 2; DType (str "y" ++ [10]); DRead 1 2] (state_of (tty_run (Some tty0) [DAsk 1; DAsk 2; DType (str "y" ++ [10]); DRead 1 2]))
    _ [Shown 1; Shown 2; Typed (str "y" ++ [10]); Got 1 (str "y" ++ [10])] 1 [] eq_refl eq_refl) as (a & c & x & line & r & Q & N & _ & _).
  destruct a as [|? a]; cbn [app] in Q.
  - injection Q as <-. apply (N 2). now left.
  - injection Q as _ Q. do 3 (destruct a as [|? a]; cbn [app] in Q; [discriminate Q|injection Q as _ Q]). destruct a; discriminate Q.
Qed.
Print Assumptions C117_two_refuted.

Example C117_example : exists s, tty_run (Some tty0) deeds2 = Some (s, happens2) /\ one_question happens2 /\ nothing_ahead happens2 /\
  exists h1, happens2 = h1 ++ [Answered 2 true].
Proof.
  eexists. split; [vm_compute; reflexivity|]. split; [apply fine_both; vm_compute; reflexivity|]. split; [apply fine_both; vm_compute; reflexivity|].
  eexists [_; _; _; _; _; _; _; _; _]. reflexivity.
Qed.

(* ---------------------------------------------------------------- C118 *)
(* A question to a closed input is refused, and the device goes on. *)
Definition C118_full : Prop := forall ds s hs, tty_run (Some tty0) ds = Some (s, hs) -> s <> None.

(* It is never approved, *)
Theorem C118_never_approved_partial : forall d1 s1 h1 d2 s2 h2, tty_run (Some tty0) d1 = Some (s1, h1) -> tty_run s1 d2 = Some (s2, h2) ->
  In Closed h1 -> typed h1 = got h1 -> answers h2 = [].
Proof. exact after_the_end. Qed.
Print Assumptions C118_never_approved_partial.

(* but the process panics. *)
Theorem C118_dies_refuted : ~ C118_full.
Proof. intro H. apply (H [DAsk 1; DClose; DEnd 1] None [Shown 1; Closed; Died 1]); reflexivity. Qed.
Print Assumptions C118_dies_refuted.

Example C118_example : exists s1 h1 s2 h2, tty_run (Some tty0) [DAsk 1; DType (str "y" ++ [10]); DClose; DRead 1 2] = Some (s1, h1) /\
  In Closed h1 /\ typed h1 = got h1 /\ answers h1 = [true] /\ tty_run s1 [DAsk 2; DEnd 2] = Some (s2, h2) /\ h2 = [Shown 2; Died 2].
Proof.
  eexists. eexists. eexists. eexists. split; [vm_compute; reflexivity|]. split; [vm_compute; tauto|]. split; [vm_compute; reflexivity|].
  split; [vm_compute; reflexivity|]. split; vm_compute; reflexivity.
Qed.
