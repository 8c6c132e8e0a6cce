(* Property C135: log lines from several goroutines. *)
From Verif Require Import Base M_Str M_LogRace S_LogRace P_LogRace.

(* ---------------------------------------------------------------- C135 *)
(* Whatever the schedule, whatever the loggers and the levels: when nobody is logging any
   more, every line logged is, whole and once, where its level puts it (the writer, or the
   buffer of a level not enabled), in an order that keeps each goroutine's. *)
Definition C135_full : Prop :=
  forall on lev ps tr w, lsteps lev (lstart on ps) tr w -> at_rest w ->
  (forall j, calls_of j tr = nth j ps []) /\
  lw_sink w = texts_at on lev None tr /\
  (forall i b, nth_error (lw_chain w) i = Some b -> lb_bytes b = concat (texts_at on lev (Some i) tr)).

(* True of what is shown. *)
Theorem C135_shown_partial : forall on lev ps tr w, lsteps lev (lstart on ps) tr w -> at_rest w ->
  (forall j, calls_of j tr = nth j ps []) /\ lw_sink w = texts_at on lev None tr.
Proof.
  intros on lev ps tr w S R. split; [exact (rest_calls on lev ps tr w S R)|].
  exact (li_sink _ _ _ _ _ (linv_steps _ _ _ _ _ S)).
Qed.
Print Assumptions C135_shown_partial.

(* At any moment what the writer has got is the lines of the calls that have returned. *)
Theorem C135_any_time_partial : forall on lev ps tr w, lsteps lev (lstart on ps) tr w ->
  lw_sink w = texts_at on lev None tr /\
  forall j q, nth_error ps j = Some q -> exists rest, q = calls_of j tr ++ rest.
Proof.
  intros on lev ps tr w S. pose proof (linv_steps _ _ _ _ _ S) as V. split; [exact (li_sink _ _ _ _ _ V)|].
  intros j q H. destruct (nth_error (lw_threads w) j) as [t|] eqn:E.
  - pose proof (li_calls _ _ _ _ _ V _ _ E) as C. exists (lt_calls t). congruence.
  - apply nth_error_None in E. rewrite (li_count _ _ _ _ _ V) in E.
    apply nth_error_None in E. congruence.
Qed.
Print Assumptions C135_any_time_partial.

(* And of the buffers that are not written to by two goroutines through two loggers. *)
Theorem C135_buffer_partial : forall on lev ps tr w i b, lsteps lev (lstart on ps) tr w ->
  (forall j j' q q' l l' p p', j <> j' -> nth_error ps j = Some q -> nth_error ps j' = Some q' ->
     In (l, p) q -> In (l', p') q' -> stop on (lev l) = Some i -> stop on (lev l') = Some i -> l = l') ->
  nth_error (lw_chain w) i = Some b -> lb_bytes b = concat (texts_at on lev (Some i) tr).
Proof.
  intros on lev ps tr w i b S O H. destruct (bi_buf _ _ _ _ _ (binv_steps on lev ps i tr w O S) b H) as [A L].
  unfold lb_bytes. rewrite L, takeN_all by lia. exact A.
Qed.
Print Assumptions C135_buffer_partial.

(* Logging never blocks for good. *)
Theorem C135_progress : forall on lev ps tr w, lsteps lev (lstart on ps) tr w ->
  at_rest w \/ exists e w', lstep lev w e w'.
Proof. exact never_stuck. Qed.
Print Assumptions C135_progress.

(* Two goroutines, two loggers of a level that is not enabled: both read the length of the
   buffer before either copies its line, and the first line is overwritten. *)
Theorem C135_race : forall on lev l1 l2 p1 p2 i, l1 <> l2 -> lev l1 = i -> lev l2 = i ->
  nth_error on i = Some false ->
  exists w b, lsteps lev (lstart on [[(l1, p1)]; [(l2, p2)]]) [(0%nat, (l1, p1)); (1%nat, (l2, p2))] w /\
    at_rest w /\ nth_error (lw_chain w) i = Some b /\ lb_bytes b = p2.
Proof.
  intros on lev l1 l2 p1 p2 i N E1 E2 Off.
  set (ch := map (mk_lbuf [] 0) on). set (b0 := mk_lbuf [] 0 false).
  assert (nth_error ch i = Some b0) as H0 by (unfold ch; now rewrite nth_error_map, Off).
  assert (i < length ch)%nat as Hi by (apply nth_error_Some; congruence).
  set (b1 := lb_copy 0 p1 b0). set (b2 := lb_copy 0 p2 b1).
  assert (nth_error (chain_set i b1 ch) i = Some b1) as H1 by (now apply chain_set_same).
  exists (mk_lworld [mk_lthread [] LIdle; mk_lthread [] LIdle] (chain_set i b2 (chain_set i b1 ch)) []), b2.
  split; [|split; [repeat constructor|split]].
  - change [(0%nat, (l1, p1)); (1%nat, (l2, p2))] with ((((([] ++ []) ++ []) ++ []) ++ []) ++ [(0%nat, (l1, p1))] ++ [(1%nat, (l2, p2))]).
    rewrite (app_assoc _ [(0%nat, (l1, p1))]).
    eapply LS_step; [|exact (LDone lev [mk_lthread [] LIdle] [] l2 p2 [] i 0 b1 (chain_set i b1 ch) [] H1)].
    eapply LS_step; [|exact (LDone lev [] [mk_lthread [(l2, p2)] (LCopy i 0)] l1 p1 [] i 0 b0 ch [] H0)].
    eapply LS_step; [|exact (LLen lev [mk_lthread [(l1, p1)] (LCopy i 0)] [] l2 p2 [] i b0 ch [] H0 eq_refl)].
    eapply LS_step; [|exact (LLen lev [] [mk_lthread [(l2, p2)] (LAt i)] l1 p1 [] i b0 ch [] H0 eq_refl)].
    eapply LS_step.
    2:{ cbn [app]. pose proof (LLock lev [mk_lthread [(l1, p1)] (LAt i)] [] l2 p2 [] ch []) as X.
        rewrite E2 in X. apply X. cbn. destruct (N.eqb_spec l1 l2); [congruence|reflexivity]. }
    eapply LS_step.
    2:{ cbn [app]. pose proof (LLock lev [] [mk_lthread [(l2, p2)] LIdle] l1 p1 [] ch []) as X.
        rewrite E1 in X. apply X. reflexivity. }
    apply LS_nil.
  - apply chain_set_same. now rewrite chain_set_len.
  - unfold lb_bytes, b2, lb_copy. cbn [lb_len lb_array]. change (takeN 0 (lb_array b1)) with (@nil BinNums.N). cbn [app]. apply takeN_exact. lia.
Qed.
Print Assumptions C135_race.

(* usbipLogger is logger 0 and usbLogger is logger 1; both log at level trace, which the
   demo enables only on request (cmd/demo/demo.go:106-110); errLogger is logger 2. *)
Definition levels (l : N) : nat := if l =? 2 then 3%nat else 1%nat.
Definition demo_on : list bool := [false; false; true; true].
Definition usbip_line : bytes := str "[USBIP] [RETURN SUBMIT]".
Definition usb_line : bytes := str "[USB] DEVICE".

Theorem C135_refuted : ~ C135_full.
Proof.
  intro F. destruct (C135_race demo_on levels 0 1 usbip_line usb_line 1) as (w & b & S & R & H & E);
    try reflexivity; try discriminate.
  destruct (F _ _ _ _ _ S R) as (_ & _ & G). rewrite (G 1%nat b H) in E. vm_compute in E. discriminate E.
Qed.
Print Assumptions C135_refuted.

(* Lines from two goroutines: errors, which are shown, and packets through one logger. *)
Definition quiet_ps : list (list lcall) := [[(0, usbip_line); (2, str "e1")]; [(2, str "e2"); (0, str "x")]].
Example C135_example :
  exists tr w b, lsteps levels (lstart demo_on quiet_ps) tr w /\ at_rest w /\
    nth_error (lw_chain w) 1 = Some b /\ lb_bytes b = usbip_line ++ str "x" /\ lw_sink w = [str "e2"; str "e1"] /\
    tr = [(1%nat, (2, str "e2")); (0%nat, (0, usbip_line)); (0%nat, (2, str "e1")); (1%nat, (0, str "x"))].
Proof.
  set (ch := map (mk_lbuf [] 0) demo_on).
  set (b0 := mk_lbuf [] 0 false). set (b1 := lb_copy 0 usbip_line b0). set (b2 := lb_copy (lb_len b1) (str "x") b1).
  set (c1 := chain_set 1 b1 ch).
  set (t0 := mk_lthread [(0, usbip_line); (2, str "e1")]). set (t1 := mk_lthread [(2, str "e2"); (0, str "x")]).
  set (t0' := mk_lthread [(2, str "e1")]). set (t1' := mk_lthread [(0, str "x")]).
  set (e2 := str "e2"). set (e1 := str "e1").
  pose proof (LS_nil levels (lstart demo_on quiet_ps)) as S.
  pose proof (LS_step _ _ _ _ _ _ S (LLock levels [] [t1 LIdle] 0 usbip_line [(2, e1)] ch [] eq_refl)) as S1.
  pose proof (LS_step _ _ _ _ _ _ S1 (LLock levels [t0 (LAt 1)] [] 2 e2 [(0, str "x")] ch [] eq_refl)) as S2.
  pose proof (LS_step _ _ _ _ _ _ S2 (LLen levels [] [t1 (LAt 3)] 0 usbip_line [(2, e1)] 1 b0 ch [] eq_refl eq_refl)) as S3.
  pose proof (LS_step _ _ _ _ _ _ S3 (LNext levels [t0 (LCopy 1 0)] [] 2 e2 [(0, str "x")] 3 (mk_lbuf [] 0 true) ch [] eq_refl eq_refl)) as S4.
  pose proof (LS_step _ _ _ _ _ _ S4 (LOut levels [t0 (LCopy 1 0)] [] 2 e2 [(0, str "x")] 4 ch [] eq_refl)) as S5.
  pose proof (LS_step _ _ _ _ _ _ S5 (LDone levels [] [t1' LIdle] 0 usbip_line [(2, e1)] 1 0 b0 ch [e2] eq_refl)) as S6.
  pose proof (LS_step _ _ _ _ _ _ S6 (LLock levels [t0' LIdle] [] 0 (str "x") [] c1 [e2] eq_refl)) as S7.
  pose proof (LS_step _ _ _ _ _ _ S7 (LLock levels [] [t1' (LAt 1)] 2 e1 [] c1 [e2] eq_refl)) as S8.
  pose proof (LS_step _ _ _ _ _ _ S8 (LNext levels [] [t1' (LAt 1)] 2 e1 [] 3 (mk_lbuf [] 0 true) c1 [e2] eq_refl eq_refl)) as S9.
  pose proof (LS_step _ _ _ _ _ _ S9 (LLen levels [t0' (LAt 4)] [] 0 (str "x") [] 1 b1 c1 [e2] eq_refl eq_refl)) as S10.
  pose proof (LS_step _ _ _ _ _ _ S10 (LOut levels [] [t1' (LCopy 1 (lb_len b1))] 2 e1 [] 4 c1 [e2] eq_refl)) as S11.
  pose proof (LS_step _ _ _ _ _ _ S11 (LDone levels [mk_lthread [] LIdle] [] 0 (str "x") [] 1 (lb_len b1) b1 c1 [e2; e1] eq_refl)) as S12.
  do 2 eexists. exists b2. split; [exact S12|]. split; [repeat constructor|].
  split; [reflexivity|]. split; [vm_compute; reflexivity|]. split; reflexivity.
Qed.

Example C135_example_loggers : forall j j' q q' l l' p p', j <> j' ->
  nth_error quiet_ps j = Some q -> nth_error quiet_ps j' = Some q' -> In (l, p) q -> In (l', p') q' ->
  stop demo_on (levels l) = Some 1%nat -> stop demo_on (levels l') = Some 1%nat -> l = l'.
Proof.
  assert (forall j q l p, nth_error quiet_ps j = Some q -> In (l, p) q -> stop demo_on (levels l) = Some 1%nat -> l = 0) as A.
  { intros [|[|[|]]] q l p H I; cbn in H; try discriminate H; injection H as <-; cbn in I;
      destruct I as [E|[E|[]]]; injection E as <- _; auto; intro X; vm_compute in X; discriminate X. }
  intros j j' q q' l l' p p' _ H H' I I' S S'. rewrite (A j q l p H I S), (A j' q' l' p' H' I' S'). reflexivity.
Qed.
