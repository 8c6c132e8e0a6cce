From Coq Require Import Lia.
From Verif Require Import Base M_Hid M_HidConc S_Ticks.

Definition b2n (b : bool) : nat := if b then 1%nat else 0%nat.

(* Waiters and the trigger make one token while the loop is at the select, none while it is in f. *)
Definition tick_inv (s : tick_state) : Prop :=
  let w := (tk_sleeping s + tk_sending s + b2n (tk_trigger s))%nat in
  match tk_main s with AtSelect => w = 1 | InFunction => w = 0 | Exited => w <= 1 end%nat /\
  match tk_handler s with
  | HRunning => tk_stop s = false /\ tk_main s <> Exited
  | _ => tk_stop s = match tk_main s with Exited => false | _ => true end
  end /\
  responses (tk_trace s) = match tk_handler s with HAnswered => 1 | _ => 0 end%nat.

Lemma keepalives_app : forall a b, keepalives (a ++ b) = (keepalives a + keepalives b)%nat.
Proof. induction a as [|x r IH]; intros; cbn; [reflexivity|]. destruct x; rewrite IH; reflexivity. Qed.

Lemma responses_app : forall a b, responses (a ++ b) = (responses a + responses b)%nat.
Proof. induction a as [|x r IH]; intros; cbn; [reflexivity|]. destruct x; rewrite IH; reflexivity. Qed.

Lemma tick_inv_init : tick_inv tick_init.
Proof. cbn. repeat split; discriminate. Qed.

Ltac tstep H :=
  match type of H with
  | tick_step ?s ?l = Some _ =>
    destruct s as [m sl sd tr st h e]; destruct l; cbn in H;
    repeat match type of H with
    | match ?x with _ => _ end = Some _ => destruct x eqn:?; try discriminate H; subst
    end; try discriminate H; injection H as H; subst
  end.

Lemma tick_inv_step : forall s l s', tick_step s l = Some s' -> tick_inv s -> tick_inv s'.
Proof.
  intros s l s' H I. tstep H; unfold tick_inv in *; cbn in *; rewrite ?responses_app; cbn;
    repeat match goal with
    | |- context [match ?x with _ => _ end] => is_var x; destruct x; cbn in *
    end; repeat split; intuition (try lia; try congruence; try discriminate).
Qed.

Lemma tick_inv_run : forall ls s s', tick_run s ls = Some s' -> tick_inv s -> tick_inv s'.
Proof.
  induction ls as [|l r IH]; intros s s' H I; cbn in H.
  - injection H as <-. exact I.
  - destruct (tick_step s l) as [t|] eqn:E; [|discriminate]. eapply IH; eauto using tick_inv_step.
Qed.

(* A measure of the moves left before the next expiration. *)
Definition tick_left (s : tick_state) : nat :=
  (3 * tk_sending s + 2 * b2n (tk_trigger s) +
   match tk_main s with AtSelect => 1 | InFunction => 2 | Exited => 0 end +
   match tk_handler s with HRunning => 2 | HStopped => 1 | HAnswered => 0 end)%nat.

Lemma tick_left_step : forall s l s', tick_step s l = Some s' ->
  (S (tick_left s') <= tick_left s + match l with TWake => 4 | _ => 0 end)%nat.
Proof.
  intros s l s' H. tstep H; unfold tick_left; cbn; lia.
Qed.

Lemma tick_length : forall ls s s', tick_run s ls = Some s' ->
  (length ls + tick_left s' <= tick_left s + 4 * wakes ls)%nat.
Proof.
  induction ls as [|l r IH]; intros s s' H; cbn in H.
  - injection H as <-. cbn. lia.
  - destruct (tick_step s l) as [t|] eqn:E; [|discriminate].
    specialize (IH t s' H). pose proof (tick_left_step s l t E) as Hs.
    destruct l; cbn [length wakes]; lia.
Qed.

(* Keepalives and what is on its way towards one. *)
Definition tick_credit (s : tick_state) : nat :=
  (keepalives (tk_trace s) + tk_sending s + b2n (tk_trigger s) +
   match tk_main s with InFunction => 1 | _ => 0 end)%nat.

Lemma tick_credit_step : forall s l s', tick_step s l = Some s' ->
  (tick_credit s' <= tick_credit s + match l with TWake => 1 | _ => 0 end)%nat.
Proof.
  intros s l s' H. tstep H; unfold tick_credit; cbn; rewrite ?keepalives_app; cbn; lia.
Qed.

Lemma tick_credit_run : forall ls s s', tick_run s ls = Some s' ->
  (tick_credit s' <= tick_credit s + wakes ls)%nat.
Proof.
  induction ls as [|l r IH]; intros s s' H; cbn in H.
  - injection H as <-. cbn. lia.
  - destruct (tick_step s l) as [t|] eqn:E; [|discriminate].
    specialize (IH t s' H). pose proof (tick_credit_step s l t E) as Hs.
    destruct l; cbn [wakes] in *; lia.
Qed.

Theorem ticks_hold : forall ls s, tick_run tick_init ls = Some s ->
  (tick_goroutines s <= 2)%nat /\
  ((0 < tk_sending s)%nat -> exists s', tick_step s TSend = Some s') /\
  (tk_handler s = HRunning -> exists s', tick_step s THandlerDone = Some s') /\
  (keepalives (tk_trace s) <= wakes ls)%nat /\ (responses (tk_trace s) <= 1)%nat /\
  (length ls <= 3 + 4 * wakes ls)%nat.
Proof.
  intros ls s H. pose proof (tick_inv_run _ _ _ H tick_inv_init) as I.
  pose proof (tick_credit_run _ _ _ H) as C. pose proof (tick_length _ _ _ H) as L.
  change (tick_credit tick_init) with 0%nat in C. change (tick_left tick_init) with 3%nat in L.
  destruct s as [m sl sd tr st h e]; unfold tick_inv, tick_credit, tick_goroutines in *; cbn in *.
  destruct I as [I1 [I2 I3]]. split; [destruct m; lia|]. split; [|split; [|split; [lia|split; [destruct h; lia|lia]]]].
  - intros Hs. destruct sd as [|k]; [lia|]. destruct tr; [|eauto].
    cbn in I1. destruct m; lia.
  - intros ->. destruct I2 as [-> _]. eauto.
Qed.

Theorem ticks_rest : forall ls s, tick_run tick_init ls = Some s -> tick_quiet s ->
  tick_gone s /\ responses (tk_trace s) = 1%nat.
Proof.
  intros ls s H Q. pose proof (tick_inv_run _ _ _ H tick_inv_init) as I.
  destruct s as [m sl sd tr st h e]; unfold tick_inv, tick_gone in *; cbn in *.
  destruct I as [I1 [I2 I3]].
  pose proof (Q TWake) as Q1. pose proof (Q TSend) as Q2. pose proof (Q TFunction) as Q3.
  pose proof (Q TSelStop) as Q4. pose proof (Q THandlerDone) as Q5. pose proof (Q TRespond) as Q6.
  cbn in *. destruct sl as [|k]; [|discriminate].
  destruct h; [destruct I2 as [-> _]; discriminate|discriminate|].
  destruct m; [subst st; discriminate|discriminate|].
  destruct sd as [|k]; [repeat split; exact I3|]. destruct tr; [cbn in I1; lia|discriminate].
Qed.

(* Whatever has happened, a schedule in which select prefers stop comes to rest in a few moves. *)
Theorem ticks_end : forall ls s, tick_run tick_init ls = Some s ->
  exists ls' s', tick_run s ls' = Some s' /\ (length ls' <= 6)%nat /\ (wakes ls' <= 1)%nat /\ tick_gone s'.
Proof.
  intros ls s H. pose proof (tick_inv_run _ _ _ H tick_inv_init) as I.
  destruct s as [m sl sd tr st h e]; unfold tick_inv in I; cbn in I. destruct I as [I1 [I2 I3]].
  assert (Hf : forall sl sd tr, (sl + sd + b2n tr <= 1)%nat -> forall h e, h = HAnswered ->
    exists ls' s', tick_run (mk_tick Exited sl sd tr false h e) ls' = Some s' /\
      (length ls' <= 2)%nat /\ (wakes ls' <= 1)%nat /\ tick_gone s').
  { intros a b c Hb h0 e0 ->. destruct a as [|[|a]]; [|destruct b; [destruct c|]|]; cbn in Hb; try lia.
    - destruct b as [|[|b]]; [|destruct c|]; cbn in Hb; try lia.
      + exists [], (mk_tick Exited 0 0 c false HAnswered e0). repeat split; cbn; lia.
      + exists [TSend]. eexists. split; [reflexivity|]. repeat split; cbn; lia.
    - exists [TWake; TSend]. eexists. split; [reflexivity|]. repeat split; cbn; lia. }
  assert (Hm : exists ls1 sl1 sd1 tr1 e1,
     tick_run (mk_tick m sl sd tr st h e) ls1 = Some (mk_tick Exited sl1 sd1 tr1 false HAnswered e1) /\
     (sl1 + sd1 + b2n tr1 <= 1)%nat /\ (length ls1 <= 4)%nat /\ wakes ls1 = 0%nat).
  { destruct m, h;
    first
    [ (exists []; destruct I2; repeat eexists; cbn; lia)
    | (destruct I2 as [_ I2]; congruence)
    | (exists []; subst st; do 4 eexists; split; [reflexivity|repeat split; cbn; lia])
    | (exists [TRespond]; subst st; do 4 eexists; split; [reflexivity|repeat split; cbn; lia])
    | (exists [TSelStop]; subst st; do 4 eexists; split; [reflexivity|repeat split; cbn; lia])
    | (exists [TRespond; TSelStop]; subst st; do 4 eexists; split; [reflexivity|repeat split; cbn; lia])
    | (exists [THandlerDone; TRespond; TSelStop]; destruct I2 as [-> _]; do 4 eexists; split; [reflexivity|repeat split; cbn; lia])
    | (exists [TFunction; TSelStop]; subst st; do 4 eexists; split; [reflexivity|repeat split; cbn; lia])
    | (exists [TFunction; TRespond; TSelStop]; subst st; do 4 eexists; split; [reflexivity|repeat split; cbn; lia])
    | (exists [TFunction; THandlerDone; TRespond; TSelStop]; destruct I2 as [-> _]; do 4 eexists; split; [reflexivity|repeat split; cbn; lia])
    ]. }
  destruct Hm as [ls1 [sl1 [sd1 [tr1 [e1 [R1 [B1 [L1 W1]]]]]]]].
  destruct (Hf sl1 sd1 tr1 B1 HAnswered e1 eq_refl) as [ls2 [s2 [R2 [L2 [W2 G]]]]].
  exists (ls1 ++ ls2), s2.
  assert (Ra : forall a s t b, tick_run s a = Some t -> tick_run s (a ++ b) = tick_run t b).
  { induction a as [|x a IH]; intros s0 t b Ht; cbn in *; [congruence|]. destruct (tick_step s0 x); [auto|discriminate]. }
  assert (Wa : forall a b, wakes (a ++ b) = (wakes a + wakes b)%nat).
  { induction a as [|x a IH]; intros b; cbn; [reflexivity|]. destruct x; rewrite IH; reflexivity. }
  rewrite (Ra _ _ _ _ R1). split; [exact R2|]. rewrite app_length, Wa. repeat split; try lia; apply G.
Qed.

(* Go's select takes either ready channel, so the loop may go on for any number of expirations. *)
Fixpoint laps (n : nat) : list tick_label :=
  match n with O => [] | S n => TWake :: TSend :: TSelTrigger :: TFunction :: laps n end.

Lemma laps_run : forall n e, exists s,
  tick_run (mk_tick AtSelect 1 0 false true HAnswered e) (laps n) = Some s /\ wakes (laps n) = n.
Proof.
  induction n as [|n IH]; intros e.
  - eexists. split; reflexivity.
  - destruct (IH (e ++ [EvKeepalive])) as [s [R W]]. exists s. split; [exact R|]. cbn. congruence.
Qed.

Theorem ticks_prompt_refuted : forall n, exists ls1 ls2 s1 s2,
  tick_run tick_init ls1 = Some s1 /\ tk_handler s1 = HAnswered /\ tick_run s1 ls2 = Some s2 /\ wakes ls2 = n.
Proof.
  intros n. destruct (laps_run n [EvResponse]) as [s [R W]].
  exists [THandlerDone; TRespond], (laps n), (mk_tick AtSelect 1 0 false true HAnswered [EvResponse]), s.
  split; [reflexivity|]. split; [reflexivity|]. split; [exact R|exact W].
Qed.
