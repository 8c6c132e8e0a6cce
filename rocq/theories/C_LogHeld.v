(* Property C134: what the log keeps in memory. *)
From Verif Require Import Base M_Str M_Log S_Log P_Log.

(* The buffer a kind of text waits in. *)
Definition waiting (k : kind) (s : log_state) : bytes :=
  match k with
  | KUnsafe => unsafe_buf s | KTrace => trace_buf s | KDebug => debug_buf s | KEnabled => enabled_buf s
  end.
Definition kept (s : log_state) : N :=
  len (waiting KUnsafe s) + len (waiting KTrace s) + len (waiting KDebug s) + len (waiting KEnabled s).

(* ---------------------------------------------------------------- C134 *)
(* With a writer set, there is a bound to what the log keeps in memory. *)
Definition C134_full : Prop :=
  exists B, forall cs s o, log_run cs log_start = Ok s -> writer cs None = Some o -> kept s <= B.

(* True of the kinds that are enabled: nothing of them is kept. *)
Theorem C134_enabled_partial : forall cs s o k,
  log_run cs log_start = Ok s -> writer cs None = Some o -> enabled k cs = true -> waiting k s = [].
Proof.
  intros cs s o k R W E. destruct (log_run_inv cs s R) as [V [H O]]. rewrite W in O.
  destruct k; cbn [waiting].
  - pose proof (vi_ub _ _ V) as X. pose proof (vi_u _ _ V) as Y. rewrite Y, E in X. exact X.
  - pose proof (vi_tb _ _ V) as X. pose proof (vi_t _ _ V) as Y. rewrite Y, E in X. exact X.
  - pose proof (vi_db _ _ V) as X. pose proof (vi_d _ _ V) as Y. rewrite Y, E in X. exact X.
  - exact (H o O).
Qed.
Print Assumptions C134_enabled_partial.

(* Of the other kinds everything is kept, for ever. *)
Theorem C134_kept : forall cs s k,
  log_run cs log_start = Ok s -> enabled k cs = false -> waiting k s = concat (logged k cs).
Proof.
  intros cs s k R E. destruct (log_run_inv cs s R) as [V _].
  destruct k; cbn [waiting]; [| | |discriminate E].
  - pose proof (vi_ub _ _ V) as X. pose proof (vi_u _ _ V) as Y. rewrite Y, E in X. exact X.
  - pose proof (vi_tb _ _ V) as X. pose proof (vi_t _ _ V) as Y. rewrite Y, E in X. exact X.
  - pose proof (vi_db _ _ V) as X. pose proof (vi_d _ _ V) as Y. rewrite Y, E in X. exact X.
Qed.
Print Assumptions C134_kept.

Lemma run_app cs ds s t : log_run cs s = Ok t -> log_run (cs ++ ds) s = log_run ds t.
Proof.
  revert s. induction cs as [|c cs IH]; intros s H; cbn in H; [now injection H as <-|].
  cbn [app log_run]. destruct (log_step s c) as [u|]; [now apply IH|discriminate H].
Qed.
Lemma logged_app k a b : logged k (a ++ b) = logged k a ++ logged k b.
Proof.
  induction a as [|[] a IH]; cbn [app logged]; [reflexivity| | |exact IH]; now rewrite IH, app_assoc.
Qed.
Lemma logged_in l p cs : In (LWrite l p) cs -> In p (logged (kind_of l) cs).
Proof.
  induction cs as [|c cs IH]; [intros []|]. intros [->|I].
  - cbn [logged]. apply in_or_app. left. now destruct (kind_of l); left.
  - destruct c; cbn [logged]; try (apply in_or_app; right); auto.
Qed.
Lemma in_concat_infix p (l : list bytes) : In p l -> exists a b, concat l = a ++ p ++ b.
Proof.
  induction l as [|x l IH]; [intros []|]. intros [->|I].
  - exists [], (concat l). reflexivity.
  - destruct (IH I) as (a & b & E). exists (x ++ a), b. cbn. now rewrite E, app_assoc.
Qed.

(* Whoever can set the level reads everything ever logged, secrets included, however long
   ago and whatever the level was then. *)
Theorem C134_disclosed : forall cs s o l p,
  log_run cs log_start = Ok s -> writer cs None = Some o -> In (LWrite l p) cs ->
  exists s' a b, log_step s (LSetLevel 0) = Ok s' /\ shown s' = a ++ p ++ b.
Proof.
  intros cs s o l p R W I. exists (set_level 0 s).
  assert (log_run (cs ++ [LSetLevel 0]) log_start = Ok (set_level 0 s)) as R'
    by (now rewrite (run_app _ _ _ _ R)).
  assert (writer (cs ++ [LSetLevel 0]) None = Some o) as W' by (rewrite writer_app; exact W).
  destruct (log_shown _ _ _ R' W') as (m & S & M).
  assert (enabled (kind_of l) (cs ++ [LSetLevel 0]) = true) as En
    by (destruct (kind_of l); unfold enabled; try reflexivity; rewrite existsb_app; cbn;
        now rewrite Bool.orb_true_r).
  specialize (M (kind_of l)). rewrite En in M.
  assert (In p (part (kind_of l) m)) as J
    by (rewrite M, logged_app; apply in_or_app; left; now apply logged_in).
  assert (In p (map snd m)) as J'.
  { unfold part in J. apply in_map_iff in J. destruct J as (x & <- & Q). apply filter_In in Q.
    apply in_map_iff. exists x. tauto. }
  destruct (in_concat_infix _ _ J') as (a & b & E).
  exists a, b. split; [reflexivity|]. now rewrite S.
Qed.
Print Assumptions C134_disclosed.

Lemma many_kept n s : trace_on s = false ->
  exists s', log_run (repeat (LWrite 1 [10]) n) s = Ok s' /\ trace_on s' = false /\
    len (trace_buf s') = len (trace_buf s) + N.of_nat n.
Proof.
  revert s. induction n as [|n IH]; intros s T.
  - exists s. cbn. repeat split; auto. lia.
  - cbn [repeat log_run log_step]. change (log_write 1 [10] s) with (write_trace [10] s).
    unfold write_trace. rewrite T. destruct (IH (mk_log (unsafe_buf s) (unsafe_on s) (trace_buf s ++ [10])
      false (debug_buf s) (debug_on s) (enabled_buf s) (enabled_out s) (sink s)) eq_refl) as (s' & R & T' & L).
    exists s'. split; [exact R|]. split; [exact T'|]. cbn [trace_buf] in L. rewrite L, len_app. unfold len. cbn. lia.
Qed.

Theorem C134_refuted : ~ C134_full.
Proof.
  intros (B & F).
  destruct (many_kept (S (N.to_nat B)) (mk_log [] false [] false [] false [] (Some 1) []) eq_refl) as (s & R & _ & L).
  assert (log_run (LSetOutput (Some 1) :: repeat (LWrite 1 [10]) (S (N.to_nat B))) log_start = Ok s) as R' by exact R.
  assert (forall n o, writer (repeat (LWrite 1 [10]) n) o = o) as Hw by (intro n; induction n; intro; cbn; auto).
  specialize (F _ s 1 R'). cbn [writer] in F. specialize (F (Hw _ _)).
  unfold kept in F. cbn [waiting] in F. cbn [trace_buf] in L. unfold len in *. cbn [length] in L. lia.
Qed.
Print Assumptions C134_refuted.

(* A device at the level of the demo (debug) logs a key with the unsafe logger, and much
   later the level is lowered. *)
Definition demo_log : list log_call :=
  [LSetOutput (Some 1); LSetLevel 2; LWrite 0 (str "private key"); LWrite 1 (str "packet"); LWrite 2 (str "request")].
Definition demo_state : log_state :=
  match log_run demo_log log_start with Ok s => s | Panic => log_start end.
Definition lowered : log_state := set_level 0 demo_state.
Example C134_example :
  log_run demo_log log_start = Ok demo_state /\ writer demo_log None = Some 1 /\
  enabled KDebug demo_log = true /\ enabled KUnsafe demo_log = false /\
  waiting KDebug demo_state = [] /\ waiting KUnsafe demo_state = str "private key" /\ kept demo_state = 17 /\
  sink demo_state = [(1, str "[LOG] Log Level Set: 2" ++ [10]); (1, str "request")] /\
  sink lowered = sink demo_state ++ [(1, str "packetprivate key"); (1, str "[LOG] Log Level Set: 0" ++ [10])].
Proof. vm_compute. repeat split. Qed.
