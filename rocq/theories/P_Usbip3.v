(* C20, C21, C25 from the session invariant. *)
From Verif Require Import Base M_Util M_Usb M_ReqBuf M_Usbip S_ReqBuf S_Usbip S_UsbipSys
  P_ReqBuf P_Usb P_Usbip1 P_Usbip2.

Lemma nodup_app_l {A} (l r : list A) : NoDup (l ++ r) -> NoDup l.
Proof.
  induction l as [|x l IH]; intro H; [constructor|]. inversion H; subst. constructor; auto.
  intro I. apply H2. apply in_or_app. now left.
Qed.

Lemma sys_step_log s l s' : sys_step s l = Some s' -> exists x, sy_log s' = sy_log s ++ x.
Proof.
  destruct l as [| |choice data|j|j]; cbn [sys_step]; intro E.
  - destruct (sy_pending s); [discriminate|]. destruct (conn_step _ _) as [c a].
    exists [a]. destruct a as [|r|d h st b|d h t].
    + now injection E as <-.
    + now injection E as <-.
    + destruct (hd_ep h =? 0); [destruct (handle_control_message _); now injection E as <-|].
      destruct (hd_ep h =? 1).
      * destruct (in_step _ _); [|discriminate]. now injection E as <-.
      * destruct (hd_ep h =? 2); now injection E as <-.
    + destruct (in_step _ _); [|discriminate]. now injection E as <-.
  - destruct (sy_pending s); [|discriminate]. injection E as <-. exists []. now rewrite app_nil_r.
  - destruct (in_step _ _); [|discriminate]. injection E as <-. exists []. now rewrite app_nil_r.
  - destruct (nth_error _ _) as [f|]; [|discriminate]. cbn [obind] in E.
    destruct (nth_error _ _) as [[h b]|]; [|discriminate]. cbn [obind] in E.
    destruct (in_step _ _); [|discriminate]. injection E as <-. exists []. now rewrite app_nil_r.
  - destruct (in_step _ _); [|discriminate]. injection E as <-. exists []. now rewrite app_nil_r.
Qed.

Lemma sys_run_log ls : forall s s', sys_run s ls = Some s' -> exists x, sy_log s' = sy_log s ++ x.
Proof.
  induction ls as [|l ls IH]; intros s s' E; cbn [sys_run] in E.
  - injection E as <-. exists []. now rewrite app_nil_r.
  - destruct (sys_step s l) as [s1|] eqn:E1; [|discriminate]. cbn [obind] in E.
    destruct (sys_step_log _ _ _ E1) as [x X]. destruct (IH _ _ E) as [y Y].
    exists (x ++ y). now rewrite Y, X, app_assoc.
Qed.

Lemma sys_run_inv ls : forall s s', sys_inv s -> sys_run s ls = Some s' ->
  NoDup (submit_seqs (sy_log s')) -> sys_inv s'.
Proof.
  induction ls as [|l ls IH]; intros s s' I E ND; cbn [sys_run] in E.
  - now injection E as <-.
  - destruct (sys_step s l) as [s1|] eqn:E1; [|discriminate]. cbn [obind] in E.
    apply (IH s1); auto. eapply sys_step_inv; eauto.
    destruct (sys_run_log _ _ _ E) as [x X]. rewrite X in ND. unfold submit_seqs in *.
    rewrite submits_app, map_app in ND. now apply nodup_app_l in ND.
Qed.

Lemma sys_reach stream ls s : Forall wfb stream -> sys_run (sys_init stream) ls = Some s ->
  NoDup (submit_seqs (sy_log s)) -> sys_inv s.
Proof. intros W. apply sys_run_inv. now apply sys_init_inv. Qed.

(* -------------------------------------------------- counting *)
Lemma nodup_map_inj {A B} (f : A -> B) l x y : NoDup (map f l) -> In x l -> In y l -> f x = f y -> x = y.
Proof.
  induction l as [|z l IH]; intros N Hx Hy E; [easy|]. cbn in N. inversion N; subst.
  destruct Hx as [->|Hx], Hy as [->|Hy]; auto.
  - exfalso. apply H1. rewrite E. now apply in_map.
  - exfalso. apply H1. rewrite <- E. now apply in_map.
Qed.

Lemma filter_unique {A} (f : A -> N) (p : A -> bool) l x : NoDup (map f l) -> In x l ->
  filter (fun y => p y && (f y =? f x)) l = if p x then [x] else [].
Proof.
  induction l as [|z l IH]; intros N H; [easy|]. cbn in N. inversion N; subst. cbn [filter].
  assert (forall l', ~ In (f x) (map f l') -> filter (fun y => p y && (f y =? f x)) l' = []) as Z.
  { induction l' as [|w l' IH']; intro Q; auto. cbn in Q |- *.
    replace (f w =? f x) with false by (symmetry; apply N.eqb_neq; tauto).
    rewrite andb_false_r. apply IH'. tauto. }
  destruct H as [->|H].
  - rewrite N.eqb_refl, andb_true_r. rewrite Z by assumption. reflexivity.
  - assert (f z <> f x) as D by (intro E; apply H2; rewrite E; now apply in_map).
    replace (f z =? f x) with false by (symmetry; now apply N.eqb_neq).
    rewrite andb_false_r. now apply IH.
Qed.

Lemma filter_none {A} (p : A -> bool) l : (forall x, In x l -> p x = false) -> filter p l = [].
Proof.
  induction l as [|x l IH]; intro H; auto. cbn. rewrite H by now left. apply IH. intros; apply H; now right.
Qed.

Lemma dropN_app_le {A} (a b : list A) n : n <= len a -> dropN n (a ++ b) = dropN n a ++ b.
Proof.
  intro H. rewrite dropN_app. replace (n - len a) with 0 by lia. now rewrite dropN_0.
Qed.
Lemma takeN_app_le {A} (a b : list A) n : n <= len a -> takeN n (a ++ b) = takeN n a.
Proof.
  intro H. rewrite takeN_app. replace (n - len a) with 0 by lia. now rewrite takeN_0, app_nil_r.
Qed.

Section Counts.
Variable s : sys.
Hypothesis I : sys_inv s.
Hypothesis ND : NoDup (submit_seqs (sy_log s)).

Lemma cb_count k h b : nth_error (sy_subs s) k = Some (h, b) ->
  length (filter (cb_for (sy_subs s) (hd_seq h)) (in_trace (sy_in s))) = completions k (in_trace (sy_in s)).
Proof.
  intro K. unfold completions. f_equal. apply filter_ext. intros [| |j v| |]; auto. cbn [cb_for].
  destruct (nth_error (sy_subs s) j) as [[h' b']|] eqn:J.
  - destruct (N.eqb_spec (hd_seq h') (hd_seq h)) as [E|E].
    + assert (j = k) as ->; [|symmetry; apply Nat.eqb_refl].
      pose proof (iv_ids _ (si_in s I)) as N. rewrite (si_subs s I) in N.
      assert (j < length (map (fun x : header * bytes => hd_seq (fst x)) (sy_subs s)))%nat as L
        by (rewrite map_length; apply nth_error_Some; congruence).
      rewrite NoDup_nth_error in N. apply N; auto.
      rewrite !nth_error_map, J, K. cbn. now rewrite E.
    + symmetry. apply Nat.eqb_neq. intros ->. congruence.
  - symmetry. apply Nat.eqb_neq. intros ->. congruence.
Qed.

Lemma cb_none q : (forall h b, In (h, b) (sy_subs s) -> hd_seq h <> q) ->
  filter (cb_for (sy_subs s) q) (in_trace (sy_in s)) = [].
Proof.
  intro H. apply filter_none. intros [| |j v| |] _; auto. cbn.
  destruct (nth_error (sy_subs s) j) as [[h b]|] eqn:J; auto. apply N.eqb_neq.
  apply (H h b). eapply nth_error_In; eauto.
Qed.

Lemma immediate_count h st b : In (h, st, b) (submits_of (sy_log s)) ->
  length (filter (fun x => immediate x && (hd_seq (fst (fst x)) =? hd_seq h)%N) (submits_of (sy_log s))) =
  if immediate (h, st, b) then 1%nat else 0%nat.
Proof.
  intro H. pose proof (filter_unique (fun x : header * bytes * bytes => hd_seq (fst (fst x))) immediate
    (submits_of (sy_log s)) (h, st, b) ND H) as F. cbn [fst] in F. rewrite F.
  destruct (immediate (h, st, b)); reflexivity.
Qed.

(* what has been written or is about to be written for a submit *)
Lemma answered_in h st b : In (h, st, b) (submits_of (sy_log s)) -> hd_ep h = 1 ->
  exists k, In (k, hd_seq h) (submissions (in_trace (sy_in s))) /\
    answered (hd_seq h) (sy_out s ++ opt_list (sy_pending s)) = completions k (in_trace (sy_in s)).
Proof.
  intros H E. destruct (si_log2 s I h st b H) as (A & C & Q & _).
  specialize (A E). apply In_nth_error in A as [k K]. exists k. split.
  - pose proof (iv_keys _ (si_in s I)) as Ky. pose proof (si_subs s I) as Sb.
    assert (nth_error (map (fun x : header * bytes => hd_seq (fst x)) (sy_subs s)) k = Some (hd_seq h)) as E1
      by (rewrite nth_error_map, K; reflexivity).
    rewrite <- Sb in E1. rewrite nth_error_map in E1.
    destruct (nth_error (submissions (in_trace (sy_in s))) k) as [[k' id]|] eqn:E2; [|discriminate].
    cbn in E1. injection E1 as ->. apply (f_equal (fun l => nth_error l k)) in Ky.
    rewrite nth_error_map, E2 in Ky. cbn in Ky.
    assert (k < in_next (sy_in s))%nat as L.
    { rewrite <- (subs_len s I). apply nth_error_Some. congruence. }
    rewrite nth_error_nth' with (d := 0%nat) in Ky by now rewrite seq_length.
    rewrite seq_nth in Ky by exact L. injection Ky as ->. eapply nth_error_In; eauto.
  - rewrite (si_count s I _ Q), (immediate_count h st b H), (cb_count k h b K).
    replace (immediate (h, st, b)) with false; [lia|]. unfold immediate. now rewrite E.
Qed.

Lemma answered_now h st b : In (h, st, b) (submits_of (sy_log s)) -> hd_ep h <> 1 ->
  answered (hd_seq h) (sy_out s ++ opt_list (sy_pending s)) = (if immediate (h, st, b) then 1 else 0)%nat /\
  unlinks (hd_seq h) (in_trace (sy_in s)) = 0%nat.
Proof.
  intros H E. destruct (si_log2 s I h st b H) as (_ & C & Q & _).
  assert (forall h' b', In (h', b') (sy_subs s) -> hd_seq h' <> hd_seq h) as D.
  { intros h' b' Hs E'. destruct (si_log1 s I h' b' Hs) as [E1 [st' H']].
    pose proof (nodup_map_inj (fun x : header * bytes * bytes => hd_seq (fst (fst x))) _ _ _ ND H' H E') as X.
    injection X as -> _ _. contradiction. }
  split.
  - rewrite (si_count s I _ Q), (immediate_count h st b H), cb_none by exact D. reflexivity.
  - apply (iv_fresh_id _ (si_in s I)). rewrite (si_subs s I). intro M.
    apply in_map_iff in M as ([h' b'] & M1 & M2). eapply D; eauto.
Qed.

Lemma answered_unknown q : q < 4294967296 -> ~ In q (submit_seqs (sy_log s)) ->
  answered q (sy_out s ++ opt_list (sy_pending s)) = 0%nat.
Proof.
  intros Q H. rewrite (si_count s I q Q). rewrite cb_none, filter_none; auto.
  - intros x Hx. replace (hd_seq (fst (fst x)) =? q) with false; [apply andb_false_r|].
    symmetry. apply N.eqb_neq. intros <-. apply H.
    exact (in_map (fun x : header * bytes * bytes => hd_seq (fst (fst x))) _ _ Hx).
  - intros h b Hb <-. destruct (si_log1 s I h b Hb) as [_ [st Hs]]. apply H.
    unfold submit_seqs. apply (in_map (fun x : header * bytes * bytes => hd_seq (fst (fst x)))) in Hs. exact Hs.
Qed.

Lemma answered_le q : q < 4294967296 -> (answered q (sy_out s) <= 1)%nat.
Proof.
  intro Q. enough (answered q (sy_out s ++ opt_list (sy_pending s)) <= 1)%nat by (rewrite answered_app in H; lia).
  destruct (in_dec N.eq_dec q (submit_seqs (sy_log s))) as [H|H].
  - unfold submit_seqs in H. apply in_map_iff in H as ([[h st] b] & E & H). cbn in E. subst q.
    destruct (N.eq_dec (hd_ep h) 1) as [E1|E1].
    + destruct (answered_in h st b H E1) as (k & K & ->).
      pose proof (iv_count _ (si_in s I) k _ K). lia.
    + destruct (answered_now h st b H E1) as [-> _]. destruct (immediate _); lia.
  - rewrite answered_unknown; auto.
Qed.

End Counts.

(* -------------------------------------------------- C20 *)
Lemma supported_control_ok st : wfb st -> control_answered (read_setup st) = supported_control st.
Proof.
  intro W. unfold control_answered, supported_control, handle_control_message.
  unfold handle_device_request, handle_interface_request, read_setup. cbn [su_type su_request su_value].
  assert (forall i, nth i st 0 < 256) as B.
  { intro i. destruct (nth_in_or_default i st 0) as [H|H]; [|rewrite H; reflexivity].
    apply (proj1 (Forall_forall _ _) W). exact H. }
  assert (recipient (nth 0 st 0) = nth 0 st 0 mod 16) as ->
    by (unfold recipient; change 15 with (N.ones 4); apply N.land_ones).
  assert (descriptor_type_and_index (le_dec (takeN 2 (dropN 2 st))) = (nth 3 st 0, nth 2 st 0)) as D.
  { unfold descriptor_type_and_index. rewrite N.shiftr_div_pow2.
    change 0xFF with (N.ones 8). rewrite N.land_ones. change (2 ^ 8) with 256.
    assert (le_dec (takeN 2 (dropN 2 st)) = nth 2 st 0 + 256 * nth 3 st 0) as ->.
    { destruct st as [|a [|b [|c [|d st]]]]; try reflexivity; cbn [nth].
      change (takeN 2 (dropN 2 (a :: b :: c :: d :: st))) with [c; d]. cbn [le_dec]. lia. }
    specialize (B 2%nat). f_equal; lia. }
  destruct (_ =? 0).
  - rewrite D.
    destruct (N.eqb_spec (nth 1 st 0) 6) as [->|N6].
    + cbn [N.eqb Pos.eqb orb andb]. unfold get_descriptor. destruct (nth 3 st 0 =? d_device) eqn:T1.
      { cbn. unfold d_device in T1. rewrite T1. reflexivity. }
      unfold d_device in T1. rewrite T1.
      destruct (nth 3 st 0 =? d_configuration) eqn:T2.
      { unfold d_configuration in T2. rewrite T2. reflexivity. }
      unfold d_configuration in T2. rewrite T2. unfold d_string.
      destruct (nth 3 st 0 =? 3); auto. cbn [rbind orb andb].
      unfold string_descriptor. destruct (nth 2 st 0) as [|p]; auto.
      do 3 (destruct p; try reflexivity); cbn [rbind]; symmetry; apply N.ltb_ge; lia.
    + destruct (nth 1 st 0 =? 9), (nth 1 st 0 =? 0); reflexivity.
  - destruct (_ =? 1); auto. rewrite D. unfold d_hid_report.
    destruct (nth 1 st 0 =? 10), (nth 1 st 0 =? 11), (nth 1 st 0 =? 6), (nth 3 st 0 =? 34); reflexivity.
Qed.

Lemma supported_immediate s h st b : sys_inv s -> In (h, st, b) (submits_of (sy_log s)) ->
  hd_ep h <> 1 -> immediate (h, st, b) = supported (h, st, b).
Proof.
  intros I H E. destruct (si_log2 s I h st b H) as (_ & _ & _ & _ & _ & W).
  unfold immediate, supported. rewrite supported_control_ok by exact W.
  replace (hd_ep h =? 1) with false by (symmetry; now apply N.eqb_neq). reflexivity.
Qed.

Lemma at_most_one stream ls s : Forall wfb stream -> sys_run (sys_init stream) ls = Some s ->
  NoDup (submit_seqs (sy_log s)) -> forall q, q < 4294967296 ->
  (answered q (sy_out s) <= 1)%nat /\
  (answered q (sy_out s) <> 0%nat ->
   exists x, In x (submits_of (sy_log s)) /\ hd_seq (fst (fst x)) = q /\ supported x = true).
Proof.
  intros W E ND q Q. pose proof (sys_reach _ _ _ W E ND) as I. split; [now apply answered_le|].
  intro NZ. destruct (in_dec N.eq_dec q (submit_seqs (sy_log s))) as [H|H].
  - unfold submit_seqs in H. apply in_map_iff in H as ([[h st] b] & E1 & H). cbn in E1. subst q.
    exists (h, st, b). split; auto. split; auto.
    destruct (N.eq_dec (hd_ep h) 1) as [E1|E1].
    + unfold supported. now rewrite E1.
    + rewrite <- (supported_immediate s h st b I H E1).
      destruct (answered_now s I ND h st b H E1) as [A _]. rewrite answered_app in A.
      destruct (immediate (h, st, b)); auto. lia.
  - pose proof (answered_unknown s I q Q H) as A. rewrite answered_app in A. lia.
Qed.

Lemma quiet_answered stream ls s : Forall wfb stream -> sys_run (sys_init stream) ls = Some s ->
  NoDup (submit_seqs (sy_log s)) -> session_quiet s ->
  forall x, In x (submits_of (sy_log s)) ->
  (answered (hd_seq (fst (fst x))) (sy_out s) + unlinks (hd_seq (fst (fst x))) (in_trace (sy_in s)) =
   if supported x then 1 else 0)%nat.
Proof.
  intros W E ND (P & T & F) [[h st] b] H. pose proof (sys_reach _ _ _ W E ND) as I. cbn [fst].
  assert (sy_out s ++ opt_list (sy_pending s) = sy_out s) as O by (rewrite P; apply app_nil_r).
  destruct (N.eq_dec (hd_ep h) 1) as [E1|E1].
  - destruct (answered_in s I ND h st b H E1) as (k & K & A). rewrite O in A. rewrite A.
    replace (supported (h, st, b)) with true by (unfold supported; now rewrite E1).
    pose proof (iv_count _ (si_in s I) k _ K) as C. unfold flies in C. rewrite F in C. cbn [filter length] in C.
    assert (rb_waiting (in_buf (sy_in s)) = []) as Wt.
    { destruct (rb_waiting (in_buf (sy_in s))) as [|[i j] w] eqn:Ew; auto.
      destruct (iv_wait _ (si_in s I) i j) as [_ B]; [rewrite Ew; now left|]. now rewrite T in B. }
    unfold waits in C. rewrite Wt in C. cbn [filter length] in C. lia.
  - rewrite <- (supported_immediate s h st b I H E1).
    destruct (answered_now s I ND h st b H E1) as [A ->]. rewrite O in A. rewrite A.
    destruct (immediate _); reflexivity.
Qed.

(* every session can become quiet without reading more: the timers, the running
   callbacks and the pending write are enough *)
Lemma session_settles stream ls s : Forall wfb stream -> sys_run (sys_init stream) ls = Some s ->
  NoDup (submit_seqs (sy_log s)) ->
  exists ls' s', sys_run s ls' = Some s' /\ session_quiet s' /\ sy_log s' = sy_log s.
Proof.
  intros W E ND. pose proof (sys_reach _ _ _ W E ND) as I. clear W E ls stream.
  assert (exists n, (2 * length (in_timers (sy_in s)) + length (in_flight (sy_in s)) +
    length (opt_list (sy_pending s)) = n)%nat) as [n En] by eauto.
  revert s ND I En. induction n as [n IH] using lt_wf_ind. intros s ND I En.
  assert (forall l s1, sys_step s l = Some s1 -> sy_log s1 = sy_log s ->
    (2 * length (in_timers (sy_in s1)) + length (in_flight (sy_in s1)) +
     length (opt_list (sy_pending s1)) < n)%nat ->
    exists ls' s', sys_run s ls' = Some s' /\ session_quiet s' /\ sy_log s' = sy_log s) as Go.
  { intros l s1 S L M. assert (NoDup (submit_seqs (sy_log s1))) as ND1 by now rewrite L.
    destruct (IH _ M s1 ND1 (sys_step_inv _ _ _ I S ND1) eq_refl) as (ls' & s' & R & Q & L').
    exists (l :: ls'), s'. cbn [sys_run]. rewrite S. cbn [obind]. split; auto. split; auto. congruence. }
  destruct (sy_pending s) as [f|] eqn:P.
  { eapply (Go SWrite); [cbn [sys_step]; rewrite P; reflexivity|reflexivity|cbn in *; lia]. }
  destruct (in_flight (sy_in s)) as [|f fs] eqn:F.
  - destruct (in_timers (sy_in s)) as [|[id k] ts] eqn:T.
    + exists [], s. cbn. split; auto. split; auto. split; auto.
    + assert (exists i, in_step (sy_in s) (ITimeout 0) = Some i /\
        (length (in_timers i) <= length ts)%nat /\ (length (in_flight i) <= 1)%nat) as (i & Si & Li & Fi).
      { cbn [in_step]. rewrite T. cbn [nth_error]. destruct (rb_cancel (in_buf (sy_in s)) id) as [bf r].
        eexists. split; [reflexivity|]. cbn. rewrite F. destruct r; cbn; auto. }
      eapply (Go (STimeout 0)); [cbn [sys_step]; rewrite Si; reflexivity|reflexivity|].
      cbn [sy_in sy_pending]. rewrite P. cbn in En |- *. lia.
  - assert (exists h b, nth_error (sy_subs s) (fl_key f) = Some (h, b)) as (h & b & Eh).
    { assert (fl_key f < in_next (sy_in s))%nat as B by (eapply flight_bound; [apply (si_in s I)|rewrite F; now left]).
      rewrite <- (subs_len s I) in B. apply nth_error_Some in B.
      destruct (nth_error (sy_subs s) (fl_key f)) as [[h b]|]; [eauto|contradiction]. }
    assert (exists i, in_step (sy_in s) (IRun 0) = Some i /\
      in_timers i = in_timers (sy_in s) /\ in_flight i = fs) as (i & Si & Li & Fi).
    { cbn [in_step]. rewrite F. cbn [nth_error]. eexists. split; [reflexivity|]. auto. }
    eapply (Go (SRun 0)); [cbn [sys_step]; rewrite F; cbn [nth_error obind]; rewrite Eh, Si; reflexivity|reflexivity|].
    cbn [sy_in sy_pending]. rewrite P, Li, Fi. cbn in En |- *. lia.
Qed.

(* -------------------------------------------------- C21 *)
Lemma client_reads log is_in frames replies :
  (forall h st b, In (h, st, b) (submits_of log) ->
     is_in (hd_seq h) = (hd_dir h =? 1) /\ hd_seq h < 4294967296 /\ len b < 4294967296) ->
  (forall h, In h (unlinks_of log) -> hd_seq h < 4294967296) ->
  Forall2 (reply_to log) frames replies ->
  client_read (length frames) is_in (concat frames) = Some replies.
Proof.
  intros Hs Hu F. induction F as [|f r frames replies R F IH]; [reflexivity|].
  cbn [length concat].
  enough (exists n, len f = 48 + n /\ u32_at 0 f = fst (fst (fst r)) /\ u32_at 4 f = snd (fst (fst r)) /\
    u32_at 20 f = snd (fst r) /\ dropN 48 f = snd r /\ len (snd r) = n /\
    n = (if (u32_at 0 f =? 3) && is_in (u32_at 4 f) then u32_at 24 f else 0)) as (n & L & U0 & U4 & U20 & D & Ln & En).
  { assert (forall i g, i + 4 <= 48 -> u32_at i (f ++ g) = u32_at i f) as UA.
    { intros i g Hi. unfold u32_at. rewrite dropN_app_le, takeN_app_le; auto.
      - rewrite dropN_len. lia. - lia. }
    destruct (f ++ concat frames) as [|x y] eqn:Ef.
    { apply (f_equal len) in Ef. rewrite len_app, L in Ef. change (len (@nil N)) with 0 in Ef. lia. }
    cbn [client_read]. rewrite <- Ef. clear Ef x y.
    replace (len (f ++ concat frames) <? 48) with false by (symmetry; apply N.ltb_ge; rewrite len_app; lia).
    rewrite !UA by lia. rewrite <- En.
    replace (len (f ++ concat frames) <? 48 + n) with false by (symmetry; apply N.ltb_ge; rewrite len_app; lia).
    rewrite dropN_exact by exact L. rewrite IH. f_equal. f_equal.
    rewrite dropN_app_le by lia. rewrite D, takeN_exact by exact Ln.
    rewrite U0, U4, U20. destruct r as [[[? ?] ?] ?]. reflexivity. }
  destruct R as [h st b payload Hi Lp|h removed Hi].
  - destruct (Hs h st b Hi) as (D & Q & B). cbn [fst snd].
    destruct (ret_submit_parts (hd_seq h) (len b) payload Q B) as (L & U0 & U4 & U20 & U24 & Dp).
    exists (len payload). rewrite U0, U4, U20, U24, Dp, D.
    split; auto. do 5 (split; auto).
  - cbn [fst snd]. destruct (ret_unlink_parts (hd_seq h) removed (Hu h Hi)) as (L & U0 & U4 & U20).
    exists 0. rewrite U0, U4, U20. split; auto. do 3 (split; auto). split; [|split; auto].
    assert (len (dropN 48 (spec_ret_unlink (hd_seq h) removed)) = 0) as Z by (rewrite dropN_len, L; reflexivity).
    now apply len_0_nil in Z.
Qed.

Lemma framed stream ls s is_in : Forall wfb stream -> sys_run (sys_init stream) ls = Some s ->
  NoDup (submit_seqs (sy_log s)) ->
  (forall h st b, In (h, st, b) (submits_of (sy_log s)) -> is_in (hd_seq h) = (hd_dir h =? 1)) ->
  exists ctrl frames replies,
    sy_out s = ctrl ++ frames /\ Forall control_reply ctrl /\
    Forall2 (reply_to (sy_log s)) frames replies /\
    client_read (length frames) is_in (concat frames) = Some replies.
Proof.
  intros W E ND D. pose proof (sys_reach _ _ _ W E ND) as I.
  destruct (si_frames s I) as (ctrl & frames & replies & F1 & F2 & F3).
  exists ctrl, frames, replies. do 3 (split; auto). apply (client_reads (sy_log s)); auto.
  - intros h st b H. destruct (si_log2 s I h st b H) as (_ & _ & ? & ? & _). eauto.
  - apply (si_log3 s I).
Qed.

(* -------------------------------------------------- C25 *)
Lemma unlink_answers_app a b : unlink_answers (a ++ b) = unlink_answers a ++ unlink_answers b.
Proof. unfold unlink_answers. now rewrite filter_app, map_app. Qed.

Lemma unlink_answers_submit h b r : hd_command h = 1 -> len b < 4294967296 ->
  unlink_answers [return_submit h b r] = [].
Proof.
  intros C L. rewrite return_submit_spec by assumption. unfold unlink_answers. cbn [filter].
  unfold spec_ret_submit. rewrite (take_be 4). reflexivity.
Qed.

Lemma unlink_answers_unlink h r : hd_command h = 2 -> hd_seq h < 4294967296 ->
  unlink_answers [return_unlink h r] = [hd_seq h].
Proof.
  intros C L. rewrite return_unlink_spec by assumption. unfold unlink_answers. cbn [filter].
  destruct (ret_unlink_parts (hd_seq h) r L) as (_ & _ & U & _).
  assert (takeN 4 (spec_ret_unlink (hd_seq h) r) = be 4 4) as -> by (unfold spec_ret_unlink; apply (take_be 4)).
  rewrite bytes_eqb_refl. cbn [map]. now rewrite U.
Qed.

Lemma conn_step_control_reply c c' r :
  conn_step [usb_device] c = (c', AWrite r) -> control_reply r.
Proof.
  destruct c as [p st]. intro CS. unfold conn_step in CS. cbn [cn_phase cn_stream] in CS. destruct p as [|d|].
  - destruct (read_full 8 st) as [[h s1]|]; [|discriminate].
    destruct (_ =? 0x8005); [injection CS as <- <-; now left|].
    destruct (_ =? 0x8003); [|discriminate].
    destruct (util_read 32 s1) as [[dt s2]|]; [|discriminate].
    destruct (cstring dt) as [name|]; [|discriminate].
    cbn [get_device] in CS. destruct (bytes_eqb _ _); injection CS as <- <-; unfold control_reply; auto.
  - destruct (read_full 20 st) as [[h s1]|]; [|discriminate].
    destruct (_ =? 1); [destruct (read_submit _ _) as [[[? ?] ?]|]; discriminate|].
    destruct (_ =? 2); [|discriminate]. destruct (read_full 28 s1) as [[? ?]|]; discriminate.
  - discriminate.
Qed.

Lemma unlinks_step s l s' : sys_inv s -> sys_step s l = Some s' ->
  unlink_answers (sy_out s ++ opt_list (sy_pending s)) = map hd_seq (unlinks_of (sy_log s)) ->
  unlink_answers (sy_out s' ++ opt_list (sy_pending s')) = map hd_seq (unlinks_of (sy_log s')).
Proof.
  intros I E H. destruct l as [| |choice data|j|j]; cbn [sys_step] in E.
  - destruct (sy_pending s) eqn:P; [discriminate|]. cbn [opt_list] in H. rewrite app_nil_r in H.
    destruct (conn_step [usb_device] (sy_conn s)) as [c a] eqn:CS.
    pose proof (conn_step_facts _ _ _ _ (si_wf s I) CS) as [_ Ha].
    destruct a as [|r|d h st b|d h t].
    + injection E as <-. cbn [sy_out sy_pending sy_log opt_list].
      rewrite unlinks_of_app, !app_nil_r. exact H.
    + injection E as <-. cbn [sy_out sy_pending sy_log opt_list].
      rewrite unlinks_of_app, app_nil_r, unlink_answers_app, H.
      destruct (conn_step_control_reply _ _ _ CS) as [-> | [-> | ->]]; apply app_nil_r.
    + destruct Ha as (_ & _ & C & _ & L & _).
      assert (forall r, unlink_answers [return_submit h b r] = []) as U by (intro; now apply unlink_answers_submit).
      destruct (hd_ep h =? 0); [|destruct (hd_ep h =? 1); [|destruct (hd_ep h =? 2)]].
      * destruct (handle_control_message _); injection E as <-; cbn [sy_out sy_pending sy_log opt_list];
          rewrite unlinks_of_app, map_app, unlink_answers_app, H; f_equal; try apply U; reflexivity.
      * destruct (in_step _ _); [|discriminate]. injection E as <-. cbn [sy_out sy_pending sy_log opt_list].
        rewrite app_nil_r, unlinks_of_app, map_app, unlink_answers_app, H. f_equal.
        destruct (snd _); try apply U; reflexivity.
      * injection E as <-; cbn [sy_out sy_pending sy_log opt_list];
          rewrite unlinks_of_app, map_app, unlink_answers_app, H; f_equal; try apply U; reflexivity.
      * injection E as <-; cbn [sy_out sy_pending sy_log opt_list];
          rewrite unlinks_of_app, map_app, unlink_answers_app, H; f_equal; try apply U; reflexivity.
    + destruct Ha as (_ & _ & C & Q). destruct (in_step _ _); [|discriminate]. injection E as <-.
      cbn [sy_out sy_pending sy_log opt_list]. rewrite unlinks_of_app, map_app, unlink_answers_app, H.
      now rewrite unlink_answers_unlink by assumption.
  - destruct (sy_pending s) eqn:P; [|discriminate]. injection E as <-.
    cbn [sy_out sy_pending sy_log opt_list]. now rewrite app_nil_r.
  - destruct (in_step _ _); [|discriminate]. now injection E as <-.
  - destruct (nth_error (in_flight (sy_in s)) j) as [f|]; [|discriminate]. cbn [obind] in E.
    destruct (nth_error (sy_subs s) (fl_key f)) as [[h b]|] eqn:ES; [|discriminate]. cbn [obind] in E.
    destruct (in_step _ _); [|discriminate]. injection E as <-. cbn [sy_out sy_pending sy_log].
    destruct (si_log1 s I h b (nth_error_In _ _ ES)) as [_ [st Q2]].
    destruct (si_log2 s I h st b Q2) as (_ & Q3 & Q4 & Q5 & _).
    rewrite !unlink_answers_app, unlink_answers_submit, app_nil_r by assumption.
    now rewrite <- unlink_answers_app.
  - destruct (in_step _ _); [|discriminate]. now injection E as <-.
Qed.

Lemma unlinks_answered stream ls s : Forall wfb stream -> sys_run (sys_init stream) ls = Some s ->
  NoDup (submit_seqs (sy_log s)) ->
  unlink_answers (sy_out s ++ opt_list (sy_pending s)) = map hd_seq (unlinks_of (sy_log s)).
Proof.
  intros W E ND.
  assert (forall ls s0, sys_inv s0 ->
    unlink_answers (sy_out s0 ++ opt_list (sy_pending s0)) = map hd_seq (unlinks_of (sy_log s0)) ->
    sys_run s0 ls = Some s ->
    unlink_answers (sy_out s ++ opt_list (sy_pending s)) = map hd_seq (unlinks_of (sy_log s))) as G.
  { clear ls E. induction ls as [|l ls IH]; intros s0 I H E; cbn [sys_run] in E.
    - now injection E as <-.
    - destruct (sys_step s0 l) as [s1|] eqn:E1; [|discriminate]. cbn [obind] in E.
      apply (IH s1); auto.
      + eapply sys_step_inv; eauto. destruct (sys_run_log _ _ _ E) as [x X]. rewrite X in ND.
        unfold submit_seqs in *. rewrite submits_app, map_app in ND. now apply nodup_app_l in ND.
      + eapply unlinks_step; eauto. }
  apply (G ls (sys_init stream)); auto. now apply sys_init_inv.
Qed.

Lemma sys_run_app ls1 : forall s ls2,
  sys_run s (ls1 ++ ls2) = let! s' := sys_run s ls1 in sys_run s' ls2.
Proof.
  induction ls1 as [|l ls1 IH]; intros; cbn; auto. destruct (sys_step s l); cbn; auto.
Qed.

Lemma sys_step_trace s l s' : sys_step s l = Some s' ->
  exists t, in_trace (sy_in s') = in_trace (sy_in s) ++ t.
Proof.
  assert (forall il i, in_step (sy_in s) il = Some i -> exists t, in_trace i = in_trace (sy_in s) ++ t) as S.
  { intros il i H. apply (in_run_trace [il]). cbn. now rewrite H. }
  assert (exists t, in_trace (sy_in s) = in_trace (sy_in s) ++ t) as S0 by (exists []; now rewrite app_nil_r).
  intro E. destruct l as [| |choice data|j|j]; cbn [sys_step] in E.
  - destruct (sy_pending s); [discriminate|]. destruct (conn_step _ _) as [c a].
    destruct a as [|r|d h st b|d h t].
    + now injection E as <-.
    + now injection E as <-.
    + destruct (hd_ep h =? 0); [destruct (handle_control_message _); now injection E as <-|].
      destruct (hd_ep h =? 1).
      * destruct (in_step _ _) eqn:Q; [|discriminate]. injection E as <-. eauto.
      * destruct (hd_ep h =? 2); now injection E as <-.
    + destruct (in_step _ _) eqn:Q; [|discriminate]. injection E as <-. eauto.
  - destruct (sy_pending s); [|discriminate]. now injection E as <-.
  - destruct (in_step _ _) eqn:Q; [|discriminate]. injection E as <-. eauto.
  - destruct (nth_error _ _) as [f|]; [|discriminate]. cbn [obind] in E.
    destruct (nth_error _ _) as [[h b]|]; [|discriminate]. cbn [obind] in E.
    destruct (in_step _ _) eqn:Q; [|discriminate]. injection E as <-. eauto.
  - destruct (in_step _ _) eqn:Q; [|discriminate]. injection E as <-. eauto.
Qed.

Lemma sys_run_trace ls : forall s s', sys_run s ls = Some s' ->
  exists t, in_trace (sy_in s') = in_trace (sy_in s) ++ t.
Proof.
  induction ls as [|l ls IH]; intros s s' E; cbn [sys_run] in E.
  - injection E as <-. exists []. now rewrite app_nil_r.
  - destruct (sys_step s l) as [s1|] eqn:E1; [|discriminate]. cbn [obind] in E.
    destruct (sys_step_trace _ _ _ E1) as [x X]. destruct (IH _ _ E) as [y Y].
    exists (x ++ y). now rewrite Y, X, app_assoc.
Qed.

Lemma unlink_once stream ls s c d h t : Forall wfb stream -> sys_run (sys_init stream) ls = Some s ->
  NoDup (submit_seqs (sy_log s)) -> sy_pending s = None ->
  conn_step [usb_device] (sy_conn s) = (c, AUnlink d h t) ->
  exists removed s1,
    sys_step s SRead = Some s1 /\ sy_pending s1 = Some (spec_ret_unlink (hd_seq h) removed) /\
    (removed = true <-> exists k, In (t, k) (rb_waiting (in_buf (sy_in s)))) /\
    (removed = true -> forall ls2 s2, sys_run s1 ls2 = Some s2 -> NoDup (submit_seqs (sy_log s2)) ->
       answered t (sy_out s2 ++ opt_list (sy_pending s2)) = 0%nat).
Proof.
  intros W E ND P CS. pose proof (sys_reach _ _ _ W E ND) as I.
  pose proof (conn_step_facts _ _ _ _ (si_wf s I) CS) as [_ (_ & _ & C & Q)].
  assert (exists s1, sys_step s SRead = Some s1 /\
    sy_pending s1 = Some (return_unlink h (snd (rb_cancel (in_buf (sy_in s)) t))) /\
    in_trace (sy_in s1) = in_trace (sy_in s) ++ [EvUnlink t (snd (rb_cancel (in_buf (sy_in s)) t))])
    as (s1 & S1 & P1 & T1).
  { cbn [sys_step]. rewrite P, CS. cbn [in_step]. destruct (rb_cancel _ _) as [bf r].
    cbn [obind snd]. eexists. split; [reflexivity|]. auto. }
  exists (snd (rb_cancel (in_buf (sy_in s)) t)), s1. split; auto.
  rewrite <- return_unlink_spec by exact C. split; auto.
  destruct (rb_cancel (in_buf (sy_in s)) t) as [bf r] eqn:RC. cbn [snd] in *.
  assert (r = true <-> exists k, In (t, k) (rb_waiting (in_buf (sy_in s)))) as RW.
  { apply cancel_cases in RC as [(-> & Hk & _)|(-> & Hn & _)].
    - tauto.
    - split; [discriminate|]. intros [k Hk]. exfalso. eapply Hn; eauto. }
  split; auto. intros -> ls2 s2 E2 ND2.
  assert (sys_run (sys_init stream) (ls ++ SRead :: ls2) = Some s2) as E3.
  { rewrite sys_run_app, E. cbn [obind sys_run]. rewrite S1. exact E2. }
  pose proof (sys_reach _ _ _ W E3 ND2) as I2.
  destruct (proj1 RW eq_refl) as [k Hk].
  destruct (iv_wait _ (si_in s I) t k Hk) as [Hs _].
  assert (exists h' b', In (h', b') (sy_subs s) /\ hd_seq h' = t) as (h' & b' & Hsub & Et).
  { apply (in_map snd) in Hs. cbn [snd] in Hs. rewrite (si_subs s I) in Hs.
    apply in_map_iff in Hs as ([h' b'] & A & B). cbn in A. eauto. }
  destruct (si_log1 s I h' b' Hsub) as [Ep [st' Hl]].
  assert (In (h', st', b') (submits_of (sy_log s2))) as Hl2.
  { destruct (sys_run_log (SRead :: ls2) s s2) as [x X]; [cbn [sys_run]; rewrite S1; exact E2|].
    rewrite X, submits_app. apply in_or_app. now left. }
  destruct (answered_in s2 I2 ND2 h' st' b' Hl2 Ep) as (k2 & K2 & A). rewrite <- Et, A.
  pose proof (iv_count _ (si_in s2 I2) k2 _ K2) as Cn.
  destruct (sys_run_trace _ _ _ E2) as [tt TT].
  assert (unlinks (hd_seq h') (in_trace (sy_in s2)) <> 0%nat); [|lia].
  rewrite TT, T1. unfold unlinks. rewrite !filter_app. cbn [filter]. rewrite Et, N.eqb_refl.
  cbn [andb]. rewrite !app_length. cbn [length]. lia.
Qed.
