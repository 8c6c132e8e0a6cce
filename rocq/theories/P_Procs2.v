(* Several processes over one vault file. *)
From Verif Require Import Base M_Str M_Cbor M_Crypto M_Cose M_State M_Client M_Ctap M_U2f M_History M_Procs.
From Verif Require Import S_Crypto S_State S_Client S_Ctap S_History S_Procs.
From Verif Require Import P_Client P_Ctap2 P_Vault P_History P_History2 P_Procs1.

(* ------------------------------------------------------------------ *)
(* Runs                                                                *)

Lemma run_ind E (Inv : sys -> list note -> Prop) (ok : list note -> Prop) :
  (forall a b, ok (a ++ b) -> ok a) ->
  (forall s past l s' n, Inv s past -> label_ok E l -> sys_step E s l = Some (s', n) -> ok (past ++ n) -> Inv s' (past ++ n)) ->
  forall ls s past s' ns, Inv s past -> Forall (label_ok E) ls -> sys_run E s ls = Some (s', ns) -> ok (past ++ ns) -> Inv s' (past ++ ns).
Proof.
  intros O St. induction ls as [|l r IH]; intros s past s' ns I F R K; cbn [sys_run] in R.
  - injection R as <- <-. now rewrite app_nil_r.
  - destruct (sys_step E s l) as [[s1 n]|] eqn:X; [|discriminate]. destruct (sys_run E s1 r) as [[s2 ns2]|] eqn:Y; [|discriminate].
    injection R as <- <-. inversion F; subst. rewrite app_assoc in *. apply (IH s1 _ _ _); auto. eapply St; eauto.
Qed.

Lemma run_app E a : forall s b, sys_run E s (a ++ b) =
  match sys_run E s a with
  | Some (s1, n1) => match sys_run E s1 b with Some (s2, n2) => Some (s2, n1 ++ n2) | None => None end
  | None => None
  end.
Proof.
  induction a as [|l a IH]; intros s b; cbn [sys_run app].
  - destruct (sys_run E s b) as [[s2 n2]|]; reflexivity.
  - destruct (sys_step E s l) as [[s1 n]|]; [|reflexivity]. rewrite IH. destruct (sys_run E s1 a) as [[s2 n2]|]; [|reflexivity].
    destruct (sys_run E s2 b) as [[s3 n3]|]; [now rewrite app_assoc|reflexivity].
Qed.

Lemma upd_same f k p : upd f k p k = p. Proof. unfold upd. now rewrite N.eqb_refl. Qed.
Lemma upd_other f k p j : j <> k -> upd f k p j = f j. Proof. unfold upd. intro H. now rewrite (proj2 (N.eqb_neq j k) H). Qed.
Lemma upd_cases f k p j x : upd f k p j = Some x -> (j = k /\ p = Some x) \/ (j <> k /\ f j = Some x).
Proof.
  destruct (N.eq_dec j k) as [->|N]; [rewrite upd_same|rewrite upd_other by assumption]; auto.
Qed.

(* ------------------------------------------------------------------ *)
(* The file can always be read                                         *)

Definition good_save (E : Env) (d : bytes) : Prop := exists c, client_ok E c /\ stored E d c.
Definition good_file (E : Env) (f : option bytes) : Prop := match f with Some d => good_save E d | None => True end.
Definition good_proc (E : Env) (p : proc) : Prop :=
  pr_pass p = e_pass E /\ client_ok E (pr_client p) /\
  match pr_task p with Some t => good_input (tk_input t) /\ (forall d, In (EvSave d) (tk_todo t) -> good_save E d) | None => True end.
Definition good_sys (E : Env) (s : sys) : Prop :=
  good_file E (sy_file s) /\ forall k p, sy_procs s k = Some p -> good_proc E p.

Lemma in_saves es d : In (EvSave d) es -> In d (saves es).
Proof. intro H. unfold saves. apply in_flat_map. exists (EvSave d). split; [assumption|now left]. Qed.

Lemma handle_saves E i w w' r d es : env_ok E -> client_ok E (w_client w) -> good_input i -> handle E i w = (w', r) ->
  w_trace w' = w_trace w ++ es -> In (EvSave d) es -> stored E d (w_client w').
Proof.
  intros L K G H T I. apply handle_step in H as (K' & _ & _ & _ & es' & Ev & S); auto.
  unfold events in Ev. rewrite Ev in T. apply app_inv_head in T. subst es'. apply in_saves in I.
  destruct S as [[S _]|(d' & S & D)]; rewrite S in I; [destruct I|]. destruct I as [<-|[]]. exact D.
Qed.

Lemma start_good E p f w : env_ok E -> good_file E f -> exists w', start E p f w = (w', Ok tt) /\ 
  w_trace w' = w_trace w /\ (params_ok E p -> client_ok E (w_client w')).
Proof.
  intros L G. destruct (start E p f w) as [w' r] eqn:S.
  assert (X : r = Ok tt /\ w_trace w' = w_trace w /\ (params_ok E p -> client_ok E (w_client w'))).
  { pattern w', r. eapply wp_eq; [|exact S]. clear w' r S.
    assert (N : params_ok E p -> client_ok E (new_client p (e_rand E (w_tick w) 16) (e_scalar E (w_tick w + 1)))).
    { intro P. apply new_client_ok; auto; [apply (eo_rand_len E L)|apply (eo_rand_wf E L)|apply (eo_scalar E L)]. }
    apply wp_start. destruct f as [d|].
    - destruct G as (c & K & D). exists c. split; [assumption|]. split; [apply (co_cert E _ K)|]. cbn.
      split; [reflexivity|]. split; [reflexivity|]. intro P. apply reloaded_ok; auto.
    - cbn. auto. }
  destruct X as (-> & X). eauto.
Qed.

Lemma good_step E s past l s' n : env_ok E -> good_sys E s -> label_ok E l -> sys_step E s l = Some (s', n) ->
  one_passphrase E (past ++ n) -> good_sys E s'.
Proof.
  intros L [GF GP] LK S O. destruct l as [k pass p|k i|k|k|k]; cbn [sys_step label_ok] in S, LK;
    destruct (sy_procs s k) as [[pass0 c [[i0 todo r]|]]|] eqn:K; try discriminate.
  - destruct (start (with_pass E pass) p (sy_file s) _) as [w' [u|]] eqn:St; injection S as <- <-; [|split; assumption].
    destruct (O k pass p) as [-> P]; [apply in_app_iff; right; now left|]. rewrite with_own_pass in St.
    destruct (start_good E p (sy_file s) {| w_client := new_client p [] 0; w_tick := sy_tick s; w_trace := [] |} L GF)
      as (w2 & St2 & _ & C). rewrite St in St2. injection St2 as <- _.
    split; [exact GF|]. intros j q Q. cbn [sy_procs] in Q. apply upd_cases in Q as [[-> Q]|[_ Q]]; [|eauto].
    injection Q as <-. split; [reflexivity|]. split; [apply C, P|exact I].
  - destruct (GP _ _ K) as (P0 & C0 & _). cbn in P0, C0. subst pass0. rewrite with_own_pass in S.
    destruct (handle E i _) as [w' r'] eqn:H. injection S as <- <-. split; [exact GF|].
    intros j q Q. cbn [sy_procs] in Q. apply upd_cases in Q as [[-> Q]|[_ Q]]; [|eauto]. injection Q as <-.
    change (client_ok E (w_client {| w_client := c; w_tick := sy_tick s; w_trace := [] |})) in C0.
    pose proof (handle_step E _ _ _ _ L C0 LK H) as (K' & _). split; [reflexivity|]. split; [exact K'|]. cbn [pr_task tk_todo tk_input].
    split; [assumption|]. intros d D. exists (w_client w'). split; [exact K'|]. eapply handle_saves; [exact L| |exact LK|exact H| |exact D]; [exact C0|reflexivity].
  - destruct todo as [|e es]; [discriminate|]. injection S as <- <-. destruct (GP _ _ K) as (P0 & C0 & T0). cbn in P0, C0, T0.
    destruct T0 as [G0 T0].
    split.
    + cbn [sy_file]. destruct e as [a rp u b|d]; [exact GF|]. apply T0. now left.
    + intros j q Q. cbn [sy_procs] in Q. apply upd_cases in Q as [[-> Q]|[_ Q]]; [|eauto]. injection Q as <-.
      split; [exact P0|]. split; [exact C0|]. cbn. split; [exact G0|]. intros d D. apply T0. now right.
  - destruct (GP _ _ K) as (P0 & C0 & _). cbn in P0, C0. destruct todo; [|destruct r; discriminate].
    destruct r as [o|]; injection S as <- <-; (split; [exact GF|]); intros j q Q; cbn [sy_procs] in Q;
      apply upd_cases in Q as [[-> Q]|[_ Q]]; eauto; [|discriminate]. injection Q as <-. split; [exact P0|]. split; [exact C0|exact I].
  - injection S as <- <-. split; [exact GF|]. intros j q Q. cbn [sy_procs] in Q. apply upd_cases in Q as [[_ Q]|[_ Q]]; [discriminate|eauto].
  - injection S as <- <-. split; [exact GF|]. intros j q Q. cbn [sy_procs] in Q. apply upd_cases in Q as [[_ Q]|[_ Q]]; [discriminate|eauto].
Qed.

Lemma one_pass_app E a b : one_passphrase E (a ++ b) -> one_passphrase E a.
Proof. intros H k pass p I. apply (H k). apply in_app_iff. now left. Qed.

Lemma init_good E t : good_sys E (sys_init t).
Proof. split; [exact I|]. intros k p H. discriminate H. Qed.

Lemma good_run E t ls s ns : env_ok E -> Forall (label_ok E) ls -> sys_run E (sys_init t) ls = Some (s, ns) ->
  one_passphrase E ns -> good_sys E s /\ forall k p, ~ In (NStartFailed k (e_pass E) p) ns.
Proof.
  intros L F R O.
  apply (run_ind E (fun s past => good_sys E s /\ forall k p, ~ In (NStartFailed k (e_pass E) p) past) (one_passphrase E)
           (one_pass_app E)) with (ls := ls) (s := sys_init t) (past := []); auto.
  - clear s ns R O ls F. intros s past l s' n [G NF] LK S O. split; [eapply good_step; eauto|].
    intros k p I. apply in_app_iff in I as [I|I]; [exact (NF _ _ I)|].
    destruct l as [k' pass p'|k' i|k'|k'|k']; cbn [sys_step] in S;
      destruct (sy_procs s k') as [[pass0 c [[i0 todo r]|]]|] eqn:K; try discriminate;
      try (injection S as <- <-; cbn in I; destruct I as [I|I]; [discriminate I|contradiction]).
    + destruct (start (with_pass E pass) p' (sy_file s) _) as [w' [u|]] eqn:St; injection S as <- <-;
        (destruct I as [I|[]]; [try discriminate I]). injection I as <- -> <-. rewrite with_own_pass in St.
      destruct (start_good E p' (sy_file s) {| w_client := new_client p' [] 0; w_tick := sy_tick s; w_trace := [] |} L (proj1 G))
        as (w2 & St2 & _). rewrite St in St2. discriminate St2.
    + destruct (handle _ _ _). injection S as <- <-. destruct I.
    + destruct todo; [discriminate|]. injection S as <- <-. destruct I.
    + destruct todo; [|destruct r; discriminate]. destruct r; injection S as <- <-; destruct I as [I|[]]; discriminate I.
  - split; [apply init_good|]. intros k p [].
Qed.

(* ------------------------------------------------------------------ *)
(* One process at a time: a history                                    *)

Definition other_down (s : sys) (k : N) : Prop := forall j, j <> k -> sy_procs s j = None.

(* The history so far, with what the process that is up (if any) is doing. *)
Inductive follows (E : Env) (s : sys) (h : list entry) : list N -> Prop :=
| Fo_down w : (forall k, sy_procs s k = None) -> history E h false w -> w_tick w = sy_tick s ->
    saved_in (w_trace w) = sy_file s -> follows E s h []
| Fo_idle k c w : sy_procs s k = Some (mk_proc (e_pass E) c None) -> other_down s k -> history E h true w ->
    w_tick w = sy_tick s -> w_client w = c -> saved_in (w_trace w) = sy_file s -> follows E s h [k]
| Fo_busy k c i todo r w w' es : sy_procs s k = Some (mk_proc (e_pass E) c (Some (mk_task i todo r))) -> other_down s k ->
    history E h true w -> good_input i -> handle E i w = (w', r) -> w_tick w' = sy_tick s -> w_client w' = c ->
    w_trace w' = w_trace w ++ es ++ todo -> saved_in (w_trace w ++ es) = sy_file s -> follows E s h [k].

Lemma handle_trace E i c t tr w' r : handle E i {| w_client := c; w_tick := t; w_trace := [] |} = (w', r) ->
  handle E i {| w_client := c; w_tick := t; w_trace := tr |} = (onto tr w', r).
Proof.
  intro H. pose proof (fr_handle E i tr {| w_client := c; w_tick := t; w_trace := [] |}) as F.
  rewrite H in F. unfold onto at 1 in F. cbn in F. now rewrite app_nil_r in F.
Qed.

Definition filter_out (k : N) (l : list N) : list N := filter (fun j => negb (j =? k)) l.

Lemma follow_step E s h lv l s' n : env_ok E -> follows E s h lv -> label_ok E l -> sys_step E s l = Some (s', n) ->
  one_passphrase E n -> (forall k pass p, ~ In (NStartFailed k pass p) n) ->
  (forall k pass p, In (NStart k pass p) n -> lv = []) ->
  follows E s' (h ++ map entry_of n) (fold_left (fun l n => match n with
                        | NStart k _ _ => k :: l
                        | NPanic k _ | NStop k _ => filter (fun j => negb (j =? k)) l
                        | _ => l
                        end) n lv).
Proof.
  intros L F LK S O NF AL.
  destruct l as [k pass p|k i|k|k|k]; cbn [sys_step label_ok] in S, LK.
  - destruct (sy_procs s k) as [q|] eqn:K; [discriminate|].
    destruct (start (with_pass E pass) p (sy_file s) _) as [w' [u|]] eqn:St; injection S as <- <-.
    2: { exfalso. eapply NF. now left. }
    destruct (O k pass p (or_introl eq_refl)) as [-> P]. rewrite with_own_pass in St. destruct u.
    specialize (AL _ _ _ (or_introl eq_refl)). cbn. inversion F as [w D H T Sv Q| |]; subst; try discriminate.
    destruct w as [c0 t0 tr0]. cbn [w_tick w_trace] in T, Sv. subst t0.
    pose proof (fr_start E p (sy_file s) tr0 {| w_client := new_client p [] 0; w_tick := sy_tick s; w_trace := [] |}) as X.
    rewrite St in X. unfold onto at 1 in X. cbn [w_client w_tick w_trace fst snd] in X. rewrite app_nil_r in X.
    pose proof (start_quiet _ _ _ _ _ _ St) as Tr. cbn in Tr.
    assert (St' : start E p (sy_file s) {| w_client := c0; w_tick := sy_tick s; w_trace := tr0 |} = (onto tr0 w', Ok tt)).
    { rewrite (start_client E p _ c0 (new_client p [] 0)), X. reflexivity. }
    eapply Fo_idle with (w := onto tr0 w').
    + cbn. apply upd_same.
    + intros j J. cbn. rewrite upd_other by assumption. apply D.
    + eapply H_start; [exact H|]. cbn [w_trace]. rewrite Sv. exact St'.
    + reflexivity.
    + reflexivity.
    + cbn. rewrite Tr, app_nil_r. exact Sv.
  - destruct (sy_procs s k) as [[pass c [t|]]|] eqn:K; try discriminate.
    destruct (handle (with_pass E pass) i _) as [w' r] eqn:H. injection S as <- <-. cbn. rewrite app_nil_r.
    inversion F as [w D|k0 c0 w D OD Hh T C Sv|k0 c0 i0 todo r0 w w0 es D OD]; subst;
      [rewrite D in K; discriminate| |].
    + assert (k = k0) as -> by (destruct (N.eq_dec k k0) as [|NE]; [assumption|]; rewrite (OD _ NE) in K; discriminate).
      rewrite K in D. injection D as -> ->. rewrite with_own_pass in H. destruct w as [c t tr]. cbn [w_tick w_trace w_client] in *. subst t.
      eapply Fo_busy with (w' := onto tr w') (es := []).
      * apply upd_same.
      * intros j J. cbn. rewrite upd_other by assumption. now apply OD.
      * exact Hh.
      * exact LK.
      * apply handle_trace. exact H.
      * reflexivity.
      * reflexivity.
      * reflexivity.
      * cbn. now rewrite app_nil_r.
    + destruct (N.eq_dec k k0) as [->|NE]; [congruence|]. rewrite (OD _ NE) in K. discriminate.
  - destruct (sy_procs s k) as [[pass c [[i [|e es] r]|]]|] eqn:K; try discriminate. injection S as <- <-. cbn. rewrite app_nil_r.
    inversion F as [w D|k0 c0 w D OD|k0 c0 i0 todo r0 w w0 es0 D OD Hh G H T C Tr Sv]; subst;
      [rewrite D in K; discriminate|destruct (N.eq_dec k k0) as [->|NE]; [congruence|]; rewrite (OD _ NE) in K; discriminate|].
    assert (k = k0) as -> by (destruct (N.eq_dec k k0) as [|NE]; [assumption|]; rewrite (OD _ NE) in K; discriminate).
    rewrite K in D. injection D as -> -> -> <- ->.
    eapply Fo_busy with (w := w) (w' := w0) (es := es0 ++ [e]).
    + cbn. apply upd_same.
    + intros j J. cbn. rewrite upd_other by assumption. now apply OD.
    + exact Hh.
    + exact G.
    + exact H.
    + exact T.
    + reflexivity.
    + rewrite Tr. now rewrite <- (app_assoc es0 [e] es).
    + cbn [sy_file]. rewrite app_assoc, saved_app, Sv. destruct e; reflexivity.
  - destruct (sy_procs s k) as [[pass c [[i [|e es] r]|]]|] eqn:K; try discriminate.
    inversion F as [w D|k0 c0 w D OD|k0 c0 i0 todo r0 w w0 es0 D OD Hh G H T C Tr Sv]; subst;
      [rewrite D in K; discriminate|destruct (N.eq_dec k k0) as [->|NE]; [congruence|]; rewrite (OD _ NE) in K; discriminate|].
    assert (k = k0) as -> by (destruct (N.eq_dec k k0) as [|NE]; [assumption|]; rewrite (OD _ NE) in K; discriminate).
    rewrite K in D. injection D as -> -> -> <- ->. rewrite app_nil_r in Tr.
    destruct r0 as [o|]; injection S as <- <-; cbn.
    + eapply Fo_idle with (w := w0); auto.
      * cbn. apply upd_same.
      * intros j J. cbn. rewrite upd_other by assumption. now apply OD.
      * eapply H_done; eauto.
      * rewrite Tr. exact Sv.
    + rewrite N.eqb_refl. cbn. eapply Fo_down with (w := w0); auto.
      * intro j. cbn. destruct (N.eq_dec j k0) as [->|NE]; [apply upd_same|rewrite upd_other by assumption; now apply OD].
      * eapply H_panic; eauto.
      * rewrite Tr. exact Sv.
  - destruct (sy_procs s k) as [[pass c t]|] eqn:K; [|discriminate]. injection S as <- <-. cbn.
    inversion F as [w D|k0 c0 w D OD Hh T C Sv|k0 c0 i0 todo r0 w w0 es0 D OD Hh G H T C Tr Sv]; subst; [rewrite D in K; discriminate| |];
      assert (k = k0) as -> by (destruct (N.eq_dec k k0) as [|NE]; [assumption|]; rewrite (OD _ NE) in K; discriminate);
      rewrite K in D; injection D as -> -> ->; cbn; rewrite N.eqb_refl; cbn.
    + eapply Fo_down with (w := {| w_client := w_client w; w_tick := w_tick w; w_trace := w_trace w ++ [] |}); auto.
      * intro j. cbn. destruct (N.eq_dec j k0) as [->|NE]; [apply upd_same|rewrite upd_other by assumption; now apply OD].
      * eapply H_crash with (w' := w) (rest := []); [exact Hh|constructor|reflexivity|cbn; now rewrite app_nil_r].
      * cbn. now rewrite app_nil_r.
    + eapply Fo_down with (w := {| w_client := w_client w0; w_tick := w_tick w0; w_trace := w_trace w ++ es0 |}); auto.
      * intro j. cbn. destruct (N.eq_dec j k0) as [->|NE]; [apply upd_same|rewrite upd_other by assumption; now apply OD].
      * eapply H_crash; eauto.
Qed.

Lemma sequential E t ls s ns : env_ok E -> Forall (label_ok E) ls -> sys_run E (sys_init t) ls = Some (s, ns) ->
  one_passphrase E ns -> (forall k pass p, ~ In (NStartFailed k pass p) ns) -> one_at_a_time ns ->
  follows E s (map entry_of ns) (live ns).
Proof.
  intros L F R O NF A.
  apply (run_ind E (fun s past => follows E s (map entry_of past) (live past))
    (fun ns => one_passphrase E ns /\ (forall k pass p, ~ In (NStartFailed k pass p) ns) /\ one_at_a_time ns)) with (ls := ls) (s := sys_init t) (past := []); auto.
  - intros a b (O1 & N1 & A1). split; [exact (one_pass_app _ _ _ O1)|]. split.
    + intros k pass p I. apply (N1 k pass p). apply in_app_iff. now left.
    + intros n1 n n2 ->. apply (A1 n1 n (n2 ++ b)). now rewrite <- app_assoc.
  - clear s ns R O NF A ls F. intros s past l s' n Fo LK S (O & NF & A).
    rewrite map_app. unfold live. rewrite fold_left_app. eapply follow_step; eauto.
    + intros k pass p I. apply (O k). apply in_app_iff. now right.
    + intros k pass p I. apply (NF k pass p). apply in_app_iff. now right.
    + intros k pass p I. apply in_split in I as (x & y & ->).
      assert (x = []) as ->.
      { destruct l as [k' pass' p'|k' i|k'|k'|k']; cbn [sys_step] in S;
          destruct (sy_procs s k') as [[pass0 c [[i0 todo r]|]]|] eqn:K; try discriminate;
          repeat match type of S with
          | context [match ?z with _ => _ end] => destruct z
          end; try discriminate S; injection S as <- S; destruct x as [|? [|? ?]]; try discriminate S; reflexivity. }
      apply (A past (NStart k pass p) y). reflexivity.
  - eapply Fo_down with (w := {| w_client := new_client {| pa_cert := []; pa_certkey := Build_cose_priv None None None; pa_key := []; pa_pin := false |} [] 0;
      w_tick := t; w_trace := [] |}); auto. apply H_new.
Qed.

Lemma follows_history E s h lv : env_ok E -> starts_ok E h -> follows E s h lv -> exists up w, history E h up w /\ w_tick w <= sy_tick s /\
  (quiet s -> w_tick w = sy_tick s /\ saved_in (w_trace w) = sy_file s /\
     forall k p, sy_procs s k = Some p -> up = true /\ w_client w = pr_client p).
Proof.
  intros L ST [w D H T Sv|k c w K D H T C Sv|k c i todo r w w' es K D H G Hh T C Tr Sv].
  - exists false, w. split; [assumption|]. split; [lia|]. intros _. split; [assumption|]. split; [assumption|]. intros k p X. rewrite D in X. discriminate.
  - exists true, w. split; [assumption|]. split; [lia|]. intros _. split; [assumption|]. split; [assumption|]. intros j p X.
    split; [reflexivity|]. destruct (N.eq_dec j k) as [->|NE]; [rewrite K in X; injection X as <-; exact C|rewrite (D _ NE) in X; discriminate].
  - exists true, w. split; [assumption|]. destruct (history_inv E h _ w L H ST) as (V & _ & X & _). destruct (X eq_refl) as [KC _].
    split; [apply (handle_step E i w w' r L KC G) in Hh as (_ & Tk & _); lia|]. intro Q. specialize (Q _ _ K). discriminate Q.
Qed.

Lemma starts_notes E ns : one_passphrase E ns -> (forall k pass p, ~ In (NStartFailed k pass p) ns) -> starts_ok E (map entry_of ns).
Proof.
  intros O NF p [I|I]; apply in_map_iff in I as (n & Q & I); destruct n as [k pass p'|k pass p'|k i o|k i|k [i|]]; try discriminate Q; injection Q as <-.
  - exact (proj2 (O _ _ _ I)).
  - exfalso. exact (NF _ _ _ I).
Qed.

Lemma sequential_history E t ls s ns : env_ok E -> Forall (label_ok E) ls -> sys_run E (sys_init t) ls = Some (s, ns) ->
  one_passphrase E ns -> (forall k pass p, ~ In (NStartFailed k pass p) ns) -> one_at_a_time ns ->
  exists up w, history E (map entry_of ns) up w /\ starts_ok E (map entry_of ns) /\ w_tick w <= sy_tick s /\
  (quiet s -> w_tick w = sy_tick s /\ saved_in (w_trace w) = sy_file s /\
     forall k p, sy_procs s k = Some p -> up = true /\ w_client w = pr_client p).
Proof.
  intros L F R O NF A. pose proof (starts_notes E ns O NF) as ST.
  destruct (follows_history E s _ _ L ST (sequential E t ls s ns L F R O NF A)) as (up & w & X & Y & Z). exists up, w. auto.
Qed.

(* ------------------------------------------------------------------ *)
(* What an older process saves                                         *)

Lemma step_other E s l s' n k : sys_step E s l = Some (s', n) -> label_of l <> k -> sy_procs s' k = sy_procs s k.
Proof.
  intros S NE. assert (NE' : k <> label_of l) by congruence.
  destruct l as [k' pass p|k' i|k'|k'|k']; cbn [sys_step label_of] in *;
    destruct (sy_procs s k') as [[pass0 c [[i0 todo r]|]]|]; try discriminate;
    repeat match type of S with context [match ?z with _ => _ end] => destruct z end; try discriminate S;
    injection S as <- _; cbn [sy_procs]; rewrite ?upd_other by assumption; reflexivity.
Qed.
Lemma run_other E k ls : forall s s' ns, sys_run E s ls = Some (s', ns) -> Forall (fun l => label_of l <> k) ls -> sy_procs s' k = sy_procs s k.
Proof.
  induction ls as [|l r IH]; intros s s' ns R F; cbn [sys_run] in R; [now injection R as <- _|].
  destruct (sys_step E s l) as [[s1 n]|] eqn:X; [|discriminate]. destruct (sys_run E s1 r) as [[s2 n2]|] eqn:Y; [|discriminate].
  injection R as <- _. inversion F; subst. rewrite (IH _ _ _ Y) by assumption. eapply step_other; eauto.
Qed.

Lemma run_steps E k m : forall s pass c i todo r s2 n, sy_procs s k = Some (mk_proc pass c (Some (mk_task i todo r))) ->
  sys_run E s (repeat (PStep k) m ++ [PAnswer k]) = Some (s2, n) -> sy_file s2 = last_save todo (sy_file s) /\
  n = [match r with Ok o => NDone k i o | Panic => NPanic k i end].
Proof.
  induction m as [|m IH]; intros s pass c i todo r s2 n K R; cbn [repeat app sys_run sys_step] in R; rewrite K in R.
  - destruct todo; [|destruct r; discriminate]. destruct r; injection R as <- <-; split; reflexivity.
  - destruct todo as [|e es]; [discriminate|].
    match type of R with context [sys_run E ?s0 _] => destruct (sys_run E s0 (repeat (PStep k) m ++ [PAnswer k])) as [[s3 n3]|] eqn:X; [|discriminate] end.
    injection R as <- <-. apply (IH _ pass c i es r) in X as [A B]; [|apply upd_same]. split; [|exact B].
    rewrite A. cbn [sy_file]. unfold last_save, saves. destruct e; cbn [flat_map app rev]; [reflexivity|].
    destruct (rev (flat_map _ es)) eqn:Q; reflexivity.
Qed.

Lemma overwritten E s0 ls s1 n1 k c d m s2 r id n : env_ok E -> client_ok E c -> wfb d ->
  sy_procs s0 k = Some (mk_proc (e_pass E) c None) -> sys_run E s0 ls = Some (s1, n1) ->
  Forall (fun l => label_of l <> k) ls ->
  sys_run E s1 (PBegin k (ICtap (2 :: d)) :: repeat (PStep k) m ++ [PAnswer k]) = Some (s2, [NDone k (ICtap (2 :: d)) (OBytes r)]) ->
  asserted r id n ->
  exists c', file_holds E (sy_file s2) c' /\ map cs_id (cl_vault c') = map cs_id (cl_vault c) /\
    cl_hash c' = cl_hash c /\ cl_pin c' = cl_pin c.
Proof.
  intros L K W P R F H A. assert (P1 : sy_procs s1 k = Some (mk_proc (e_pass E) c None)) by (rewrite <- P; eapply run_other; eauto).
  cbn [sys_run sys_step] in H. rewrite P1, with_own_pass in H.
  destruct (handle E (ICtap (2 :: d)) {| w_client := c; w_tick := sy_tick s1; w_trace := [] |}) as [w' q] eqn:X.
  match type of H with context [sys_run E ?s0 _] => destruct (sys_run E s0 (repeat (PStep k) m ++ [PAnswer k])) as [[s3 n3]|] eqn:Y; [|discriminate] end.
  injection H as <- Q. apply (run_steps E k m _ (e_pass E) (w_client w') (ICtap (2 :: d)) (w_trace w') q) in Y as [Fi Z]; [|apply upd_same].
  rewrite Z in Q. cbn in Q.
  destruct q as [o|]; [|discriminate Q]. injection Q as ->. apply handle_ctap in X as (r' & Q & X). injection Q as <-.
  destruct (asserted_ok _ _ _ A) as (b & ->).
  apply assertion_facts in X as (a & au & sg & ad & v1 & s & v2 & s' & x & y & es & _ & _ & _ & _ & _ & _ & V & _ & _ & _ & _ & V' & S' & _ & C' & Ev & _ & _ & _ & _ & d' & Sv & St); auto.
  exists (w_client w'). unfold events in Ev. cbn in Ev, V. split.
  - exists d'. split; [|exact St]. rewrite Fi. unfold last_save. rewrite Ev, Sv. reflexivity.
  - rewrite C'. cbn. rewrite V, !map_app. cbn. rewrite S'. auto.
Qed.
