(* What stays true over overlapping requests. *)
From Coq Require Import Permutation.
From Verif Require Import Base M_Str M_Util M_Utf8 M_Cbor M_Json M_Crypto M_Cose M_State M_Client M_Ctap M_U2f M_History M_Overlap.
From Verif Require Import S_Crypto S_Cbor S_Cose S_State S_Client S_Ctap S_CtapReq S_Pin S_U2f S_History S_Overlap.
From Verif Require Import P_Crypto P_Cbor P_Cbor2 P_Cbor3 P_Cose P_Cose2 P_State P_Client P_Ctap P_Ctap2 P_Ctap3 P_U2f P_U2f2 P_Vault P_History P_History2 P_Overlap1 P_Overlap2 P_Overlap3 P_Overlap4.

(* What a step adds to the history. *)
Definition adds (es : list oentry) (i : input) (oo : option output) : Prop :=
  exists n x, (es = [OBegin n i] \/ es = [OBegin n i; x] \/ es = [x]) /\
    (x = OPanic n i \/ x = OCrash n i \/ exists o, x = ODone n i o /\ oo = Some o).

Definition runs (e : oentry) : Prop := match e with OBegin _ _ | ODone _ _ _ => True | _ => False end.

(* A step of a running process. *)
Inductive moves (E : Env) (w w' : world) (es : list oentry) : Prop :=
| Mv_none : w' = w -> es = [OKill] -> moves E w w' es
| Mv_whole i r : good_input i -> handle E i w = (w', r) ->
    (forall o, r = Ok o -> begin E i w = (w', Ok (inl o))) -> (forall n, es <> [OBegin n i]) ->
    adds es i (match r with Ok o => Some o | Panic => None end) -> moves E w w' es
| Mv_wait i p : good_input i -> waits_for E i w w' p -> adds es i None -> moves E w w' es
| Mv_answer i p r : sane E i p -> answers E w p w' r ->
    adds es i (match r with Ok b => Some (OBytes b) | Panic => None end) -> moves E w w' es.

Lemma moves_step E w w' es : env_ok E -> client_ok E (w_client w) -> moves E w w' es -> exists i, step_ok E i w w'.
Proof.
  intros L K [-> _|i r G H _ _ _|i p G H _|i p r S A _].
  - exists (IEnablePin true). split; [assumption|]. split; [lia|]. split; [apply VC_same|].
    split; [unfold same_keys; auto|]. exists []. split; [apply events_nil|]. left. split; [reflexivity|].
    exists (cl_retries (w_client w)), (cl_ctr (w_client w)). now rewrite same_ctr.
  - exists i. eapply handle_step; eauto.
  - exists i. eapply waits_step; eauto.
  - exists i. eapply answers_step; eauto.
Qed.

Lemma begin_moves E i w w' r es n : env_ok E -> client_ok E (w_client w) -> good_input i -> begin E i w = (w', r) ->
  es = [OBegin n i; OCrash n i] \/ match r with
  | Ok (inl o) => es = [OBegin n i; ODone n i o]
  | Ok (inr p) => es = [OBegin n i]
  | Panic => es = [OBegin n i; OPanic n i]
  end -> moves E w w' es.
Proof.
  intros L K G H Q. destruct r as [[o|p]|].
  - apply (Mv_whole E w w' es i (Ok o)); auto; [now apply begin_quick|intros o' X; now injection X as <-|destruct Q as [-> | ->]; discriminate|].
    exists n. destruct Q as [-> | ->]; eexists; (split; [right; left; reflexivity|]); eauto.
  - apply (Mv_wait E w w' es i p); auto; [now apply begin_wait|]. exists n, (OCrash n i). split; [|auto].
    destruct Q as [-> | ->]; auto.
  - apply (Mv_whole E w w' es i Panic); auto; [now apply begin_panic|discriminate|destruct Q as [-> | ->]; discriminate|].
    exists n. destruct Q as [-> | ->]; eexists; (split; [right; left; reflexivity|]); eauto.
Qed.

Section Ind.
  Variable E : Env.
  Variable P : list oentry -> bool -> world -> Prop.
  Hypothesis L : env_ok E.
  Hypothesis new : forall c t, P [] false {| w_client := c; w_tick := t; w_trace := [] |}.
  Hypothesis start : forall h w p w', ohistory E h None w -> P h false w -> params_ok E p ->
    start E p (saved_in (w_trace w)) w = (w', Ok tt) -> (exists V, disk E w V) -> P (h ++ [OStart p]) true w'.
  Hypothesis live : forall h l w w' es, ohistory E h (Some l) w -> client_ok E (w_client w) -> P h true w ->
    moves E w w' es -> Forall runs es -> P (h ++ es) true w'.
  Hypothesis dead : forall h l w w' es evs rest, ohistory E h (Some l) w -> client_ok E (w_client w) -> P h true w ->
    moves E w w' es -> (forall n i o, ~ In (ODone n i o) es) -> w_trace w' = w_trace w ++ evs ++ rest ->
    P (h ++ es) false {| w_client := w_client w'; w_tick := w_tick w'; w_trace := w_trace w ++ evs |}.

  Lemma ohistory_rec h l w : ohistory E h l w -> ostarts_ok E h -> P h (match l with Some _ => true | None => false end) w.
  Proof.
    intro H. induction H as [c t|h w p w' H IH S|h w p w' H IH S|h l w i w' p H IH G S|h l w i w' o H IH G S|
      h l1 x l2 w w' r H IH S|h l w i w' H IH G S|h l1 x l2 w w' H IH S|h l w i w' r es rest H IH G S T|
      h l1 x l2 w w' r es rest H IH S T|h l w H IH]; intro ST.
    1: apply new.
    all: pose proof (ohistory_inv E _ _ _ L H (ostarts_app _ _ _ ST)) as (V & D & LV & _); specialize (IH (ostarts_app _ _ _ ST)).
    all: try (destruct (LV _ eq_refl) as (K & _ & FS)).
    - apply (start h w p w'); eauto. apply ST. left. apply in_elt.
    - assert (PK : params_ok E p) by (apply ST; right; apply in_elt).
      destruct (start_live E p w w' _ V L PK D S) as (X & _). discriminate X.
    - eapply live; eauto; [eapply begin_moves; eauto|repeat constructor].
    - eapply live; eauto; [eapply begin_moves; eauto|repeat constructor].
    - rewrite Forall_forall in FS. pose proof (FS x (in_elt _ _ _)) as SN.
      eapply live; eauto; [|repeat constructor]. eapply Mv_answer; [exact SN|exact (resume_answers E _ _ w w' _ L K SN S)|].
      exists (wt_no x). eexists. split; [right; right; reflexivity|]. eauto.
    - destruct (full_trace E i w w' (begin_step E i w w' _ L K G S)) as (evs & T & <-).
      eapply dead; eauto; [eapply begin_moves; eauto|]. intros n j o [I|[I|[]]]; discriminate I.
    - rewrite Forall_forall in FS. pose proof (FS x (in_elt _ _ _)) as SN.
      destruct (full_trace E _ w w' (resume_step E _ (wt_input x) _ w w' _ L K SN S)) as (evs & T & <-).
      eapply dead; eauto.
      + eapply Mv_answer; [exact SN|exact (resume_answers E _ _ w w' _ L K SN S)|].
        exists (wt_no x). eexists. split; [right; right; reflexivity|]. eauto.
      + intros n j o [I|[]]; discriminate I.
    - eapply dead; eauto; [eapply begin_moves; eauto|]. intros n j o [I|[I|[]]]; discriminate I.
    - rewrite Forall_forall in FS. pose proof (FS x (in_elt _ _ _)) as SN. eapply dead; eauto.
      + eapply Mv_answer; [exact SN|exact (resume_answers E _ _ w w' _ L K SN S)|].
        exists (wt_no x). eexists. split; [right; right; reflexivity|]. eauto.
      + intros n j o [I|[]]; discriminate I.
    - assert (Q : {| w_client := w_client w; w_tick := w_tick w; w_trace := w_trace w ++ [] |} = w) by (rewrite app_nil_r; now destruct w).
      rewrite <- Q. apply (dead h l w w [OKill] [] []); auto; [now apply Mv_none|intros n j o [I|[]]; discriminate I|now rewrite app_nil_r].
  Qed.
End Ind.

(* ------------------------------------------------------------------ *)
(* Starts succeed                                                      *)

Lemma moves_adds E w w' es : moves E w w' es -> es = [OKill] \/ exists i oo, adds es i oo.
Proof. intros [-> ->|i r G H _ _ A|i p G H A|i p r S A X]; eauto. Qed.

Lemma ostarts_succeed E h l w p : env_ok E -> ohistory E h l w -> ostarts_ok E h -> ~ In (OStartFailed p) h.
Proof.
  intros L H ST.
  assert (X : forall w w' es, moves E w w' es -> ~ In (OStartFailed p) es).
  { intros w0 w1 es M. apply moves_adds in M as [-> |(i & oo & n & x & [-> |[-> | ->]] & [-> |[-> |(o & -> & _)]])]; cbn; intuition discriminate. }
  apply (ohistory_rec E (fun h _ _ => ~ In (OStartFailed p) h) L) with (l := l) (w := w); auto;
    intros; rewrite in_app_iff; intros [I|I]; auto.
  - destruct I as [I|[]]. discriminate I.
  - eapply X; eauto.
  - eapply X; eauto.
Qed.

(* ------------------------------------------------------------------ *)
(* Something saved stays                                               *)

Section Stays.
  Variable E : Env.
  Variable Q : client -> Prop.
  Variable start_here : oentry -> Prop.     (* where it is saved *)
  Variable ends : oentry -> Prop.           (* what may undo it *)
  Hypothesis L : env_ok E.
  Hypothesis Qstart : forall c c', map core (cl_vault c) = map core (cl_vault c') -> cl_hash c = cl_hash c' -> Q c -> Q c'.
  Hypothesis Qfirst : forall e w w' es, client_ok E (w_client w) -> moves E w w' es -> start_here e -> In e es ->
    Q (w_client w') /\ saved_client E w' (w_client w').
  Hypothesis Qkeep : forall w w' es, client_ok E (w_client w) -> moves E w w' es -> (forall e, In e es -> ~ ends e) ->
    Q (w_client w) -> Q (w_client w').
  Hypothesis done_only : forall e, start_here e -> exists n i o, e = ODone n i o.

  Lemma stays h l w : ohistory E h l w -> ostarts_ok E h -> forall h1 e h2, h = h1 ++ e :: h2 -> start_here e ->
    (forall e, In e h2 -> ~ ends e) ->
    (l <> None -> Q (w_client w)) /\ exists c, saved_client E w c /\ Q c.
  Proof.
    intros H ST.
    assert (X : forall h1 e h2, h = h1 ++ e :: h2 -> start_here e -> (forall e, In e h2 -> ~ ends e) ->
      ((match l with Some _ => true | None => false end) = true -> Q (w_client w)) /\ exists c, saved_client E w c /\ Q c).
    { revert ST. revert H.
      apply (ohistory_rec E (fun h up w => forall h1 e h2, h = h1 ++ e :: h2 -> start_here e -> (forall e, In e h2 -> ~ ends e) ->
        (up = true -> Q (w_client w)) /\ exists c, saved_client E w c /\ Q c) L); clear h l w.
      - intros c t h1 e h2 X. destruct h1; discriminate X.
      - intros h w p w' H IH P S (V & D) h1 e h2 X SH NE. apply app_cases in X as [(k & -> & ->)|(k & -> & X)].
        + destruct (IH h1 e k eq_refl SH) as [_ (c & SC & QC)]; [intros x I; apply NE, in_app_iff; now left|].
          destruct (start_live E p w w' _ V L P D S) as (_ & _ & T & _ & _ & X). split.
          * intros _. destruct SC as (d & A & B). rewrite A in X. destruct X as (c' & B' & _ & <- & X1 & X2 & _).
            destruct (stored_same E d c c' B B') as (_ & _ & _ & _ & _ & Y1 & Y2).
            apply (Qstart c); [rewrite X1, smeared_core; congruence|congruence|assumption].
          * exists c. split; [|assumption]. destruct SC as (d & A & B). exists d. now rewrite T.
        + destruct (done_only e SH) as (n & i & o & ->). destruct k as [|? [|]]; discriminate X.
      - intros h l w w' es H K IH M _ h1 e h2 X SH NE. apply app_cases in X as [(k & -> & ->)|(k & -> & X)].
        + destruct (IH h1 e k eq_refl SH) as [Q1 (c & SC & QC)]; [intros x I; apply NE, in_app_iff; now left|].
          assert (Q2 : Q (w_client w')) by (eapply Qkeep; eauto; intros x I; apply NE, in_app_iff; now right).
          split; [auto|]. destruct (moves_step E w w' es L K M) as (i & SO).
          pose proof SO as (_ & _ & _ & _ & evs & Ev & Sv). destruct Sv as [[Sv _]|(d & Sv & St)].
          * exists c. split; [|assumption]. destruct SC as (d & A & B). exists d. unfold events in Ev.
            rewrite Ev, saved_app. unfold last_save. rewrite Sv. auto.
          * exists (w_client w'). split; [|assumption]. exists d. unfold events in Ev. rewrite Ev, saved_app. unfold last_save.
            rewrite Sv. auto.
        + assert (I : In e es) by (rewrite X; apply in_elt). destruct (Qfirst e w w' es K M SH I). eauto.
      - intros h l w w' es evs rest H K IH M ND T h1 e h2 X SH NE. apply app_cases in X as [(k & -> & ->)|(k & -> & X)].
        + destruct (IH h1 e k eq_refl SH) as [Q1 (c & SC & QC)]; [intros x I; apply NE, in_app_iff; now left|].
          assert (Q2 : Q (w_client w')) by (eapply Qkeep; eauto; intros x I; apply NE, in_app_iff; now right).
          split; [discriminate|]. destruct (moves_step E w w' es L K M) as (i & SO).
          pose proof SO as (_ & _ & _ & _ & evs' & Ev & Sv). unfold events in Ev. rewrite T in Ev. apply app_inv_head in Ev. subst evs'.
          rewrite saves_app in Sv. destruct (saves evs) as [|d m] eqn:SE.
          * exists c. split; [|assumption]. destruct SC as (d & A & B). exists d. cbn [w_trace].
            rewrite saved_app. unfold last_save. rewrite SE. auto.
          * destruct Sv as [[Sv _]|(d' & Sv & St)]; [discriminate Sv|]. cbn in Sv. injection Sv as <- Sv.
            apply app_eq_nil in Sv as [-> _]. exists (w_client w'). split; [|assumption]. exists d. cbn [w_trace].
            rewrite saved_app. unfold last_save. rewrite SE. auto.
        + destruct (done_only e SH) as (n & i & o & ->). exfalso. apply (ND n i o). rewrite X. apply in_elt. }
    intros h1 e h2 A B C. destruct (X h1 e h2 A B C) as [X1 X2]. split; [|assumption]. destruct l; [auto|congruence].
  Qed.
End Stays.

Lemma adds_in es i oo e : adds es i oo -> In e es -> oinput e = Some i /\ forall n j o, e = ODone n j o -> oo = Some o.
Proof.
  intros (n & x & [-> |[-> | ->]] & [-> |[-> |(o & -> & ->)]]); cbn [In]; intro I;
    repeat (destruct I as [<-|I]; [split; [reflexivity|intros ? ? ? Z; try discriminate Z; now injection Z as <- <- <-]|]); destruct I.
Qed.

Lemma adds_ne es i oo : adds es i oo -> exists e, In e es /\ oinput e = Some i.
Proof.
  intros (n & x & [-> |[-> | ->]] & [-> |[-> |(o & -> & ->)]]); eexists; (split; [left; reflexivity|reflexivity]).
Qed.

Lemma answers_hash E w p w' r : answers E w p w' r -> cl_hash (w_client w') = cl_hash (w_client w).
Proof. intro H. destruct H; reflexivity. Qed.
Lemma waits_hash E i w w' p : waits_for E i w w' p -> cl_hash (w_client w') = cl_hash (w_client w).
Proof.
  destruct p; cbn [waits_for].
  - now intros (-> & _).
  - now intros (? & ? & ? & ? & ? & _ & _ & _ & _ & _ & _ & _ & _ & _ & _ & ->).
  - now intros (? & _ & _ & _ & _ & _ & _ & ->).
  - now intros (? & ? & ? & _ & _ & _ & _ & _ & _ & _ & ->).
Qed.

(* The PIN. *)
Lemma opin_stays E h1 n pin h2 l w : env_ok E ->
  let h := h1 ++ ODone n (ISetPin pin) OUnit :: h2 in
  ohistory E h l w -> ostarts_ok E h ->
  (forall e i, In e h2 -> oinput e = Some i -> ~ may_change_pin i) ->
  (l <> None -> cl_hash (w_client w) = Some (firstn 16 (sha256 (e_C E) pin))) /\
  exists c, saved_client E w c /\ cl_hash c = Some (firstn 16 (sha256 (e_C E) pin)).
Proof.
  intros L h H ST NE.
  apply (stays E (fun c => cl_hash c = Some (firstn 16 (sha256 (e_C E) pin)))
    (fun e => exists n, e = ODone n (ISetPin pin) OUnit) (fun e => exists i, oinput e = Some i /\ may_change_pin i) L) with (h := h)
    (h1 := h1) (e := ODone n (ISetPin pin) OUnit) (h2 := h2); auto.
  - intros c c' _ -> ?. assumption.
  - intros e w0 w1 es K M (m & ->) I. destruct M as [-> ->|i r G X _ _ A|i p G X A|i p r S X A].
    + destruct I as [I|[]]. discriminate I.
    + destruct (adds_in _ _ _ _ A I) as [Q Z]. injection Q as <-. specialize (Z _ _ _ eq_refl).
      destruct r as [o|]; [|discriminate Z]. injection Z as ->. clear I A.
      cbn [handle] in X. unfold fmapM, bind at 1 in X.
      destruct (set_pin_api E pin w0) as [w2 r1] eqn:Y. assert (w1 = w2) as -> by (destruct r1; cbv [ret] in X; congruence). clear X.
      unfold set_pin_api, set_pin_hash in Y. unfold bind at 1 in Y. cbn [get] in Y.
      destruct (hash16 (e_C E) pin (eo_laws E L)) as [A B].
      assert (Z : exists d, stored E d (w_client w2) /\ w_trace w2 = w_trace w0 ++ [EvSave d] /\
                  cl_hash (w_client w2) = Some (firstn 16 (sha256 (e_C E) pin))).
      { pattern w2, r1. eapply wp_eq; [|exact Y]. clear w2 r1 Y. apply wp_bind, wp_put. apply wp_save; auto.
        - now apply client_ok_hash.
        - intros d D. exists d. auto. }
      destruct Z as (d & S & T & Q). split; [auto|]. exists d. split; [|assumption]. now rewrite T, saved_app.
    + destruct (adds_in _ _ _ _ A I) as [_ Z]. specialize (Z _ _ _ eq_refl). discriminate Z.
    + destruct (adds_in _ _ _ _ A I) as [Q Z]. injection Q as <-. specialize (Z _ _ _ eq_refl).
      destruct r as [b|]; discriminate Z.
  - intros w0 w1 es K M NE' Q. destruct M as [-> ->|i r G X _ _ A|i p G X A|i p r S X A].
    + assumption.
    + destruct (adds_ne _ _ _ A) as (e & I & Q'). destruct (handle_hash E i w0 w1 _ L K G X) as [-> |Z]; [assumption|].
      exfalso. apply (NE' e I). eauto.
    + now rewrite (waits_hash _ _ _ _ _ X).
    + now rewrite (answers_hash _ _ _ _ _ X).
  - intros e (m & ->). eauto.
  - exists n. reflexivity.
  - intros e I (i & Q & Z). exact (NE e i I Q Z).
Qed.

(* Credentials. *)
Lemma quick_not_registered E d w w' b : begin E (ICtap (1 :: d)) w <> (w', Ok (inl (OBytes (0 :: b)))).
Proof.
  cbn [begin ctap_begin]. change (1 =? 1) with true. cbn iota. unfold fmapM, bind at 1. intro H.
  destruct (mc_begin E d w) as [w1 [[r|p]|]] eqn:B; try discriminate H. injection H as -> ->.
  unfold mc_begin in B. destruct (unmarshal dec_mc d) as [a|]; [|discriminate B]. cbv zeta in B.
  destruct (existsb es256_param _); [|discriminate B]. rewrite get_bind in B.
  change (if cl_pin (w_client w) then _ else _) with (mc_check (e_C E) (w_client w) a) in B.
  destruct (mc_check (e_C E) (w_client w) a) as [f|e] eqn:CK.
  - destruct (mc_rp a); discriminate B.
  - apply mc_check_err in CK. injection B as _ ->. destruct CK; discriminate.
Qed.

Lemma ocredentials_stay E h1 n d1 r1 h2 l w id x y : env_ok E ->
  let h := h1 ++ ODone n (ICtap (1 :: d1)) (OBytes r1) :: h2 in
  ohistory E h l w -> ostarts_ok E h -> registered r1 id x y ->
  (forall e, In e h2 -> oinput e <> Some (IDelete id)) ->
  (l <> None -> has_cred id x y (cl_vault (w_client w))) /\
  exists c, saved_client E w c /\ has_cred id x y (cl_vault c).
Proof.
  intros L h H ST R NE.
  apply (stays E (fun c => has_cred id x y (cl_vault c))
    (fun e => exists n d, e = ODone n (ICtap (1 :: d)) (OBytes r1)) (fun e => oinput e = Some (IDelete id)) L) with (h := h)
    (h1 := h1) (e := ODone n (ICtap (1 :: d1)) (OBytes r1)) (h2 := h2); auto.
  - intros c c' Q _. now apply has_core.
  - intros e w0 w1 es K M (m & d & ->) I. destruct (registered_ok _ _ _ _ R) as (b & ->).
    destruct M as [-> ->|i r G X QK _ A|i p G X A|i p r S X A].
    + destruct I as [I|[]]. discriminate I.
    + destruct (adds_in _ _ _ _ A I) as [Q Z]. injection Q as <-. specialize (Z _ _ _ eq_refl).
      destruct r as [o|]; [|discriminate Z]. injection Z as ->.
      exfalso. exact (quick_not_registered E d w0 w1 b (QK _ eq_refl)).
    + destruct (adds_in _ _ _ _ A I) as [_ Z]. specialize (Z _ _ _ eq_refl). discriminate Z.
    + destruct (adds_in _ _ _ _ A I) as [Q Z]. injection Q as <-. specialize (Z _ _ _ eq_refl).
      destruct r as [b'|]; [|discriminate Z]. injection Z as ->.
      destruct (sane_create _ _ _ S) as (a & rp & f & ->). cbn [sane] in S. destruct S as (_ & O & F & RP & PR & PU).
      apply create_answer in X as (u & dd & cert & X). cbv zeta in X. destruct X as (US & K' & St & CT & -> & ->).
      destruct (created_says E a rp f u w0 _ _ cert L F eq_refl eq_refl ltac:(eauto)) as (x1 & y1 & R1 & PB & _).
      destruct (registered_one _ _ _ _ _ _ _ R R1) as (-> & -> & ->). cbn [w_client cl_vault set_vault].
      split; [eexists; split; [apply in_elt|auto]|]. exists dd. split; [|assumption]. cbn [w_trace]. now rewrite saved_app.
  - intros w0 w1 es K M NE' Q. destruct M as [-> ->|i r G X _ _ A|i p G X A|i p r S X A].
    + assumption.
    + destruct (adds_ne _ _ _ A) as (e & I & Q'). destruct (handle_step E i w0 w1 _ L K G X) as (_ & _ & VC & _).
      eapply has_change; [exact VC| |exact Q]. intros ->. exact (NE' e I Q').
    + destruct (waits_step E i w0 w1 p K X) as (_ & _ & VC & _).
      eapply has_change; [exact VC| |exact Q]. intros ->. now apply (sane_delete E id p), (waits_sane E _ w0 w1 p L K G X).
    + destruct (answers_step E i (IEnablePin true) p w0 w1 _ K S X) as (_ & _ & VC & _).
      eapply has_change; [exact VC|discriminate|exact Q].
  - intros e (m & d & ->). eauto.
  - exists n, d1. reflexivity.
Qed.
