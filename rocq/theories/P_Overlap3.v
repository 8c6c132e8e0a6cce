(* The invariant of overlapping requests. *)
From Coq Require Import Permutation.
From Verif Require Import Base M_Str M_Util M_Utf8 M_Cbor M_Json M_Crypto M_Cose M_State M_Client M_Ctap M_U2f M_History M_Overlap.
From Verif Require Import S_Crypto S_Cbor S_Cose S_State S_Client S_Ctap S_CtapReq S_Pin S_U2f S_History S_Overlap.
From Verif Require Import P_Crypto P_Cbor P_Cbor2 P_Cbor3 P_Cose P_Cose2 P_State P_Client P_Ctap P_Ctap2 P_U2f P_U2f2 P_Vault P_History P_Overlap1 P_Overlap2.

(* An overlapping history as one of M_History, position by position: only starts and answers say anything. *)
Definition seen (e : oentry) : entry :=
  match e with
  | OStart p => HStart p
  | OStartFailed p => HStartFailed p
  | ODone _ i o => HDone i o
  | OBegin _ i | OPanic _ i | OCrash _ i => HCrash i
  | OKill => HCrash (IEnablePin true)
  end.

Lemma seen_starts E h : ostarts_ok E h -> starts_ok E (map seen h).
Proof.
  intros H p [I|I]; apply in_map_iff in I as (e & Q & I); apply H; destruct e; try discriminate Q; injection Q as ->; auto.
Qed.

Lemma ostarts_app E a b : ostarts_ok E (a ++ b) -> ostarts_ok E a.
Proof. intros H p [I|I]; apply H; rewrite !in_app_iff; tauto. Qed.

Lemma seen_len h : len (map seen h) = len h.
Proof. unfold len. now rewrite map_length. Qed.

Definition quiet (e : oentry) : bool := match e with ODone _ _ _ => false | _ => true end.

Lemma quiet_says e id P : quiet e = true -> ~ says (seen e) id P.
Proof. intros Q S. destruct e; try discriminate Q; inversion S. Qed.

Lemma sound_steps E i h es w w' V : sound E h (w_tick w) V -> map core (cl_vault (w_client w)) = map core V ->
  step_ok E i w w' -> no_clash E (w_tick w') -> len h < 4294967295 -> es <> [] ->
  (forall e id P, In e es -> says e id P ->
    drawn E (w_tick w') id /\ forall s, In s (cl_vault (w_client w')) -> cs_id s = id -> P s) ->
  sound E (h ++ es) (w_tick w') (cl_vault (w_client w')).
Proof.
  intros S Q (_ & LE & VC & _) NC LH NE He.
  apply (sound_core E h _ V (cl_vault (w_client w))) in S; [|now symmetry].
  destruct (sound_change E i h _ _ _ _ S VC LE NC LH) as (A & B & D & F).
  assert (LES : 1 <= len es) by (destruct es; [congruence|unfold len; cbn [length]; lia]).
  split; [assumption|]. split; [assumption|]. split; [intros s I; rewrite len_app; apply D in I; lia|].
  intros e' id P I X. apply in_app_iff in I as [I|I]; [eapply F; eauto|now apply (He e')].
Qed.

Lemma sound_quiet E h es t t' V : sound E h t V -> t <= t' -> (forall e id P, In e es -> ~ says e id P) -> sound E (h ++ es) t' V.
Proof.
  intros S T Q. apply sound_ticks with (t' := t') in S; [|assumption]. destruct S as (A & B & D & F).
  split; [assumption|]. split; [assumption|]. split; [intros s I; apply D in I; rewrite len_app; lia|].
  intros e id P I X. apply in_app_iff in I as [I|I]; [eapply F; eauto|]. exfalso. now apply (Q e id P).
Qed.

(* ------------------------------------------------------------------ *)
(* The answer of a request that waited                                 *)

Lemma create_answer E w a rp f w' b : answers E w (PCreate a rp f) w' (Ok (0 :: b)) ->
  exists u d cert, let s := made E (w_tick w + 1) rp u in
    let c' := set_vault (w_client w) (cl_vault (w_client w) ++ [s]) in
    let auth := mc_auth_data E rp (cs_id s) (e_scalar E (w_tick w + 2)) f in
    let sig := ecdsa_sign (e_C E) (e_scalar E (w_tick w + 2))
                 (sha256 (e_C E) (auth ++ or_nil (mc_hash a))) (e_rand E (w_tick w + 8) 32) in
    mc_user a = Some u /\ client_ok E c' /\ stored E d c' /\
    e_make_cert E (w_tick w + 7) (cl_cert (w_client w)) (cl_certkey (w_client w))
      (pub_ec (ec_public (ec_key (e_C E) (e_scalar E (w_tick w + 2))))) = Some cert /\
    w' = mkw c' (w_tick w + 9) (w_trace w ++ [EvAsk ActMakeCredential (rp_name rp) [] true; EvSave d]) /\
    b = cenc (attestation_doc auth sig cert).
Proof. intro H. inversion H; subst; clear H. exists u, d, cert. cbv zeta. auto 10. Qed.

Lemma login_answer E w a f s w' b : answers E w (PLogin a f s) w' (Ok (0 :: b)) ->
  exists k, let auth := sha256 (e_C E) (ga_rp a) ++ [N.lor f 1] ++ ctr_bytes (cs_ctr s) in
    let sig := ecdsa_sign (e_C E) k (sha256 (e_C E) (auth ++ or_nil (ga_hash a))) (e_rand E (w_tick w + 1) 32) in
    valid_scalar k /\ cs_key s = priv_ec (ec_key (e_C E) k) /\
    w' = mkw (w_client w) (w_tick w + 2)
           (w_trace w ++ [EvAsk ActGetAssertion (rp_name (cs_rp s)) (us_name (cs_user s)) true]) /\
    b = cenc (assertion_doc (cs_id s) auth sig).
Proof. intro H. inversion H; subst; clear H. exists k. cbv zeta. auto 10. Qed.

(* The kind of a waiting request is that of its message. *)
Lemma sane_create E d p : sane E (ICtap (1 :: d)) p -> exists a rp f, p = PCreate a rp f.
Proof.
  destruct p as [a rp f|a f s|d0 chal app h0|k chal app]; cbn [sane]; [eauto| | |].
  - intros ((dd & Q & _) & _). discriminate Q.
  - intros ((dd & Q & _) & _). discriminate Q.
  - intros (dd & Q & _). discriminate Q.
Qed.

Lemma sane_login E d p : sane E (ICtap (2 :: d)) p -> exists a f s, p = PLogin a f s.
Proof.
  destruct p as [a rp f|a f s|d0 chal app h0|k chal app]; cbn [sane]; [|eauto| |].
  - intros ((dd & Q & _) & _). discriminate Q.
  - intros ((dd & Q & _) & _). discriminate Q.
  - intros (dd & Q & _). discriminate Q.
Qed.

Lemma sane_delete E id p : ~ sane E (IDelete id) p.
Proof.
  destruct p as [a rp f|a f s|d0 chal app h0|k chal app]; cbn [sane].
  - intros ((dd & Q & _) & _). discriminate Q.
  - intros ((dd & Q & _) & _). discriminate Q.
  - intros ((dd & Q & _) & _). discriminate Q.
  - intros (dd & Q & _). discriminate Q.
Qed.

Lemma resumed_says E h w l x w' r : env_ok E -> client_ok E (w_client w) -> sane E (wt_input x) (wt_state x) ->
  answers E w (wt_state x) w' (Ok r) -> In x l -> all_ok E h w l -> sound E h (w_tick w) (cl_vault (w_client w)) ->
  no_clash E (w_tick w') -> len h < 4294967295 ->
  forall id P, says (HDone (wt_input x) (OBytes r)) id P ->
    (drawn E (w_tick w') id /\ forall s, In s (cl_vault (w_client w')) -> cs_id s = id -> P s) /\
    ((forall y a f s, In y l -> wt_state y = PLogin a f s -> cs_id s = id -> P s) \/
     (exists z, In z (cl_vault (w_client w')) /\ cs_id z = id)).
Proof.
  intros L K SN A I [AL AE] SO NC LH id P S.
  pose proof (answers_step E _ (wt_input x) _ w w' _ K SN A) as (_ & LE & VC & _).
  pose proof (sound_change E _ h _ _ _ _ SO VC LE NC LH) as (ND & DR & _).
  inversion S as [d r' id' xx yy R Q1 Q2 Q3|d r' id' n R Q1 Q2 Q3|]; subst; rewrite <- ?Q1 in SN.
  - destruct (sane_create _ _ _ SN) as (a & rp & f & ST). rewrite ST in *. destruct (registered_ok _ _ _ _ R) as (b & ->).
    cbn [sane] in SN. destruct SN as (_ & O & F & RP & PR & PU).
    apply create_answer in A as (u & dd & cert & A). cbv zeta in A. destruct A as (US & _ & _ & CT & -> & ->).
    destruct (created_says E a rp f u w _ _ cert L F eq_refl eq_refl ltac:(eauto)) as (x1 & y1 & R1 & PB & _).
    destruct (registered_one _ _ _ _ _ _ _ R R1) as (-> & -> & ->). cbn [w_client cl_vault set_vault w_tick] in *.
    assert (IN : In (made E (w_tick w + 1) rp u) (cl_vault (w_client w) ++ [made E (w_tick w + 1) rp u])) by apply in_elt.
    split; [split; [now apply DR|]|right; eauto].
    intros s Is Q. rewrite (vault_one _ s (made E (w_tick w + 1) rp u) ND Is IN Q). assumption.
  - destruct (sane_login _ _ _ SN) as (a & f & s & ST). pose proof (AL x a f s I ST) as LK. rewrite ST in SN, A.
    destruct (asserted_ok _ _ _ R) as (b & ->). cbn [sane] in SN. destruct SN as (_ & UP & F & SK).
    apply login_answer in A as (k & A). cbv zeta in A. destruct A as (Vk & Kx & -> & ->).
    destruct (login_says E a f s k w _ _ L F SK eq_refl eq_refl Vk Kx) as (R1 & _).
    destruct (asserted_one _ _ _ _ _ R R1) as (-> & ->). cbn [w_client cl_vault w_tick] in *.
    destruct LK as (_ & LD & _ & LV & _).
    split; [split; [eapply drawn_le; eauto|]|left].
    + intros z Iz Q. rewrite (LV z Iz Q). lia.
    + intros y a' f' s' Iy Sy Q. rewrite (AE y x a' f' s' a f s Iy I Sy ST Q). lia.
Qed.

(* ------------------------------------------------------------------ *)
(* The invariant                                                       *)

Definition oinv (E : Env) (h : list oentry) (l : option (list waiting)) (w : world) : Prop :=
  exists V, disk E w V /\
    (forall l0, l = Some l0 -> client_ok E (w_client w) /\ map core (cl_vault (w_client w)) = map core V /\
       Forall (fun x => sane E (wt_input x) (wt_state x)) l0) /\
    (no_clash E (w_tick w) -> len h <= 4294967295 ->
     sound E (map seen h) (w_tick w) V /\ forall l0, l = Some l0 -> all_ok E (map seen h) w l0).

Lemma refreshed_sane E w l : client_ok E (w_client w) -> Forall (fun x => sane E (wt_input x) (wt_state x)) l ->
  Forall (fun x => sane E (wt_input x) (wt_state x)) (refreshed w l).
Proof.
  intros K F. rewrite Forall_forall in *. intros x I. apply refreshed_in in I as (y & I & _ & -> & ->).
  apply refresh_sane; [apply (co_vault E _ K)|auto].
Qed.

(* A step of a running process. *)
Lemma oinv_up E h l w i w' es l' : oinv E h (Some l) w -> step_ok E i w w' -> es <> [] ->
  Forall (fun x => sane E (wt_input x) (wt_state x)) l' ->
  (sound E (map seen h) (w_tick w) (cl_vault (w_client w)) -> all_ok E (map seen h) w l -> no_clash E (w_tick w') -> len h < 4294967295 ->
   (forall e id P, In e es -> says (seen e) id P ->
     drawn E (w_tick w') id /\ forall s, In s (cl_vault (w_client w')) -> cs_id s = id -> P s) /\
   all_ok E (map seen (h ++ es)) w' l') ->
  oinv E (h ++ es) (Some l') w'.
Proof.
  intros (V & D & LV & SV) SO NE FS HS. destruct (LV l eq_refl) as (K & Q & _).
  pose proof SO as (K' & LE & _ & _ & es' & Ev & Sv).
  assert (LES : 1 <= len es) by (destruct es; [congruence|unfold len; cbn [length]; lia]).
  assert (SD : no_clash E (w_tick w') -> len (h ++ es) <= 4294967295 ->
    sound E (map seen (h ++ es)) (w_tick w') (cl_vault (w_client w')) /\ all_ok E (map seen (h ++ es)) w' l').
  { intros NC LH. rewrite len_app in LH. destruct SV as [S0 A0]; [intros k k' A B; apply NC; lia|lia|].
    assert (S1 : sound E (map seen h) (w_tick w) (cl_vault (w_client w))) by (eapply sound_core; [symmetry; exact Q|exact S0]).
    destruct (HS S1 (A0 l eq_refl) NC ltac:(lia)) as [H1 H2]. split; [|assumption]. rewrite map_app.
    eapply sound_steps; eauto; [rewrite seen_len; lia|destruct es; [congruence|discriminate]|].
    intros e id P I. apply in_map_iff in I as (e0 & <- & I). now apply H1. }
  assert (T : w_trace w' = w_trace w ++ es' ++ []) by now rewrite app_nil_r.
  destruct (disk_step E i w w' V es' [] D SO T) as [[Z X]|X]; unfold disk in X; cbn [w_trace] in X; rewrite app_nil_r in T; rewrite <- T in X.
  - assert (Q' : map core (cl_vault (w_client w')) = map core V).
    { destruct Sv as [(_ & n & k & ->)|(d & Y & _)]; [exact Q|congruence]. }
    exists V. split; [exact X|]. split; [intros l0 Ql; injection Ql as <-; auto|]. intros NC LH. destruct (SD NC LH) as [S1 A1].
    split; [eapply sound_core; [exact Q'|exact S1]|]. intros l0 Ql. now injection Ql as <-.
  - exists (cl_vault (w_client w')). split; [exact X|]. split; [intros l0 Ql; injection Ql as <-; auto|]. intros NC LH.
    destruct (SD NC LH) as [S1 A1]. split; [assumption|]. intros l0 Ql. now injection Ql as <-.
Qed.

(* The last step of a process. *)
Lemma oinv_down E h l w i w' es evs rest : oinv E h (Some l) w -> step_ok E i w w' -> es <> [] -> Forall (fun e => quiet e = true) es ->
  w_trace w' = w_trace w ++ evs ++ rest ->
  oinv E (h ++ es) None {| w_client := w_client w'; w_tick := w_tick w'; w_trace := w_trace w ++ evs |}.
Proof.
  intros (V & D & LV & SV) SO NE FQ T. destruct (LV l eq_refl) as (K & Q & _). pose proof SO as (K' & LE & _).
  assert (LES : 1 <= len es) by (destruct es; [congruence|unfold len; cbn [length]; lia]).
  assert (QS : forall e id P, In e (map seen es) -> ~ says e id P).
  { intros e id P I. apply in_map_iff in I as (e0 & <- & I). apply quiet_says. rewrite Forall_forall in FQ. auto. }
  destruct (disk_step E i w w' V evs rest D SO T) as [[Z X]|X];
    eexists; (split; [exact X|]); (split; [discriminate|]); cbn [w_tick]; intros NC LH; rewrite len_app in LH;
    (destruct SV as [S0 _]; [intros k k' A B; apply NC; lia|lia|]); (split; [|discriminate]); rewrite map_app.
  - eapply sound_quiet; eauto.
  - eapply sound_steps; eauto; [rewrite seen_len; lia|destruct es; [congruence|discriminate]|].
    intros e id P I S. exfalso. eapply QS; eauto.
Qed.

Lemma resume_step E i j p w w' r : env_ok E -> client_ok E (w_client w) -> sane E i p -> resume E p w = (w', r) -> step_ok E j w w'.
Proof. intros L K S H. eapply answers_step; eauto. eapply resume_answers; eauto. Qed.

Lemma full_trace E i w w' : step_ok E i w w' -> exists evs, w_trace w' = w_trace w ++ evs ++ [] /\
  {| w_client := w_client w'; w_tick := w_tick w'; w_trace := w_trace w ++ evs |} = w'.
Proof.
  intros (_ & _ & _ & _ & es & Ev & _). unfold events in Ev. exists es. rewrite app_nil_r. split; [assumption|].
  rewrite <- Ev. now destruct w'.
Qed.

(* The new waiting request. *)
Lemma new_login E h w i w' a f s : sound E h (w_tick w) (cl_vault (w_client w)) -> no_clash E (w_tick w') -> len h < 4294967295 ->
  step_ok E i w w' -> waits_for E i w w' (PLogin a f s) ->
  login_ok E (h ++ [HCrash i]) (w_tick w') (cl_vault (w_client w')) (length h) s /\ In s (cl_vault (w_client w')).
Proof.
  intros SO NC LH (_ & LE & VC & _) H.
  destruct (sound_change E i h _ _ _ _ SO VC LE NC LH) as (ND & DR & UB & SY).
  destruct H as (data & v1 & x & v2 & d & -> & U & CK & UP & V & _ & _ & -> & K' & St & ->).
  cbn [w_client set_vault cl_vault w_tick] in *.
  assert (IB : In (bump x) (v1 ++ bump x :: v2)) by apply in_elt. split; [|assumption].
  assert (Ix : In x (cl_vault (w_client w))) by (rewrite V; apply in_elt).
  destruct SO as (_ & _ & UX & SX). pose proof (UX x Ix) as Bx.
  unfold login_ok. rewrite app_length, len_snoc, firstn_snoc, firstn_all by lia. cbn [length].
  split; [lia|]. split; [now apply DR|]. split; [now apply UB|].
  split; [intros z Iz Q; apply (vault_one _ z (bump x) ND); auto|].
  split.
  { intros e P I S. left. apply in_app_iff in I as [I|[<-|[]]]; [|inversion S].
    destruct (SY e _ P I S) as [_ Z]. now apply Z. }
  split.
  - intros d0 r c I A. destruct (SX _ _ _ I (Says_ga d0 r _ c A)) as [_ Z]. specialize (Z x Ix eq_refl). cbn in Z.
    rewrite uctr_bump; lia.
  - intro I. destruct (SX _ _ _ I (Says_delete _)) as [_ Z]. exact (Z x Ix eq_refl).
Qed.

Lemma ohistory_inv E h l w : env_ok E -> ohistory E h l w -> ostarts_ok E h -> oinv E h l w.
Proof.
  intros L H. induction H as [c t|h w p w' H IH S|h w p w' H IH S|h l w i w' p H IH G S|h l w i w' o H IH G S|
    h l1 x l2 w w' r H IH S|h l w i w' H IH G S|h l1 x l2 w w' H IH S|h l w i w' r es rest H IH G S T|
    h l1 x l2 w w' r es rest H IH S T|h l w H IH]; intro ST;
    try (specialize (IH (ostarts_app _ _ _ ST)); pose proof IH as (V & D & LV & SV)).
  - exists []. split; [reflexivity|]. split; [discriminate|]. intros _ _. split; [|discriminate]. split; [constructor|].
    split; [intros s []|]. split; [intros s []|]. intros e id P [].
  - assert (P : params_ok E p) by (apply ST; left; apply in_elt).
    destruct (start_live E p w w' _ V L P D S) as (_ & T & Tr & K & _ & X). exists V.
    split; [unfold disk in *; now rewrite Tr|]. split.
    + intros l0 Q. injection Q as <-. split; [assumption|]. split; [|constructor]. unfold disk in D. destruct (saved_in (w_trace w)) as [d|].
      * destruct X as (c & _ & _ & _ & -> & _). apply smeared_core.
      * destruct X as (-> & _). now rewrite D.
    + rewrite T. intros NC LH. rewrite len_snoc in LH. split.
      * rewrite map_app. cbn [map seen]. apply sound_entry; [|intros id Q Z; inversion Z].
        apply sound_ticks with (w_tick w); [|lia]. apply SV; [|lia]. intros k k' A B. apply NC; lia.
      * intros l0 Q. injection Q as <-. split; [intros x a f s []|intros x y a f s a' f' s' []].
  - assert (P : params_ok E p) by (apply ST; right; apply in_elt).
    destruct (start_live E p w w' _ V L P D S) as (X & _). discriminate X.
  - destruct (LV l eq_refl) as (K & Q & FS).
    pose proof (begin_step E i w w' _ L K G S) as SO. pose proof (begin_wait E i w w' p L K G S) as WF.
    pose proof SO as (K' & _).
    apply oinv_up with (l := l) (w := w) (i := i); auto; [discriminate| |].
    { apply Forall_app. split; [now apply refreshed_sane|]. constructor; [|constructor]. cbn [wt_input wt_state]. exact (waits_sane E i w w' p L K G WF). }
    intros S1 A1 NC LH. split. { intros e id P [<-|[]] X. inversion X. }
    rewrite map_app. cbn [map seen].
    assert (A2 : all_ok E (map seen h ++ [HCrash i]) w' (refreshed w' l)).
    { eapply all_step; eauto; [rewrite seen_len; lia|discriminate|]. intros e id P [<-|[]] X. inversion X. }
    assert (A4 : (forall a f s, p <> PLogin a f s) ->
      all_ok E (map seen h ++ [HCrash i]) w' (refreshed w' l ++ [mk_waiting (length h) i p])).
    { destruct A2 as [A2 A3]. intro NP. split.
      - intros x a0 f0 s0 I Qx. apply in_app_iff in I as [I|[<-|[]]]; [eapply A2; eauto|]. now apply NP in Qx.
      - intros x y a0 f0 s0 a1 f1 s1 I J Qx Qy. apply in_app_iff in I as [I|[<-|[]]]; [|now apply NP in Qx].
        apply in_app_iff in J as [J|[<-|[]]]; [|now apply NP in Qy].
        exact (A3 x y a0 f0 s0 a1 f1 s1 I J Qx Qy). }
    destruct p as [a rp f|a f s|d chal app k|k chal app]; try (apply A4; discriminate).
    destruct (new_login E (map seen h) w i w' a f s S1 NC ltac:(rewrite seen_len; lia) SO WF) as [NL IN].
    rewrite map_length in NL. destruct A2 as [A2 A3]. split.
    + intros x a0 f0 s0 I Qx. apply in_app_iff in I as [I|[<-|[]]]; [eapply A2; eauto|]. injection Qx as <- <- <-. exact NL.
    + intros x y a0 f0 s0 a1 f1 s1 I J Qx Qy ID. apply in_app_iff in I as [I|[<-|[]]]; apply in_app_iff in J as [J|[<-|[]]].
      * exact (A3 x y a0 f0 s0 a1 f1 s1 I J Qx Qy ID).
      * injection Qy as <- <- <-. destruct (A2 _ _ _ _ I Qx) as (_ & _ & _ & Z & _). symmetry. now apply Z.
      * injection Qx as <- <- <-. destruct (A2 _ _ _ _ J Qy) as (_ & _ & _ & Z & _). now apply Z.
      * cbn [wt_state] in *. congruence.
  - destruct (LV l eq_refl) as (K & Q & FS). pose proof (begin_quick E i w w' o S) as HQ.
    pose proof (begin_step E i w w' _ L K G S) as SO. pose proof SO as (K' & _).
    apply oinv_up with (l := l) (w := w) (i := i); auto; [discriminate|now apply refreshed_sane|].
    intros S1 A1 NC LH.
    assert (SD := said E i o w w' (map seen h) (w_tick w) L K G HQ S1 eq_refl NC ltac:(rewrite seen_len; lia)).
    split. { intros e id P [<-|[<-|[]]] X; [inversion X|]. now apply SD. }
    rewrite map_app. eapply all_step; eauto; [rewrite seen_len; lia|discriminate|]. cbn [map seen].
    intros e id P [<-|[<-|[]]] X; [inversion X|]. right.
    destruct (said_in E i o w w' L K G HQ id P X) as [Z|Z]; [left|now right]. split; [assumption|]. now apply SD.
  - destruct (LV _ eq_refl) as (K & Q & FS). pose proof FS as FS'. rewrite Forall_forall in FS'.
    pose proof (FS' x (in_elt _ _ _)) as SN. pose proof (resume_answers E _ _ w w' _ L K SN S) as AN.
    pose proof (answers_step E _ (wt_input x) _ w w' _ K SN AN) as SO. pose proof SO as (K' & _).
    apply oinv_up with (l := l1 ++ x :: l2) (w := w) (i := wt_input x); auto; [discriminate| |].
    { apply refreshed_sane; auto. apply Forall_app in FS as [F1 F2]. inversion F2; subst. apply Forall_app. auto. }
    intros S1 A1 NC LH.
    assert (RS := resumed_says E (map seen h) w _ x w' r L K SN AN (in_elt _ _ _) A1 S1 NC ltac:(rewrite seen_len; lia)).
    split. { intros e id P [<-|[]] X. now apply RS. }
    rewrite map_app.
    assert (A2 : all_ok E (map seen h ++ map seen [ODone (wt_no x) (wt_input x) (OBytes r)]) w' (refreshed w' (l1 ++ x :: l2))).
    { eapply all_step; eauto; [rewrite seen_len; lia|discriminate|]. cbn [map seen].
      intros e id P [<-|[]] X. destruct (RS id P X) as [[R1 R2] [R3|R3]]; [now left|right; left; auto]. }
    assert (IN : forall y, In y (refreshed w' (l1 ++ l2)) -> In y (refreshed w' (l1 ++ x :: l2))).
    { intros y. unfold refreshed. rewrite !map_app, !in_app_iff. cbn [map In]. tauto. }
    destruct A2 as [A2 A3]. split.
    + intros y a f s I Qy. eapply A2; eauto.
    + intros y z a f s a' f' s' I J Qy Qz. exact (A3 y z a f s a' f' s' (IN y I) (IN z J) Qy Qz).
  - destruct (LV _ eq_refl) as (K & Q & FS).
    pose proof (begin_step E i w w' _ L K G S) as SO. destruct (full_trace E i w w' SO) as (evs & T & <-).
    eapply oinv_down; eauto; try discriminate; repeat constructor.
  - destruct (LV _ eq_refl) as (K & Q & FS). rewrite Forall_forall in FS. pose proof (FS x (in_elt _ _ _)) as SN.
    pose proof (resume_step E _ (wt_input x) _ w w' _ L K SN S) as SO. destruct (full_trace E _ w w' SO) as (evs & T & <-).
    eapply oinv_down; eauto; try discriminate; repeat constructor.
  - destruct (LV _ eq_refl) as (K & Q & FS).
    pose proof (begin_step E i w w' _ L K G S) as SO. eapply oinv_down; eauto; try discriminate; repeat constructor.
  - destruct (LV _ eq_refl) as (K & Q & FS). rewrite Forall_forall in FS. pose proof (FS x (in_elt _ _ _)) as SN.
    pose proof (resume_step E _ (wt_input x) _ w w' _ L K SN S) as SO. eapply oinv_down; eauto; try discriminate; repeat constructor.
  - exists V. split; [assumption|]. split; [discriminate|]. intros NC LH. rewrite len_snoc in LH. split; [|discriminate].
    rewrite map_app. destruct SV as [S0 _]; [assumption|lia|]. eapply sound_quiet; eauto; [lia|]. cbn [map seen].
    intros e id P [<-|[]] X. inversion X.
Qed.
