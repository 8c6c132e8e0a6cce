(* Where the answers of overlapping requests come from. *)
From Coq Require Import Permutation.
From Verif Require Import Base M_Str M_Util M_Utf8 M_Cbor M_Json M_Crypto M_Cose M_State M_Client M_Ctap M_U2f M_History M_Overlap.
From Verif Require Import S_Crypto S_Cbor S_Cose S_State S_Client S_Ctap S_CtapReq S_Pin S_U2f S_History S_Overlap.
From Verif Require Import P_Crypto P_Cbor P_Cbor2 P_Cbor3 P_Cose P_Cose2 P_State P_Client P_Ctap P_Ctap2 P_U2f P_U2f2 P_Vault P_History P_Overlap1 P_Overlap2 P_Overlap3.

Lemma app_cases {A} (h es h1 h2 : list A) e : h ++ es = h1 ++ e :: h2 ->
  (exists k, h = h1 ++ e :: k /\ h2 = k ++ es) \/ (exists k, h1 = h ++ k /\ es = k ++ e :: h2).
Proof.
  revert h1. induction h as [|a h IH]; intros h1 Q.
  - right. exists h1. auto.
  - destruct h1 as [|b h1]; cbn [app] in Q; injection Q as <- Q.
    + left. exists h. auto.
    + destruct (IH h1 Q) as [(k & -> & ->)|(k & -> & ->)]; [left|right]; exists k; auto.
Qed.

(* A waiting request and the one that began. *)
Definition same_request (p q : pending) : Prop :=
  match p, q with
  | PLogin a f s, PLogin a' f' s' => a = a' /\ f = f' /\ cs_id s = cs_id s'
  | _, _ => p = q
  end.

Lemma same_refresh p q v : same_request p q -> same_request p (refresh v q).
Proof.
  destruct p as [a rp f|a f s|d c ap k|k c ap], q as [a' rp' f'|a' f' s'|d' c' ap' k'|k' c' ap']; cbn [same_request refresh]; try congruence.
  intros (-> & -> & Q). destruct (find _ v) as [z|] eqn:X; [|auto]. apply find_some in X as [_ X]. apply bytes_eqb_eq in X.
  rewrite X. auto.
Qed.

(* How request [n] began, at the end of [h1]. *)
Definition began (E : Env) (h1 : list oentry) (n : nat) (i : input) (r : res (output + pending)) : Prop :=
  n = length h1 /\ good_input i /\ exists l w w', ohistory E h1 (Some l) w /\ begin E i w = (w', r).

Definition origin (E : Env) (h : list oentry) (x : waiting) : Prop :=
  exists h1 h2 p, h = h1 ++ OBegin (wt_no x) (wt_input x) :: h2 /\ began E h1 (wt_no x) (wt_input x) (Ok (inr p)) /\
    same_request p (wt_state x).

Lemma origin_more E h es x y : wt_no y = wt_no x -> wt_input y = wt_input x ->
  (wt_state y = wt_state x \/ exists v, wt_state y = refresh v (wt_state x)) -> origin E h x -> origin E (h ++ es) y.
Proof.
  intros Q1 Q2 Q3 (h1 & h2 & p & -> & B & S). exists h1, (h2 ++ es), p. rewrite Q1, Q2. split; [now rewrite <- app_assoc|].
  split; [assumption|]. destruct Q3 as [-> |(v & ->)]; [assumption|now apply same_refresh].
Qed.

Lemma same_request_refl p : same_request p p.
Proof. destruct p; cbn; auto. Qed.

(* Every waiting request began. *)
Lemma waiting_began E h l w : ohistory E h l w -> forall l0, l = Some l0 -> Forall (origin E h) l0.
Proof.
  assert (RF : forall h es l w, Forall (origin E h) l -> Forall (origin E (h ++ es)) (refreshed w l)).
  { intros h0 es l0 w0 F. rewrite Forall_forall in *. intros x I. apply refreshed_in in I as (y & I & Q1 & Q2 & Q3).
    eapply origin_more; eauto. }
  intro H. induction H as [c t|h w p w' H IH S|h w p w' H IH S|h l w i w' p H IH G S|h l w i w' o H IH G S|
    h l1 x l2 w w' r H IH S|h l w i w' H IH G S|h l1 x l2 w w' H IH S|h l w i w' r es rest H IH G S T|
    h l1 x l2 w w' r es rest H IH S T|h l w H IH]; intros l0 Q; try discriminate Q; injection Q as <-; try (specialize (IH _ eq_refl)).
  - constructor.
  - apply Forall_app. split; [now apply RF|]. constructor; [|constructor]. exists h, [], p. cbn [wt_no wt_input wt_state].
    split; [reflexivity|]. split; [|apply same_request_refl]. split; [reflexivity|]. split; [assumption|]. eauto.
  - now apply RF.
  - apply RF. apply Forall_app in IH as [F1 F2]. inversion F2; subst. apply Forall_app. auto.
Qed.

(* What an answer in a history is. *)
Definition answered (E : Env) (h1 : list oentry) (n : nat) (i : input) (o : output) (w' : world) : Prop :=
  (exists l1 x l2 w r, ohistory E h1 (Some (l1 ++ x :: l2)) w /\ n = wt_no x /\ i = wt_input x /\
     o = OBytes r /\ resume E (wt_state x) w = (w', Ok r)) \/
  (exists h0 l w, h1 = h0 ++ [OBegin n i] /\ n = length h0 /\ good_input i /\ ohistory E h0 (Some l) w /\
     begin E i w = (w', Ok (inl o))).

Lemma done_at E h l w : env_ok E -> ohistory E h l w -> ostarts_ok E h ->
  forall h1 n i o h2, h = h1 ++ ODone n i o :: h2 ->
    exists w1, answered E h1 n i o w1 /\ w_tick w1 <= w_tick w.
Proof.
  intros L H. induction H as [c t|h w p w' H IH S|h w p w' H IH S|h l w i w' p H IH G S|h l w i w' o H IH G S|
    h l1 x l2 w w' r H IH S|h l w i w' H IH G S|h l1 x l2 w w' H IH S|h l w i w' r es rest H IH G S T|
    h l1 x l2 w w' r es rest H IH S T|h l w H IH]; intros ST h1 n0 i0 o0 h2 Q.
  1: { destruct h1; discriminate Q. }
  all: pose proof (ohistory_inv E _ _ _ L H (ostarts_app _ _ _ ST)) as (V & D & LV & _);
       specialize (IH (ostarts_app _ _ _ ST)); apply app_cases in Q as [(k & -> & ->)|(k & -> & Q)].
  all: try (destruct (IH _ _ _ _ _ eq_refl) as (w1 & A & T1); exists w1; split; [assumption|]; cbn [w_tick]).
  - assert (P : params_ok E p) by (apply ST; left; apply in_elt).
    destruct (start_live E p w w' _ V L P D S) as (_ & T & _). lia.
  - destruct k as [|? [|]]; discriminate Q.
  - assert (P : params_ok E p) by (apply ST; right; apply in_elt).
    destruct (start_live E p w w' _ V L P D S) as (X & _). discriminate X.
  - destruct k as [|? [|]]; discriminate Q.
  - destruct (LV _ eq_refl) as (K & _). destruct (begin_step E i w w' _ L K G S) as (_ & LE & _). lia.
  - destruct k as [|? [|]]; discriminate Q.
  - destruct (LV _ eq_refl) as (K & _). destruct (begin_step E i w w' _ L K G S) as (_ & LE & _). lia.
  - destruct k as [|e [|? [|]]]; cbn [app] in Q; try discriminate Q. injection Q as <- <- <- <- <-.
    exists w'. split; [|lia]. right. exists h, l, w. auto 10.
  - destruct (LV _ eq_refl) as (K & _ & FS). rewrite Forall_forall in FS. pose proof (FS x (in_elt _ _ _)) as SN.
    destruct (resume_step E _ (wt_input x) _ w w' _ L K SN S) as (_ & LE & _). lia.
  - destruct k as [|e [|]]; cbn [app] in Q; try discriminate Q. injection Q as <- <- <- <-.
    exists w'. rewrite app_nil_r. split; [|lia]. left. exists l1, x, l2, w, r. auto 10.
  - destruct (LV _ eq_refl) as (K & _). destruct (begin_step E i w w' _ L K G S) as (_ & LE & _). lia.
  - destruct k as [|e [|? [|]]]; discriminate Q.
  - destruct (LV _ eq_refl) as (K & _ & FS). rewrite Forall_forall in FS. pose proof (FS x (in_elt _ _ _)) as SN.
    destruct (resume_step E _ (wt_input x) _ w w' _ L K SN S) as (_ & LE & _). lia.
  - destruct k as [|e [|]]; discriminate Q.
  - destruct (LV _ eq_refl) as (K & _). destruct (begin_step E i w w' _ L K G S) as (_ & LE & _). lia.
  - destruct k as [|e [|? [|]]]; discriminate Q.
  - destruct (LV _ eq_refl) as (K & _ & FS). rewrite Forall_forall in FS. pose proof (FS x (in_elt _ _ _)) as SN.
    destruct (resume_step E _ (wt_input x) _ w w' _ L K SN S) as (_ & LE & _). lia.
  - destruct k as [|e [|]]; discriminate Q.
  - lia.
  - destruct k as [|e [|]]; discriminate Q.
Qed.

(* Where a request begins. *)
Lemma begin_at E h l w : ohistory E h l w -> forall h1 n i h2, h = h1 ++ OBegin n i :: h2 -> exists r, began E h1 n i r.
Proof.
  intros H. induction H as [c t|h w p w' H IH S|h w p w' H IH S|h l w i w' p H IH G S|h l w i w' o H IH G S|
    h l1 x l2 w w' r H IH S|h l w i w' H IH G S|h l1 x l2 w w' H IH S|h l w i w' r es rest H IH G S T|
    h l1 x l2 w w' r es rest H IH S T|h l w H IH]; intros h1 n0 i0 h2 Q.
  1: { destruct h1; discriminate Q. }
  all: apply app_cases in Q as [(k & -> & ->)|(k & -> & Q)]; [now apply (IH _ _ _ _ eq_refl)|].
  all: destruct k as [|e [|? [|]]]; cbn [app] in Q; try discriminate Q.
  all: injection Q as <- <-; rewrite app_nil_r; eexists; split; [reflexivity|]; split; [assumption|]; eauto.
Qed.

(* ------------------------------------------------------------------ *)
(* What an answer to a login says                                      *)

Lemma len_len {A} (h : list A) : len h = N.of_nat (length h).
Proof. reflexivity. Qed.

(* Of the source that signed. *)
Definition signs_login (E : Env) (h1 : list oentry) (n : nat) (d r auth sig : bytes) (s : source) : Prop :=
  (forall e P, In e (map seen h1) -> says e (cs_id s) P -> P s \/ e = deletion (cs_id s)) /\
  (forall d r c, In (HDone (ICtap (2 :: d)) (OBytes r)) (firstn n (map seen h1)) -> asserted r (cs_id s) c -> c < uctr s) /\
  ~ In (deletion (cs_id s)) (firstn n (map seen h1)) /\
  asserted r (cs_id s) (uctr s) /\
  exists a ad x y, unmarshal dec_ga d = Some a /\
    has_auth_data auth ad /\ ad_rp_hash ad = sha256 (e_C E) (ga_rp a) /\ ad_count ad = uctr s /\
    public_of (cs_key s) x y /\
    ecdsa_verify (e_C E) (x, y) (sha256 (e_C E) (auth ++ or_nil (ga_hash a))) sig = true.

Lemma doc_one r id auth sig id' auth' sig' : response (assertion_doc id auth sig) r ->
  response (assertion_doc id' auth' sig') r -> id = id' /\ auth = auth' /\ sig = sig'.
Proof.
  intros (b & -> & R) (b' & Q & R'). injection Q as <-. pose proof (canonical_one _ _ _ R R') as Q. unfold assertion_doc in Q.
  injection Q as <- <- <-. auto.
Qed.

Lemma login_done E h1 n d r h2 l w id auth sig : env_ok E -> let h := h1 ++ ODone n (ICtap (2 :: d)) (OBytes r) :: h2 in
  ohistory E h l w -> ostarts_ok E h -> fresh E w -> len h < 4294967296 ->
  response (assertion_doc id auth sig) r -> (n <= length h1)%nat /\ exists s, cs_id s = id /\ signs_login E h1 n d r auth sig s.
Proof.
  intros L h H ST F LH AS. destruct (done_at E h l w L H ST _ _ _ _ _ eq_refl) as (w1 & A & T1).
  assert (ST1 : ostarts_ok E h1) by (eapply ostarts_app; exact ST).
  assert (NC : no_clash E (w_tick w1)) by (intros k k' X Y; apply F; lia).
  assert (LH1 : len h1 < 4294967295) by (unfold h, len in *; rewrite app_length in LH; cbn [length] in LH; lia).
  assert (B0 : exists b, r = 0 :: b) by (destruct AS as (b & -> & _); eauto). destruct B0 as (b & ->).
  destruct A as [(l1 & x & l2 & w0 & r0 & H0 & -> & QI & QO & R)|(h0 & l0 & w0 & -> & -> & G & H0 & B)].
  - injection QO as <-. destruct (ohistory_inv E _ _ _ L H0 ST1) as (V & D & LV & SV).
    destruct (LV _ eq_refl) as (K & Q & FS). rewrite Forall_forall in FS. pose proof (FS x (in_elt _ _ _)) as SN.
    pose proof (resume_answers E _ _ w0 w1 _ L K SN R) as AN.
    pose proof (answers_step E _ (wt_input x) _ w0 w1 _ K SN AN) as (_ & LE & _).
    destruct SV as [SV AL]; [intros k k' X Y; apply NC; lia|lia|]. specialize (AL _ eq_refl).
    rewrite <- QI in SN. destruct (sane_login _ _ _ SN) as (a & f & s & ST'). destruct AL as [AL _].
    specialize (AL x a f s (in_elt _ _ _) ST'). rewrite ST' in SN, AN. cbn [sane] in SN.
    destruct SN as ((d' & Q1 & U) & UP & FL & SK). injection Q1 as <-.
    apply login_answer in AN as (k & AN). cbv zeta in AN. destruct AN as (Vk & Kx & _ & ->).
    destruct (login_says E a f s k w0 _ _ L FL SK eq_refl eq_refl Vk Kx) as (R1 & RS & (ad & HA & HR & HC) & x1 & y1 & PB & VF).
    destruct (doc_one _ _ _ _ _ _ _ AS RS) as (-> & -> & ->).
    destruct AL as (NL & _ & _ & _ & G1 & G2 & G3). rewrite map_length in NL. split; [assumption|].
    exists s. split; [reflexivity|]. split; [assumption|]. split; [assumption|]. split; [assumption|].
    split; [assumption|]. exists a, ad, x1, y1. auto 10.
  - pose proof (begin_quick E _ w0 w1 _ B) as HQ.
    assert (ST0 : ostarts_ok E h0) by (eapply ostarts_app; exact ST1).
    rewrite len_snoc in LH1.
    destruct (ohistory_inv E _ _ _ L H0 ST0) as (V & D & LV & SV). destruct (LV _ eq_refl) as (K & Q & _).
    pose proof (begin_step E _ w0 w1 _ L K G B) as (_ & LE & _).
    destruct SV as [SV _]; [intros k k' X Y; apply NC; lia|lia|].
    apply (sound_core E _ _ _ (cl_vault (w_client w0))) in SV; [|now symmetry]. destruct SV as (ND & _ & UB & SY).
    apply handle_ctap in HQ as (r0 & Q1 & HQ). injection Q1 as <-. cbn [good_input] in G. apply wfb_cons in G as [_ G].
    apply assertion_facts in HQ as (a & au & sg & ad & v1 & s1 & v2 & s2 & x & y & es & U & Y1 & Y2 & YR & _ & Y3 & Y4 & _ & _ & PB & VF & V' & Q2 & C2 & _); auto.
    assert (R1 : asserted (0 :: b) (cs_id s1) (ad_count ad)) by (exists au, sg, ad; auto).
    destruct (doc_one _ _ _ _ _ _ _ AS Y1) as (-> & -> & ->).
    assert (I1 : In s1 (cl_vault (w_client w0))) by (rewrite Y4; apply in_elt).
    assert (QI : cs_id s2 = cs_id s1) by (rewrite Q2; reflexivity).
    assert (QK : cs_key s2 = cs_key s1) by (rewrite Q2; reflexivity).
    assert (QC : uctr s2 = ad_count ad) by (unfold uctr; now rewrite Y3, C2).
    pose proof (UB s1 I1) as U1. rewrite seen_len in U1.
    assert (QN : uctr s2 = uctr s1 + 1) by (rewrite QC, Y3; unfold uctr in *; lia).
    split; [rewrite app_length; cbn; lia|]. exists s2. split; [assumption|].
    unfold signs_login. rewrite QI, QK, QC.
    split. { intros e P I S. rewrite map_app in I. apply in_app_iff in I as [I|[<-|[]]]; [|inversion S].
      destruct (SY e _ P I S) as [_ Z]. specialize (Z s1 I1 eq_refl). left.
      remember (cs_id s1) as k eqn:Qk. clear - S Z QK QN. destruct S; cbn in *; [now rewrite QK|lia|contradiction]. }
    rewrite map_app, firstn_app, map_length. replace (length h0 - length h0)%nat with 0%nat by lia. cbn [firstn].
    rewrite app_nil_r. rewrite <- (map_length seen h0), firstn_all.
    split. { intros d0 r0 c I A. destruct (SY _ _ _ I (Says_ga d0 r0 _ c A)) as [_ Z]. specialize (Z s1 I1 eq_refl). cbn in Z. lia. }
    split. { intro I. destruct (SY _ _ _ I (Says_delete _)) as [_ Z]. exact (Z s1 I1 eq_refl). }
    split; [assumption|]. exists a, ad, x, y. auto 10.
Qed.

Lemma in_firstn {A} n (a b : list A) e : (length a < n)%nat -> In e (firstn n (a ++ e :: b)).
Proof.
  intro H. rewrite firstn_app. apply in_app_iff. right. destruct (n - length a)%nat as [|m] eqn:Q; [lia|]. now left.
Qed.

(* C81 *)
Lemma ocounters E h1 n1 d1 r1 h2 n2 d2 r2 h3 l w id c1 c2 : env_ok E ->
  let h := h1 ++ ODone n1 (ICtap (2 :: d1)) (OBytes r1) :: h2 ++ ODone n2 (ICtap (2 :: d2)) (OBytes r2) :: h3 in
  ohistory E h l w -> ostarts_ok E h -> fresh E w -> len h < 4294967296 ->
  asserted r1 id c1 -> asserted r2 id c2 ->
  c1 <= c2 /\ (In (OBegin n2 (ICtap (2 :: d2))) h2 -> c1 < c2).
Proof.
  intros L h H ST F LH A1 A2. unfold h in *. clear h.
  rewrite app_comm_cons, app_assoc in H, ST, LH.
  pose proof A2 as (au & sg & ad & R2 & _).
  destruct (login_done E _ n2 d2 r2 h3 l w id au sg L H ST F LH R2) as (NL & s & <- & G1 & G2 & _ & A3 & _).
  destruct (asserted_one _ _ _ _ _ A2 A3) as (_ & ->).
  set (e1 := ODone n1 (ICtap (2 :: d1)) (OBytes r1)) in *.
  assert (I1 : In (seen e1) (map seen (h1 ++ e1 :: h2))) by (apply in_map, in_elt).
  split.
  - destruct (G1 _ _ I1 (Says_ga d1 r1 _ c1 A1)) as [Z|Z]; [exact Z|discriminate Z].
  - intro B. apply in_split in B as (k1 & k2 & ->).
    destruct (begin_at E _ _ _ H (h1 ++ e1 :: k1) n2 (ICtap (2 :: d2)) (k2 ++ ODone n2 (ICtap (2 :: d2)) (OBytes r2) :: h3)) as (rb & Q & _).
    { rewrite <- !app_assoc. cbn [app]. rewrite <- app_assoc. reflexivity. }
    apply (G2 d1 r1); [|assumption]. rewrite map_app. cbn [map]. apply in_firstn. rewrite map_length, Q, app_length. cbn [length]. lia.
Qed.

(* C82 *)
Lemma odeleted E h1 n1 id h2 n2 d2 r2 h3 l w c : env_ok E ->
  let h := h1 ++ ODone n1 (IDelete id) (OBool true) :: h2 ++ ODone n2 (ICtap (2 :: d2)) (OBytes r2) :: h3 in
  ohistory E h l w -> ostarts_ok E h -> fresh E w -> len h < 4294967296 ->
  In (OBegin n2 (ICtap (2 :: d2))) h2 -> ~ asserted r2 id c.
Proof.
  intros L h H ST F LH B A2. unfold h in *. clear h.
  rewrite app_comm_cons, app_assoc in H, ST, LH.
  pose proof A2 as (au & sg & ad & R2 & _).
  destruct (login_done E _ n2 d2 r2 h3 l w id au sg L H ST F LH R2) as (NL & s & <- & _ & _ & G3 & _).
  apply in_split in B as (k1 & k2 & ->). set (e1 := ODone n1 (IDelete (cs_id s)) (OBool true)) in *.
  destruct (begin_at E _ _ _ H (h1 ++ e1 :: k1) n2 (ICtap (2 :: d2)) (k2 ++ ODone n2 (ICtap (2 :: d2)) (OBytes r2) :: h3)) as (rb & Q & _).
  { rewrite <- !app_assoc. cbn [app]. rewrite <- app_assoc. reflexivity. }
  apply G3. rewrite map_app. cbn [map]. change (deletion (cs_id s)) with (seen e1). apply in_firstn.
  rewrite map_length, Q, app_length. cbn [length]. lia.
Qed.

(* C84 *)
Lemma overifies E h1 n1 d1 r1 h2 n2 d2 r2 h3 l w id x y auth sig : env_ok E ->
  let h := h1 ++ ODone n1 (ICtap (1 :: d1)) (OBytes r1) :: h2 ++ ODone n2 (ICtap (2 :: d2)) (OBytes r2) :: h3 in
  ohistory E h l w -> ostarts_ok E h -> fresh E w -> len h < 4294967296 ->
  registered r1 id x y -> response (assertion_doc id auth sig) r2 ->
  exists a ad, unmarshal dec_ga d2 = Some a /\
    ecdsa_verify (e_C E) (x, y) (sha256 (e_C E) (auth ++ or_nil (ga_hash a))) sig = true /\
    has_auth_data auth ad /\ ad_rp_hash ad = sha256 (e_C E) (ga_rp a).
Proof.
  intros L h H ST F LH R1 R2. unfold h in *. clear h.
  rewrite app_comm_cons, app_assoc in H, ST, LH.
  destruct (login_done E _ n2 d2 r2 h3 l w id auth sig L H ST F LH R2) as (NL & s & <- & G1 & _ & _ & _ & a & ad & x1 & y1 & U & HA & HR & _ & PB & VF).
  set (e1 := ODone n1 (ICtap (1 :: d1)) (OBytes r1)) in *.
  assert (I1 : In (seen e1) (map seen (h1 ++ e1 :: h2))) by (apply in_map, in_elt).
  destruct (G1 _ _ I1 (Says_reg d1 r1 _ _ _ R1)) as [Z|Z]; [|discriminate Z].
  destruct PB as (k & PB), Z as (k' & Z). rewrite PB in Z. injection Z as -> -> _. exists a, ad. auto.
Qed.
