From Coq Require Import Lia Permutation.
From Verif Require Import Base M_Str M_Cbor M_Crypto M_Cose M_State M_Client M_Ctap M_U2f M_History.
From Verif Require Import S_Crypto S_Cbor S_Cose S_State S_Client S_Ctap S_CtapReq S_History S_Secret S_Newest.
From Verif Require Import P_Crypto P_Client P_Ctap P_Ctap2 P_History.

Lemma oldest_one v rp id id' : oldest v rp id -> oldest v rp id' -> id = id'.
Proof.
  intros (v1 & s & v2 & -> & R & <- & F) (u1 & t & u2 & Q & R' & <- & F').
  revert u1 Q F F'. induction v1 as [|a v1 IH]; intros [|b u1] Q F F'; cbn in Q; injection Q as Q1 Q2.
  - now subst.
  - subst b. exfalso. apply (F' s); [now left|exact R].
  - subst a. exfalso. apply (F t); [now left|exact R'].
  - apply (IH u1 Q2); intros z I; [apply F|apply F']; now right.
Qed.

Lemma split_bump (v1 : list source) s v2 : forall u1 x u2, v1 ++ s :: v2 = u1 ++ x :: u2 ->
  exists v1' s' v2', u1 ++ bump x :: u2 = v1' ++ s' :: v2' /\ cs_id s' = cs_id s /\ cs_rp s' = cs_rp s /\
    map cs_rp v1' = map cs_rp v1.
Proof.
  induction v1 as [|a v1 IH]; intros [|b u1] x u2 Q; cbn in Q; injection Q as Q1 Q2.
  - subst. exists [], (bump x), u2. auto.
  - subst. exists [], b, (u1 ++ bump x :: u2). auto.
  - subst. exists (bump x :: v1), s, v2. auto.
  - subst b. destruct (IH u1 x u2 Q2) as (v1' & s' & v2' & A & B & C & D). exists (a :: v1'), s', v2'. cbn. rewrite A, D. auto.
Qed.

Lemma oldest_step E i w w' rp id : step_ok E i w w' -> (forall x, i <> IDelete x) ->
  oldest (cl_vault (w_client w)) rp id -> oldest (cl_vault (w_client w')) rp id.
Proof.
  intros (_ & _ & V & _) N (v1 & s & v2 & Q & R & I & F). destruct V as [|k r u A B|u1 x u2 Z|t v' Z P].
  - exists v1, s, v2. auto.
  - rewrite Q, <- app_assoc. exists v1, s, (v2 ++ [made E k r u]). auto.
  - rewrite Q in Z. destruct (split_bump v1 s v2 u1 x u2 Z) as (v1' & s' & v2' & -> & I' & R' & M).
    exists v1', s', v2'. split; [reflexivity|]. split; [now rewrite R'|]. split; [congruence|].
    intros z Hz. apply (in_map cs_rp) in Hz. rewrite M in Hz. apply in_map_iff in Hz as (y & Y & Hy). rewrite <- Y. now apply F.
  - now apply N in Z.
Qed.

Lemma talk_ok E is : env_ok E -> forall w, client_ok E (w_client w) -> Forall good_input is ->
  client_ok E (w_client (snd (talk E is w))).
Proof.
  intros L. induction is as [|i is IH]; intros w K G; [exact K|]. apply Forall_cons_iff in G as (G & Gs). cbn [talk].
  destruct (handle E i w) as [w1 r] eqn:H. pose proof (handle_step E i w w1 r L K G H) as (K1 & _).
  destruct r as [o|]; [|exact K1]. specialize (IH w1 K1 Gs). destruct (talk E is w1) as [os w2]. exact IH.
Qed.

Lemma talk_oldest E is rp id : env_ok E -> forall w, client_ok E (w_client w) -> Forall good_input is ->
  (forall x, ~ In (IDelete x) is) -> oldest (cl_vault (w_client w)) rp id ->
  oldest (cl_vault (w_client (snd (talk E is w)))) rp id.
Proof.
  intros L. induction is as [|i is IH]; intros w K G N O; [exact O|]. apply Forall_cons_iff in G as (G & Gs). cbn [talk].
  destruct (handle E i w) as [w1 r] eqn:H. pose proof (handle_step E i w w1 r L K G H) as S.
  assert (O1 : oldest (cl_vault (w_client w1)) rp id).
  { apply (oldest_step E i w w1 rp id S); [|exact O]. intros x ->. apply (N x). now left. }
  pose proof S as (K1 & _). destruct r as [o|]; [|exact O1].
  specialize (IH w1 K1 Gs (fun x I => N x (or_intror I)) O1). destruct (talk E is w1) as [os w2]. exact IH.
Qed.

Lemma login_oldest E w w' m rp r id n : env_ok E -> client_ok E (w_client w) -> logs_in_any m rp ->
  ctap_handle E m w = (w', Ok r) -> asserted r id n -> oldest (cl_vault (w_client w)) rp id.
Proof.
  intros L K (data & a & -> & W & U & R & Al) H A. destruct (asserted_ok _ _ _ A) as (b & ->).
  destruct (assertion_facts E w data w' b L K W H) as (a' & auth & sig & ad & v1 & s & v2 & s' & x & y & es & U' & Rp & Ha & _ & _ & _ & V & M & F & _).
  rewrite U in U'. injection U' as <-. rewrite Al, R in *.
  assert (A' : asserted (0 :: b) (cs_id s) (ad_count ad)) by (exists auth, sig, ad; auto).
  destruct (asserted_one _ _ _ _ _ A A') as (-> & _). exists v1, s, v2. split; [exact V|].
  split; [apply M|]. split; [reflexivity|]. intros z Hz Q. apply (F z Hz). split; [exact Q|exact I].
Qed.

Theorem first_answers E is w w' m rp id r id' n : env_ok E -> client_ok E (w_client w) -> Forall good_input is ->
  (forall x, ~ In (IDelete x) is) -> oldest (cl_vault (w_client w)) rp id ->
  logs_in_any m rp -> ctap_handle E m (snd (talk E is w)) = (w', Ok r) -> asserted r id' n -> id' = id.
Proof.
  intros L K G N O Lg H A. pose proof (talk_ok E is L w K G) as K'. pose proof (talk_oldest E is rp id L w K G N O) as O'.
  pose proof (login_oldest E _ w' m rp r id' n L K' Lg H A) as O2. exact (oldest_one _ _ _ _ O2 O').
Qed.

Theorem only_answers E w w1 w2 m1 r1 id x y m2 r2 id' n rp : env_ok E -> client_ok E (w_client w) ->
  (forall s, In s (cl_vault (w_client w)) -> rp_id (cs_rp s) <> rp) ->
  registers m1 rp -> ctap_handle E m1 w = (w1, Ok r1) -> registered r1 id x y ->
  logs_in_any m2 rp -> ctap_handle E m2 w1 = (w2, Ok r2) -> asserted r2 id' n -> id' = id.
Proof.
  intros L K No (data & a & e & -> & W & U & Re & Rp) H R Lg H2 A.
  destruct (registered_ok _ _ _ _ R) as (b & ->).
  destruct (registration_verifies E w data w1 b L K W H) as (a' & rp' & u & auth & sig & cert & ad & i0 & key & x0 & y0 & s & U' & Re' & _ & Rs & Ha & _ & _ & _ & _ & At & _ & Ca & _ & _ & V & I & Sr & _).
  rewrite U in U'. injection U' as <-. rewrite Re in Re'. injection Re' as <-.
  assert (R' : registered (0 :: b) i0 (be_dec x0) (be_dec y0)) by (exists auth, sig, cert, ad, key, x0, y0; auto 10).
  destruct (registered_one _ _ _ _ _ _ _ R R') as (-> & _).
  assert (K1 : client_ok E (w_client w1)).
  { assert (G : good_input (ICtap (1 :: data))) by (cbn; apply wfb_cons; split; [unfold byte_ok; lia|exact W]).
    assert (Hh : handle E (ICtap (1 :: data)) w = (w1, Ok (OBytes (0 :: b)))) by (cbn [handle]; unfold fmapM, bind; now rewrite H).
    destruct (handle_step E _ w w1 _ L K G Hh) as (K1 & _). exact K1. }
  pose proof (login_oldest E w1 w2 m2 rp r2 id' n L K1 Lg H2 A) as O.
  apply (oldest_one _ _ _ _ O). rewrite V. exists (cl_vault (w_client w)), s, []. split; [reflexivity|].
  split; [now rewrite Sr|]. split; [exact I|exact No].
Qed.

Theorem named_answers E w w' m rp id r id' n : env_ok E -> client_ok E (w_client w) -> logs_in_with m rp id ->
  ctap_handle E m w = (w', Ok r) -> asserted r id' n -> id' = id.
Proof.
  intros L K (data & a & l & -> & W & U & R & Al & Hl) H A. destruct (asserted_ok _ _ _ A) as (b & ->).
  destruct (assertion_facts E w data w' b L K W H) as (a' & auth & sig & ad & v1 & s & v2 & s' & x & y & es & U' & Rp & Ha & _ & _ & _ & V & M & F & _).
  rewrite U in U'. injection U' as <-. rewrite Al in *.
  assert (A' : asserted (0 :: b) (cs_id s) (ad_count ad)) by (exists auth, sig, ad; auto).
  destruct (asserted_one _ _ _ _ _ A A') as (-> & _). destruct M as (_ & d & D & <-). now apply Hl.
Qed.
