From Coq Require Import Lia Permutation.
From Verif Require Import Base M_Str M_Cbor M_Crypto M_Cose M_State M_Client M_Ctap M_U2f M_History.
From Verif Require Import S_Crypto S_Cbor S_Cose S_State S_Client S_Ctap S_CtapReq S_History S_Secret S_Newest S_Removal.
From Verif Require Import P_Crypto P_Client P_Ctap P_Ctap2 P_Vault P_History P_Newest.

(* The last credential takes the place of the deleted one. *)
Lemma delete_shape v id v' : delete_identity v id = (v', true) ->
  exists u1 t u2, v = u1 ++ t :: u2 /\ cs_id t = id /\
    ((u2 = [] /\ v' = u1) \/ exists u l, u2 = u ++ [l] /\ v' = u1 ++ l :: u).
Proof.
  unfold delete_identity. destruct (find_id v id) as [i|] eqn:F; [|discriminate].
  apply find_id_some in F as (v1 & s & v2 & -> & <- & D & N). intro H. exists v1, s, v2.
  split; [reflexivity|]. split; [assumption|].
  destruct (rev (v1 ++ s :: v2)) as [|l r] eqn:R; [discriminate|]. injection H as <-. rewrite set_nth_app.
  destruct v2 as [|b v2 _] using rev_ind.
  - left. split; [reflexivity|]. now rewrite removelast_last.
  - right. exists v2, b. split; [reflexivity|].
    assert (l = b) as -> by (rewrite app_comm_cons, app_assoc, rev_app_distr in R; cbn in R; congruence).
    replace (v1 ++ b :: v2 ++ [b]) with ((v1 ++ b :: v2) ++ [b]) by (rewrite <- app_assoc; reflexivity).
    now rewrite removelast_last.
Qed.

Lemma two_places (v1 : list source) s v2 u1 t u2 : v1 ++ s :: v2 = u1 ++ t :: u2 -> s <> t ->
  (exists w, u1 = v1 ++ s :: w) \/ (exists w, v1 = u1 ++ t :: w /\ u2 = w ++ s :: v2).
Proof.
  revert u1. induction v1 as [|a v1 IH]; intros [|b u1] Q N; cbn in Q; injection Q as Q1 Q2.
  - contradiction.
  - subst. left. now exists u1.
  - subst. right. exists v1. auto.
  - subst b. destruct (IH u1 Q2 N) as [(w & ->)|(w & -> & ->)]; [left|right]; exists w; auto.
Qed.

Lemma oldest_prefix v1 s w x rp id : rp_id (cs_rp s) = rp -> cs_id s = id -> (forall z, In z v1 -> rp_id (cs_rp z) <> rp) ->
  oldest ((v1 ++ s :: w) ++ x) rp id.
Proof. intros R I F. exists v1, s, (w ++ x). split; [now rewrite <- app_assoc|]. auto. Qed.

Lemma delete_behind v del v' rp id : delete_identity v del = (v', true) -> oldest_before v rp id del -> oldest v' rp id.
Proof.
  intros D (v1 & s & v2 & -> & R & I & N & F). destruct (delete_shape _ _ _ D) as (u1 & t & u2 & Q & T & S).
  assert (Nt : s <> t) by congruence.
  destruct (two_places _ _ _ _ _ _ Q Nt) as [(w & ->)|(w & -> & _)].
  - destruct S as [(_ & ->)|(u & l & _ & ->)].
    + exists v1, s, w. split; [reflexivity|]. split; [exact R|]. split; [exact I|]. intros z Z. now apply F.
    + apply oldest_prefix; auto. intros z Z. now apply F.
  - destruct (F t) as (_ & X); [apply in_elt|contradiction].
Qed.

Lemma delete_other_last v del v' rp id : delete_identity v del = (v', true) -> oldest v rp id -> id <> del ->
  last_is_other v rp -> oldest v' rp id.
Proof.
  intros D (v1 & s & v2 & -> & R & I & F) N (v0 & l0 & L & Lr). destruct (delete_shape _ _ _ D) as (u1 & t & u2 & Q & T & S).
  assert (Nt : s <> t) by congruence.
  destruct (two_places _ _ _ _ _ _ Q Nt) as [(w & ->)|(w & -> & ->)].
  - destruct S as [(_ & ->)|(u & l & _ & ->)].
    + exists v1, s, w. auto.
    + apply oldest_prefix; auto.
  - destruct S as [(Z & _)|(u & l & Z & ->)]; [now destruct w|].
    assert (El : l = l0).
    { rewrite Q, Z in L. change (u1 ++ t :: u ++ [l]) with (u1 ++ (t :: u) ++ [l]) in L. rewrite app_assoc in L.
      now apply app_inj_tail in L as (_ & ->). }
    subst l0. destruct v2 as [|b v2 _] using rev_ind.
    + apply app_inj_tail in Z as (_ & <-). contradiction.
    + rewrite app_comm_cons, app_assoc in Z. apply app_inj_tail in Z as (<- & ->).
      exists (u1 ++ l :: w), s, v2. split; [now rewrite <- app_assoc|]. split; [exact R|]. split; [exact I|].
      intros z Hz. apply in_app_or in Hz as [Hz|[<-|Hz]]; [|exact Lr|]; apply F; apply in_or_app; [now left|right; now right].
Qed.

Lemma after_delete E w w1 del o rp id (P : list source -> Prop) : env_ok E -> client_ok E (w_client w) ->
  handle E (IDelete del) w = (w1, Ok o) -> P (cl_vault (w_client w)) ->
  (forall v', P (cl_vault (w_client w)) -> delete_identity (cl_vault (w_client w)) del = (v', true) -> oldest v' rp id) ->
  oldest (cl_vault (w_client w)) rp id -> client_ok E (w_client w1) /\ oldest (cl_vault (w_client w1)) rp id.
Proof.
  intros L K H Pv Hd O. cbn [handle] in H. unfold fmapM, bind in H.
  destruct (delete_identity_api E del w) as [w' r] eqn:D. destruct (delete_api E del w w' r L K D) as (K' & _ & S).
  assert (W1 : w' = w1) by (destruct S as [(-> & _)|(v & d & -> & _)]; cbv in H; congruence).
  subst w'. split; [exact K'|]. destruct S as [(_ & -> & _)|(v & d & _ & Dv & C & _)]; [exact O|].
  rewrite C. apply Hd; auto.
Qed.

Theorem answers_behind E w w1 w2 del o m rp id r id' n : env_ok E -> client_ok E (w_client w) ->
  oldest_before (cl_vault (w_client w)) rp id del -> handle E (IDelete del) w = (w1, Ok o) ->
  logs_in_any m rp -> ctap_handle E m w1 = (w2, Ok r) -> asserted r id' n -> id' = id.
Proof.
  intros L K O H Lg Hc A.
  assert (O' : oldest (cl_vault (w_client w)) rp id).
  { destruct O as (v1 & s & v2 & Q & R & I & _ & F). exists v1, s, v2. split; [exact Q|]. split; [exact R|]. split; [exact I|].
    intros z Z. now apply F. }
  destruct (after_delete E w w1 del o rp id (fun v => oldest_before v rp id del) L K H O) as (K1 & O1); [|exact O'|].
  - intros v' P D. exact (delete_behind _ _ _ _ _ D P).
  - exact (oldest_one _ _ _ _ (login_oldest E w1 w2 m rp r id' n L K1 Lg Hc A) O1).
Qed.

Theorem answers_other_last E w w1 w2 del o m rp id r id' n : env_ok E -> client_ok E (w_client w) ->
  oldest (cl_vault (w_client w)) rp id -> id <> del -> last_is_other (cl_vault (w_client w)) rp ->
  handle E (IDelete del) w = (w1, Ok o) ->
  logs_in_any m rp -> ctap_handle E m w1 = (w2, Ok r) -> asserted r id' n -> id' = id.
Proof.
  intros L K O N La H Lg Hc A.
  destruct (after_delete E w w1 del o rp id (fun v => last_is_other v rp) L K H La) as (K1 & O1); [|exact O|].
  - intros v' P D. exact (delete_other_last _ _ _ _ _ D O N P).
  - exact (oldest_one _ _ _ _ (login_oldest E w1 w2 m rp r id' n L K1 Lg Hc A) O1).
Qed.
