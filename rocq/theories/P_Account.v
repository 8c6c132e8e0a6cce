From Verif Require Import Base M_Str M_Cbor M_Crypto M_Cose M_State M_Client M_Ctap M_U2f M_History.
From Verif Require Import S_Crypto S_Cbor S_Cose S_State S_Client S_Ctap S_CtapReq S_History S_Account.
From Verif Require Import P_Crypto P_Client P_Ctap P_Ctap2.

Lemma resident_adds E w w' m rp uid b : env_ok E -> client_ok E (w_client w) -> asks_resident m rp uid ->
  ctap_handle E m w = (w', Ok (0 :: b)) ->
  exists s, cl_vault (w_client w') = cl_vault (w_client w) ++ [s] /\ of_account rp uid s.
Proof.
  intros L K (data & a & e & u & op & -> & W & U & Re & Rp & Us & Ui & _) H.
  destruct (registration_verifies E w data w' b L K W H) as (a' & rp' & u' & auth & sig & cert & ad & i0 & key & x0 & y0 & s & U' & Re' & Us' & _ & _ & _ & _ & _ & _ & _ & _ & _ & _ & _ & V & _ & Sr & Su & _).
  rewrite U in U'. injection U' as <-. rewrite Re in Re'. injection Re' as <-. rewrite Us in Us'. injection Us' as <-.
  exists s. split; [exact V|]. split; [now rewrite Sr|now rewrite Su].
Qed.

Theorem first_of_account E w w' m rp uid b : env_ok E -> client_ok E (w_client w) ->
  one_each (cl_vault (w_client w)) -> (forall s, In s (cl_vault (w_client w)) -> ~ of_account rp uid s) ->
  asks_resident m rp uid -> ctap_handle E m w = (w', Ok (0 :: b)) -> one_each (cl_vault (w_client w')).
Proof.
  intros L K O F A H. destruct (resident_adds E w w' m rp uid b L K A H) as (s & V & As).
  intros v1 x v2 t v3 rp' uid' Q Ax At. rewrite V in Q.
  destruct v3 as [|z v3 _] using rev_ind.
  - rewrite app_comm_cons, app_assoc in Q. apply app_inj_tail in Q as (Q & <-).
    assert (I : In x (cl_vault (w_client w))) by (rewrite Q; apply in_elt).
    apply (F x I). destruct As as (R1 & U1), At as (R2 & U2), Ax as (R3 & U3). split; congruence.
  - rewrite !app_comm_cons, !app_assoc in Q. apply app_inj_tail in Q as (Q & _).
    refine (O v1 x v2 t v3 rp' uid' _ Ax At). rewrite Q, <- !app_assoc. reflexivity.
Qed.

Theorem second_of_account E w w' m rp uid b s : env_ok E -> client_ok E (w_client w) ->
  In s (cl_vault (w_client w)) -> of_account rp uid s ->
  asks_resident m rp uid -> ctap_handle E m w = (w', Ok (0 :: b)) ->
  ~ one_each (cl_vault (w_client w')) /\ exists t, cl_vault (w_client w') = cl_vault (w_client w) ++ [t] /\ of_account rp uid t.
Proof.
  intros L K I As A H. destruct (resident_adds E w w' m rp uid b L K A H) as (t & V & At). split; [|now exists t].
  intros O. apply in_split in I as (v1 & v2 & Q). rewrite V, Q in O.
  apply (O v1 s v2 t [] rp uid); auto. now rewrite <- app_assoc.
Qed.
