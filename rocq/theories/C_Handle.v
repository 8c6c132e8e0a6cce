(* A login that names no credential tells whose account it is (C163). *)
From Verif Require Import Base M_Str M_Cbor M_Crypto M_Cose M_State M_Client M_Ctap M_U2f M_History.
From Verif Require Import S_Crypto S_Cbor S_Cose S_State S_Client S_Ctap S_CtapReq S_History S_Secret S_Newest S_Handle.
From Verif Require Import P_Crypto P_Client P_Toy P_Ctap2 P_History P_History2 P_Newest P_Handle C_Newest.

(* ---------------------------------------------------------------- C163 *)
(* The answer tells the id of a credential of the relying party, *)
Theorem C163_credential_partial : forall E w w' m rp b, env_ok E -> client_ok E (w_client w) -> logs_in m rp ->
  ctap_handle E m w = (w', Ok (0 :: b)) ->
  exists s, In s (cl_vault (w_client w)) /\ rp_id (cs_rp s) = rp /\ tells_credential (0 :: b) (cs_id s).
Proof. exact tells_which. Qed.
Print Assumptions C163_credential_partial.

(* and no answer at all has the account or the number of credentials. *)
Theorem C163_always_refuted : forall E w w' m rp b k v, env_ok E -> client_ok E (w_client w) -> logs_in m rp ->
  ctap_handle E m w = (w', Ok (0 :: b)) -> member (0 :: b) k v -> k = 1 \/ k = 2 \/ k = 3.
Proof. exact only_three. Qed.
Print Assumptions C163_always_refuted.

(* A device with two credentials of one relying party. *)
Lemma login_runs : ctap_handle (toyE true) login again = (done, Ok (0 :: tl (answer login again))).
Proof. vm_compute. reflexivity. Qed.

Example C163_ex : logs_in login rpA /\ length (cl_vault (w_client again)) = 2%nat /\
  (exists v, member (0 :: tl (answer login again)) 1 v).
Proof.
  pose proof (any_logs_in _ _ login_any) as Lg. split; [exact Lg|]. split; [vm_compute; reflexivity|].
  destruct (C163_credential_partial (toyE true) again done login rpA _ (toyE_ok true) again_ok Lg login_runs) as (s & _ & _ & l & M & _).
  now exists (CMap l).
Qed.

Theorem C163_refuted : ~ C163_claim.
Proof.
  intros H. destruct (H (toyE true) again done login rpA _ (toyE_ok true) again_ok login_any login_runs) as (s & _ & _ & _ & l & M & _).
  destruct (C163_always_refuted (toyE true) again done login rpA _ 4 (CMap l) (toyE_ok true) again_ok (any_logs_in _ _ login_any) login_runs M) as [Q|[Q|Q]];
    discriminate Q.
Qed.
Print Assumptions C163_refuted.
