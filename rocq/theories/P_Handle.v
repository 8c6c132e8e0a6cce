From Verif Require Import Base M_Str M_Cbor M_Crypto M_Cose M_State M_Client M_Ctap M_U2f M_History.
From Verif Require Import S_Crypto S_Cbor S_Cose S_State S_Client S_Ctap S_CtapReq S_History S_Secret S_Newest S_Handle.
From Verif Require Import P_Crypto P_Cbor3 P_Client P_Ctap P_Ctap2.

Lemma any_logs_in m rp : logs_in_any m rp -> logs_in m rp.
Proof. intros (data & a & Q & W & U & R & _). exists data, a. auto. Qed.

Theorem tells_which E w w' m rp b : env_ok E -> client_ok E (w_client w) -> logs_in m rp ->
  ctap_handle E m w = (w', Ok (0 :: b)) ->
  exists s, In s (cl_vault (w_client w)) /\ rp_id (cs_rp s) = rp /\ tells_credential (0 :: b) (cs_id s).
Proof.
  intros L K (data & a & -> & W & U & R) H.
  destruct (assertion_facts E w data w' b L K W H) as (a' & auth & sig & ad & v1 & s & v2 & s' & x & y & es & U' & Rp & _ & _ & _ & _ & V & M & _).
  rewrite U in U'. injection U' as <-. exists s. split; [rewrite V; apply in_elt|]. split; [rewrite <- R; apply M|].
  unfold assertion_doc in Rp. eexists. split; [eexists; split; [exact Rp|now left]|]. now left.
Qed.

Theorem only_three E w w' m rp b k v : env_ok E -> client_ok E (w_client w) -> logs_in m rp ->
  ctap_handle E m w = (w', Ok (0 :: b)) -> member (0 :: b) k v -> k = 1 \/ k = 2 \/ k = 3.
Proof.
  intros L K (data & a & -> & W & U & R) H (l & (b' & Q & C) & I). injection Q as <-.
  destruct (assertion_facts E w data w' b L K W H) as (a' & auth & sig & ad & v1 & s & v2 & s' & x & y & es & _ & (b' & Q & C') & _).
  injection Q as <-. pose proof (canonical_one _ _ _ C C') as Z. unfold assertion_doc in Z. injection Z as ->.
  destruct I as [I|[I|[I|[]]]]; injection I as <- _; auto.
Qed.
