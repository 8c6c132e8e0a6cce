(* C163: a login that names no credential tells whose account it is. *)
From Verif Require Import Base M_Cbor M_Crypto M_Cose M_State M_Client M_Ctap M_History.
From Verif Require Import S_Crypto S_Cbor S_Cose S_State S_Client S_Ctap S_CtapReq S_History S_Secret S_Newest.

(* The answer has the member [k], which is [v]. *)
Definition member (r : bytes) (k : N) (v : cbor) : Prop := exists l, response (CMap l) r /\ In (CUint k, v) l.

(* CTAP 2.0, 5.2: member 1 is the credential, 4 the user entity ("For resident keys on FIDO devices,
   at least user "id" is mandatory"), 5 the number of credentials. *)
Definition tells_credential (r id : bytes) : Prop := exists l, member r 1 (CMap l) /\ In (CText text_id, CBytes id) l.
Definition tells_account (r uid : bytes) : Prop := exists l, member r 4 (CMap l) /\ In (CText text_id, CBytes uid) l.

(* The message is a login for [rp]. *)
Definition logs_in (m rp : bytes) : Prop :=
  exists data a, m = 2 :: data /\ wfb data /\ unmarshal dec_ga data = Some a /\ ga_rp a = rp.

Definition C163_claim : Prop := forall E w w' m rp b, env_ok E -> client_ok E (w_client w) -> logs_in_any m rp ->
  ctap_handle E m w = (w', Ok (0 :: b)) ->
  exists s, In s (cl_vault (w_client w)) /\ rp_id (cs_rp s) = rp /\ tells_credential (0 :: b) (cs_id s) /\
    tells_account (0 :: b) (or_nil (us_id (cs_user s))).
