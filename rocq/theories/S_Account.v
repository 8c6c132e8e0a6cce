(* C162: one resident credential for each account. *)
From Verif Require Import Base M_Cbor M_Crypto M_Cose M_State M_Client M_Ctap M_History.
From Verif Require Import S_Crypto S_Cbor S_Cose S_State S_Client S_Ctap S_CtapReq S_History.

(* The credential is of the account [uid] with the relying party [rp]. *)
Definition of_account (rp uid : bytes) (s : source) : Prop :=
  rp_id (cs_rp s) = rp /\ or_nil (us_id (cs_user s)) = uid.

(* No account has two credentials. *)
Definition one_each (v : list source) : Prop :=
  forall v1 s v2 t v3 rp uid, v = v1 ++ s :: v2 ++ t :: v3 -> of_account rp uid s -> ~ of_account rp uid t.

(* The message asks for a resident credential of this account. *)
Definition asks_resident (m rp uid : bytes) : Prop :=
  exists data a e u op, m = 1 :: data /\ wfb data /\ unmarshal dec_mc data = Some a /\ mc_rp a = Some e /\ rp_id e = rp /\
    mc_user a = Some u /\ or_nil (us_id u) = uid /\ mc_options a = Some op /\ op_rk op = true.

(* CTAP 2.0, 5.1: "If a credential for the same RP ID and account ID already exists on the
   authenticator, overwrite that credential." *)
Definition C162_claim : Prop := forall E w w' m rp uid b, env_ok E -> client_ok E (w_client w) ->
  one_each (cl_vault (w_client w)) -> asks_resident m rp uid -> ctap_handle E m w = (w', Ok (0 :: b)) ->
  one_each (cl_vault (w_client w')).
