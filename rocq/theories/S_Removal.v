(* C161: a deletion does not change which of the other credentials answers. *)
From Verif Require Import Base M_Cbor M_Crypto M_Cose M_State M_Client M_Ctap M_History.
From Verif Require Import S_Crypto S_Cbor S_Cose S_State S_Client S_Ctap S_CtapReq S_History S_Secret S_Newest.

(* [id] is the first credential of [rp], and neither it nor what stands before it is called [del]. *)
Definition oldest_before (v : list source) (rp id del : bytes) : Prop :=
  exists v1 s v2, v = v1 ++ s :: v2 /\ rp_id (cs_rp s) = rp /\ cs_id s = id /\ id <> del /\
    forall z, In z v1 -> rp_id (cs_rp z) <> rp /\ cs_id z <> del.

(* The last credential of the vault is of another relying party. *)
Definition last_is_other (v : list source) (rp : bytes) : Prop :=
  exists v0 l, v = v0 ++ [l] /\ rp_id (cs_rp l) <> rp.

(* The credential that answers before another one is deleted answers after it. *)
Definition C161_claim : Prop := forall E w w1 w2 del o m rp id r id' n, env_ok E -> client_ok E (w_client w) -> wfb del ->
  oldest (cl_vault (w_client w)) rp id -> id <> del -> handle E (IDelete del) w = (w1, Ok o) ->
  logs_in_any m rp -> ctap_handle E m w1 = (w2, Ok r) -> asserted r id' n -> id' = id.
