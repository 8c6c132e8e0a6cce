(* C160: which credential answers a login that names none. *)
From Verif Require Import Base M_Cbor M_Crypto M_Cose M_State M_Client M_Ctap M_History.
From Verif Require Import S_Crypto S_Cbor S_Cose S_State S_Client S_Ctap S_CtapReq S_History S_Secret.

(* [id] is the credential of [rp] that stands first in the vault. *)
Definition oldest (v : list source) (rp id : bytes) : Prop :=
  exists v1 s v2, v = v1 ++ s :: v2 /\ rp_id (cs_rp s) = rp /\ cs_id s = id /\
    forall z, In z v1 -> rp_id (cs_rp z) <> rp.

(* The message is a login for [rp] that names no credential. *)
Definition logs_in_any (m rp : bytes) : Prop :=
  exists data a, m = 2 :: data /\ wfb data /\ unmarshal dec_ga data = Some a /\ ga_rp a = rp /\ ga_allow a = None.

(* The message is a login for [rp] that names this credential only. *)
Definition logs_in_with (m rp id : bytes) : Prop :=
  exists data a l, m = 2 :: data /\ wfb data /\ unmarshal dec_ga data = Some a /\ ga_rp a = rp /\ ga_allow a = Some l /\
    forall d, In d l -> or_nil (de_id d) = id.

(* The message asks for a registration with [rp]. *)
Definition registers (m rp : bytes) : Prop :=
  exists data a e, m = 1 :: data /\ wfb data /\ unmarshal dec_mc data = Some a /\ mc_rp a = Some e /\ rp_id e = rp.

(* CTAP 2.0, 5.2: with several credentials the most recently created one comes first. *)
Definition C160_claim : Prop := forall E w w1 w2 m1 r1 id x y m2 r2 id' n rp, env_ok E -> client_ok E (w_client w) ->
  registers m1 rp -> ctap_handle E m1 w = (w1, Ok r1) -> registered r1 id x y ->
  logs_in_any m2 rp -> ctap_handle E m2 w1 = (w2, Ok r2) -> asserted r2 id' n -> id' = id.
