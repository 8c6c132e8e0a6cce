(* C159: what someone can do who has recorded requests and can send them again. *)
From Verif Require Import Base M_Cbor M_Crypto M_Cose M_State M_Client M_Ctap M_History S_Crypto S_State S_Client S_Ctap S_Secret.

(* The message asks for the PIN token (CTAP 2.0, 5.5.7). *)
Definition asks_token (m : bytes) : Prop :=
  exists data a, m = 6 :: data /\ unmarshal dec_cp data = Some a /\ pn_sub a = 5.

(* The device as it is, with [n] guesses left. *)
Definition with_guesses (w : world) (n : Z) : world :=
  {| w_client := {| cl_key := cl_key (w_client w); cl_cert := cl_cert (w_client w); cl_certkey := cl_certkey (w_client w);
       cl_ctr := cl_ctr (w_client w); cl_pin := cl_pin (w_client w); cl_token := cl_token (w_client w);
       cl_ka := cl_ka (w_client w); cl_retries := n; cl_hash := cl_hash (w_client w); cl_vault := cl_vault (w_client w) |};
     w_tick := w_tick w; w_trace := w_trace w |}.

(* Two states between which neither the PIN was changed nor the device restarted. *)
Record same_session (c1 c2 : client) : Prop := {
  ss_ka : cl_ka c1 = cl_ka c2; ss_hash : cl_hash c1 = cl_hash c2; ss_token : cl_token c1 = cl_token c2;
  ss_pin : cl_pin c1 = cl_pin c2
}.

Fixpoint wrong_pins (os : list (res output)) : nat :=
  match os with
  | [] => 0
  | Ok (OBytes [s]) :: r => (if (s =? 49)%N then 1 else 0) + wrong_pins r
  | _ :: r => wrong_pins r
  end%nat.

(* The claim: whoever has recorded a conversation, and otherwise only guesses wrong, is told that a
   PIN is wrong eight times at most. *)
Definition C159_claim : Prop := forall E rec is w0, env_ok E -> client_ok E (w_client w0) ->
  (forall i, In i is -> In i rec \/
     exists m, i = ICtap m /\ asks_token m /\ snd (ctap_handle E m (snd (talk E rec w0))) = Ok [49]) ->
  (wrong_pins (fst (talk E is (snd (talk E rec w0)))) <= 8)%nat.
