(* What it means that a conversation with the device does not depend on something. *)
From Verif Require Import Base M_Cbor M_Crypto M_Cose M_State M_Client M_Ctap M_History S_Ctap.

(* A conversation: the inputs one after another, until the process ends with a panic; what
   comes back, and the world afterwards. *)
Fixpoint talk (E : Env) (is : list input) (w : world) : list (res output) * world :=
  match is with
  | [] => ([], w)
  | i :: r =>
    match handle E i w with
    | (w', Ok o) => let (os, w'') := talk E r w' in (Ok o :: os, w'')
    | (w', Panic) => ([Panic], w')
    end
  end.

(* What is seen of a conversation: the answers, and the questions put to the user with the
   user's answers. *)
Definition seen (E : Env) (is : list input) (w : world)
  (os : list (res output)) (qs : list (action * bytes * bytes * bool)) : Prop :=
  fst (talk E is w) = os /\
  exists es, w_trace (snd (talk E is w)) = w_trace w ++ es /\ qs = S_Client.asked es.

(* Nothing in the conversation tells the two worlds apart. *)
Definition alike (E : Env) (is : list input) (w1 w2 : world) : Prop :=
  exists os qs, seen E is w1 os qs /\ seen E is w2 os qs.

(* Two states of one device. *)
Record same_but_vault (c1 c2 : client) : Prop := {
  sv_key : cl_key c1 = cl_key c2; sv_cert : cl_cert c1 = cl_cert c2; sv_certkey : cl_certkey c1 = cl_certkey c2;
  sv_ctr : cl_ctr c1 = cl_ctr c2; sv_pin : cl_pin c1 = cl_pin c2; sv_token : cl_token c1 = cl_token c2;
  sv_ka : cl_ka c1 = cl_ka c2; sv_retries : cl_retries c1 = cl_retries c2; sv_hash : cl_hash c1 = cl_hash c2
}.
Record same_but_pin (c1 c2 : client) : Prop := {
  sp_key : cl_key c1 = cl_key c2; sp_cert : cl_cert c1 = cl_cert c2; sp_certkey : cl_certkey c1 = cl_certkey c2;
  sp_ctr : cl_ctr c1 = cl_ctr c2; sp_pin : cl_pin c1 = cl_pin c2; sp_ka : cl_ka c1 = cl_ka c2;
  sp_retries : cl_retries c1 = cl_retries c2; sp_vault : cl_vault c1 = cl_vault c2
}.
Record same_but_u2f (c1 c2 : client) : Prop := {
  su_cert : cl_cert c1 = cl_cert c2; su_certkey : cl_certkey c1 = cl_certkey c2;
  su_pin : cl_pin c1 = cl_pin c2; su_token : cl_token c1 = cl_token c2;
  su_ka : cl_ka c1 = cl_ka c2; su_retries : cl_retries c1 = cl_retries c2; su_hash : cl_hash c1 = cl_hash c2;
  su_vault : cl_vault c1 = cl_vault c2
}.
Record same_u2f (c1 c2 : client) : Prop := {
  uf_key : cl_key c1 = cl_key c2; uf_ctr : cl_ctr c1 = cl_ctr c2; uf_cert : cl_cert c1 = cl_cert c2;
  uf_certkey : cl_certkey c1 = cl_certkey c2
}.

(* The credentials of the relying parties in [R], in their order. *)
Definition owned (R : bytes -> bool) (v : list source) : list source := filter (fun s => R (rp_id (cs_rp s))) v.

(* The message asks for an assertion for this relying party. *)
Definition logs_in (m rp : bytes) : Prop :=
  exists data a, m = 2 :: data /\ unmarshal dec_ga data = Some a /\ ga_rp a = rp.

(* The message offers this PIN hash to a device with this key agreement key: a ChangePIN or
   GetPINToken request, encrypted for it. *)
Definition tries (E : Env) (ka : N) (m g : bytes) : Prop :=
  exists data a k x, m = 6 :: data /\ unmarshal dec_cp data = Some a /\ (pn_sub a = 4 \/ pn_sub a = 5) /\
    pn_key a = Some k /\
    p256_mul (e_C E) ka (big_set (or_nil (e2_x k)), big_set (or_nil (e2_y k))) = Some x /\
    decrypt_cbc (e_C E) (sha256 (e_C E) (big_bytes x)) (or_nil (pn_hash a)) = Ok g.

(* The message proves knowledge of this PIN token. *)
Definition proves (E : Env) (token m : bytes) : Prop :=
  (exists data a p, m = 1 :: data /\ unmarshal dec_mc data = Some a /\ mc_auth a = Some p /\
     pin_proof (e_C E) token (or_nil (mc_hash a)) p) \/
  (exists data a p, m = 2 :: data /\ unmarshal dec_ga data = Some a /\ ga_auth a = Some p /\
     pin_proof (e_C E) token (or_nil (ga_hash a)) p).
