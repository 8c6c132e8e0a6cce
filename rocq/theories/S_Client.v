(* Environments and client states the theorems are about, and what saved data says. *)
From Coq Require Import Permutation.
From Verif Require Import Base M_Crypto M_Cose M_State M_Client S_Crypto S_Cbor S_State.

(* The assumptions on everything outside the device. *)
Record env_ok (E : Env) : Prop := {
  eo_laws : laws (e_C E);
  eo_rand_len : forall t n, len (e_rand E t n) = N.of_nat n;
  eo_rand_wf : forall t n, wfb (e_rand E t n);
  eo_scalar : forall t, valid_scalar (e_scalar E t);
  eo_cert : forall t ca k p b, e_make_cert E t ca k p = Some b -> wfb b /\ len b < 4294967296
}.

(* A private key that survives being written and read. *)
Definition stable_key (C : Crypto) (k : cose_priv) : Prop :=
  exists b, marshal_priv k = Ok b /\ wfb b /\ unmarshal_priv C b = Ok (Some k).

(* A credential as the device makes it, whatever its relying party, user and counter. *)
Definition source_ok (C : Crypto) (s : source) : Prop :=
  cs_type s = [112; 117; 98; 108; 105; 99; 45; 107; 101; 121] /\ len (cs_id s) = 16 /\ wfb (cs_id s) /\
  (exists d, valid_scalar d /\ cs_key s = priv_ec (ec_key C d)) /\
  proper_rp (cs_rp s) /\ proper_user (cs_user s) /\ (-2147483648 <= cs_ctr s < 2147483648)%Z.

Record client_ok (E : Env) (c : client) : Prop := {
  co_key : aes_key (cl_key c) /\ wfb (cl_key c);
  co_cert : wfb (cl_cert c) /\ e_cert_ok E (cl_cert c) = true;
  co_certkey : stable_key (e_C E) (cl_certkey c);
  co_ctr : cl_ctr c < 4294967296;
  co_token : len (cl_token c) = 16 /\ wfb (cl_token c);
  co_ka : valid_scalar (cl_ka c);
  co_retries : (0 <= cl_retries c <= 8)%Z;
  co_hash : match cl_hash c with Some h => wfb h /\ len h = 16 | None => True end;
  co_vault : Forall (source_ok (e_C E)) (cl_vault c)
}.

(* The authority of the client can certify every P-256 key. *)
Definition can_certify (E : Env) (c : client) : Prop := forall t d, valid_scalar d ->
  e_make_cert E t (cl_cert c) (cl_certkey c) (pub_ec (ec_public (ec_key (e_C E) d))) <> None.

(* What the parameters of NewDefaultClient must satisfy. *)
Definition params_ok (E : Env) (p : params) : Prop :=
  (aes_key (pa_key p) /\ wfb (pa_key p)) /\ (wfb (pa_cert p) /\ e_cert_ok E (pa_cert p) = true) /\
  stable_key (e_C E) (pa_certkey p).

(* The configuration [cf] describes the client state [c]. *)
Definition describes_source (C : Crypto) (ss : saved_source) (s : source) : Prop :=
  ss_type ss = cs_type s /\ ss_id ss = Some (cs_id s) /\
  (exists b, ss_key ss = Some b /\ unmarshal_priv C b = Ok (Some (cs_key s))) /\
  ss_rp ss = cs_rp s /\ ss_user ss = cs_user s /\ ss_ctr ss = cs_ctr s.

Definition describes (C : Crypto) (cf : config) (c : client) : Prop :=
  cf_key cf = Some (cl_key c) /\ cf_cert cf = Some (cl_cert c) /\
  (exists b, cf_certkey cf = Some b /\ unmarshal_priv C b = Ok (Some (cl_certkey c))) /\
  cf_ctr cf = cl_ctr c /\ cf_pin cf = cl_pin c /\ cf_pin_hash cf = cl_hash c /\
  Forall2 (describes_source C) (cf_sources cf) (cl_vault c).

(* The blob [d] is a complete save of [c]. *)
Definition stored (E : Env) (d : bytes) (c : client) : Prop :=
  closed_text d /\ exists cf, decrypt_fido_state (e_C E) d (e_pass E) = Ok (Some cf) /\ describes (e_C E) cf c.

(* Relying party and user of every credential replaced by those of the last one. *)
Definition with_owner (rp : rp_ent) (u : user_ent) (s : source) : source :=
  {| cs_type := cs_type s; cs_id := cs_id s; cs_key := cs_key s; cs_rp := rp; cs_user := u;
     cs_ctr := cs_ctr s |}.
Definition smeared (v : list source) : list source :=
  match rev v with
  | [] => []
  | z :: _ => map (with_owner (cs_rp z) (cs_user z)) v
  end.

(* The blobs handed to the data saver, oldest first. *)
Definition saves (es : list event) : list bytes :=
  flat_map (fun e => match e with EvSave d => [d] | _ => [] end) es.

(* The questions put to the approver, with the answers. *)
Definition asked (es : list event) : list (action * bytes * bytes * bool) :=
  flat_map (fun e => match e with EvAsk a r u b => [(a, r, u, b)] | _ => [] end) es.
