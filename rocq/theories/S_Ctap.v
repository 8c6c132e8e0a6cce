(* What a relying party and a platform see: CTAP2 documents, independently of the
   encoders of ctap/ctap.go. *)
From Verif Require Import Base M_Cbor S_Cbor M_Crypto M_Cose M_State M_Client M_Ctap S_Client.

Definition text_packed : bytes := [112; 97; 99; 107; 101; 100].
Definition text_public_key : bytes := [112; 117; 98; 108; 105; 99; 45; 107; 101; 121].
Definition text_alg : bytes := [97; 108; 103].
Definition text_sig : bytes := [115; 105; 103].
Definition text_x5c : bytes := [120; 53; 99].
Definition text_id : bytes := [105; 100].
Definition text_type : bytes := [116; 121; 112; 101].

(* CTAP 2.0 section 5.1: the authenticatorMakeCredential response. *)
Definition attestation_doc (auth sig cert : bytes) : cbor :=
  CMap [(CUint 1, CText text_packed); (CUint 2, CBytes auth);
        (CUint 3, CMap [(CText text_alg, CNint 6); (CText text_sig, CBytes sig);
                        (CText text_x5c, CArr [CBytes cert])])].

(* CTAP 2.0 section 5.2: the authenticatorGetAssertion response. *)
Definition assertion_doc (id auth sig : bytes) : cbor :=
  CMap [(CUint 1, CMap [(CText text_id, CBytes id); (CText text_type, CText text_public_key)]);
        (CUint 2, CBytes auth); (CUint 3, CBytes sig)].

(* A successful response: status 0, then exactly this document. *)
Definition response (v : cbor) (r : bytes) : Prop := exists b, r = 0 :: b /\ canonical v b.

(* WebAuthn section 6.1: authenticator data. *)
Record authenticator_data : Type :=
  { ad_rp_hash : bytes; ad_flags : N; ad_count : N; ad_rest : bytes }.
Definition has_auth_data (auth : bytes) (a : authenticator_data) : Prop :=
  auth = ad_rp_hash a ++ [ad_flags a] ++ be 4 (ad_count a) ++ ad_rest a /\
  len (ad_rp_hash a) = 32 /\ ad_flags a < 256 /\ ad_count a < 4294967296.

Definition UP (flags : N) : bool := N.testbit flags 0.
Definition UV (flags : N) : bool := N.testbit flags 2.
Definition AT (flags : N) : bool := N.testbit flags 6.

(* WebAuthn section 6.5.1: attested credential data. *)
Definition attested (rest aaguid id key : bytes) : Prop :=
  rest = aaguid ++ be 2 (len id) ++ id ++ key /\ len aaguid = 16 /\ len id < 65536.

(* A credential may be used for relying party [rp] under an allow list. *)
Definition allowed (rp : bytes) (allow : option (list descriptor)) (s : source) : Prop :=
  rp_id (cs_rp s) = rp /\
  match allow with None => True | Some l => exists d, In d l /\ or_nil (de_id d) = cs_id s end.

(* Section 5.5.8: pinAuth is the first half of the HMAC of the client data hash. *)
Definition pin_proof (C : Crypto) (token hash p : bytes) : Prop := p = firstn 16 (hmac256 C token hash).

(* The events of a request: those the second world has and the first has not. *)
Definition events (w w' : world) (es : list event) : Prop := w_trace w' = w_trace w ++ es.

Definition agreed (es : list event) : Prop := exists a rp u, In (a, rp, u, true) (asked es).

(* What the platform asks for. *)
Definition offers_es256 (a : mc_args) : Prop :=
  exists p, In p (match mc_params a with Some l => l | None => [] end) /\
    cp_alg p = (-7)%Z /\ cp_type p = text_public_key.


Definition mc_verified (C : Crypto) (c : client) (a : mc_args) : Prop :=
  cl_pin c = true /\ exists p, mc_auth a = Some p /\ mc_protocol a = 1 /\
    pin_proof C (cl_token c) (or_nil (mc_hash a)) p.
Definition ga_verified (C : Crypto) (c : client) (a : ga_args) : Prop :=
  cl_pin c = true /\ exists p, ga_auth a = Some p /\ ga_protocol a = 1 /\
    pin_proof C (cl_token c) (or_nil (ga_hash a)) p.

(* The AAGUID of the device. *)
Definition the_aaguid : bytes := [117; 108; 90; 245; 236; 166; 1; 163; 47; 198; 211; 12; 226; 242; 1; 197].

(* CTAP 2.0 section 5.4: the authenticatorGetInfo response. *)
Definition text_fido : bytes := [70; 73; 68; 79; 95; 50; 95; 48].
Definition text_u2f : bytes := [85; 50; 70; 95; 86; 50].
Definition text_plat : bytes := [112; 108; 97; 116].
Definition text_rk : bytes := [114; 107].
Definition text_up : bytes := [117; 112].
Definition text_client_pin : bytes := [99; 108; 105; 101; 110; 116; 80; 105; 110].
Definition yes : cbor := CSimple 21.
Definition no : cbor := CSimple 20.
Definition info_doc (pin : option bool) : cbor :=
  CMap ([(CUint 1, CArr [CText text_fido; CText text_u2f]); (CUint 3, CBytes the_aaguid);
         (CUint 4, CMap ([(CText text_rk, yes); (CText text_up, yes); (CText text_plat, no)] ++
            match pin with Some b => [(CText text_client_pin, if b then yes else no)] | None => [] end))] ++
        match pin with Some _ => [(CUint 6, CArr [CUint 1])] | None => [] end).

(* CTAP 2.0 section 5.5: the authenticatorClientPIN responses. *)
Definition retries_doc (n : N) : cbor := CMap [(CUint 3, CUint n)].
Definition token_doc (t : bytes) : cbor := CMap [(CUint 2, CBytes t)].
Definition agreement_doc (x y : bytes) : cbor :=
  CMap [(CUint 1, CMap [(CUint 1, CUint 2); (CUint 3, CNint 24); (CNint 0, CUint 0);
                        (CNint 1, CBytes x); (CNint 2, CBytes y)])].

(* The PIN in a decrypted block: what precedes the first zero byte. *)
Definition padded_pin (d pin : bytes) : Prop :=
  (exists rest, d = pin ++ 0 :: rest /\ ~ In 0 pin) \/ (pin = [] /\ ~ In 0 d).


(* The shared secret of PIN protocol one. *)
Definition secret_of (E : Env) (c : client) (k : ec2_key) (s : bytes) : Prop :=
  exists x, p256_mul (e_C E) (cl_ka c) (big_set (or_nil (e2_x k)), big_set (or_nil (e2_y k))) = Some x /\
    s = sha256 (e_C E) (big_bytes x).

