(* Model of ctap/ctap.go. *)
From Verif Require Import Base M_Str M_Util M_Utf8 M_Cbor M_Crypto M_Cose M_State M_Client.

(* ctap/ctap.go:22. *)
Definition aaguid : bytes := [117; 108; 90; 245; 236; 166; 1; 163; 47; 198; 211; 12; 226; 242; 1; 197].

(* ctap/ctap.go:46-67. *)
Definition st_success : N := 0.
Definition st_invalid_command : N := 1.
Definition st_invalid_parameter : N := 2.
Definition st_invalid_cbor : N := 18.
Definition st_missing_param : N := 20.
Definition st_unsupported_algorithm : N := 38.
Definition st_operation_denied : N := 39.
Definition st_no_credentials : N := 46.
Definition st_pin_invalid : N := 49.
Definition st_pin_blocked : N := 50.
Definition st_pin_auth_invalid : N := 51.
Definition st_pin_required : N := 54.
Definition st_pin_policy : N := 55.

Definition ctext (s : bytes) : cbor := CText s.
Definition key (z : Z) : cbor := CInt z.

(* A slice with omitempty. *)
Definition is_nil {A} (l : list A) : bool := match l with [] => true | _ => false end.

(* ------------------------------------------------------------------ *)
(* Requests                                                            *)

Definition dec_rp (v : cbor) : option rp_ent :=
  let! l := dec_entries v in
  let! id := get_text (str "id") dec_text l in
  let! name := get_text (str "name") dec_text l in
  Some {| rp_id := id; rp_name := name |}.

Definition dec_user (v : cbor) : option user_ent :=
  let! l := dec_entries v in
  let! id := get_text (str "id") dec_bytes l in
  let! display := get_text (str "displayName") dec_text l in
  let! name := get_text (str "name") dec_text l in
  Some {| us_id := id; us_display := display; us_name := name |}.

Definition dec_descriptor (v : cbor) : option descriptor :=
  let! l := dec_entries v in
  let! type := get_text (str "type") dec_text l in
  let! id := get_text (str "id") dec_bytes l in
  let! tr := get_text (str "transports") (dec_list dec_text) l in
  Some {| de_type := type; de_id := id; de_transports := tr |}.

Definition dec_param (v : cbor) : option cred_param :=
  let! l := dec_entries v in
  let! type := get_text (str "type") dec_text l in
  let! alg := get_text (str "alg") dec_int32 l in
  Some {| cp_type := type; cp_alg := alg |}.

(* ctap/ctap.go:165-169 and 303-306: of the options only UserPresence of GetAssertion is
   ever read. *)
Record options : Type := { op_rk : bool; op_uv : bool; op_up : option bool }.

Definition dec_options (v : cbor) : option options :=
  let! l := dec_entries v in
  let! rk := get_text (str "rk") dec_bool l in
  let! uv := get_text (str "uv") dec_bool l in
  let! up := get_text (str "up") (dec_ptr dec_bool) l in
  Some {| op_rk := rk; op_uv := uv; op_up := up |}.

Definition dec_get_options (v : cbor) : option options :=
  let! l := dec_entries v in
  let! uv := get_text (str "uv") dec_bool l in
  let! up := get_text (str "up") (dec_ptr dec_bool) l in
  Some {| op_rk := false; op_uv := uv; op_up := up |}.

(* ctap/ctap.go:171-181, makeCredentialArgs. *)
Record mc_args : Type := {
  mc_hash : option bytes; mc_rp : option rp_ent; mc_user : option user_ent;
  mc_params : option (list cred_param); mc_exclude : option (list descriptor);
  mc_options : option options; mc_auth : option bytes; mc_protocol : N
}.

Definition dec_mc (v : cbor) : option mc_args :=
  let! l := dec_entries v in
  let! h := get_int 1 dec_bytes l in
  let! rp := get_int 2 (dec_ptr dec_rp) l in
  let! user := get_int 3 (dec_ptr dec_user) l in
  let! ps := get_int 4 (dec_list dec_param) l in
  let! ex := get_int 5 (dec_list dec_descriptor) l in
  let! _ := get_int 6 dec_ext l in
  let! op := get_int 7 (dec_ptr dec_options) l in
  let! auth := get_int 8 dec_bytes l in
  let! proto := get_int 9 dec_uint32 l in
  Some {| mc_hash := h; mc_rp := rp; mc_user := user; mc_params := ps; mc_exclude := ex;
          mc_options := op; mc_auth := auth; mc_protocol := proto |}.

(* ctap/ctap.go:308-315, getAssertionArgs. *)
Record ga_args : Type := {
  ga_rp : bytes; ga_hash : option bytes; ga_allow : option (list descriptor);
  ga_options : options; ga_auth : option bytes; ga_protocol : N
}.

Definition dec_ga (v : cbor) : option ga_args :=
  let! l := dec_entries v in
  let! rp := get_int 1 dec_text l in
  let! h := get_int 2 dec_bytes l in
  let! al := get_int 3 (dec_list dec_descriptor) l in
  let! op := get_int 5 dec_get_options l in
  let! auth := get_int 6 dec_bytes l in
  let! proto := get_int 7 dec_uint32 l in
  Some {| ga_rp := rp; ga_hash := h; ga_allow := al; ga_options := op; ga_auth := auth;
          ga_protocol := proto |}.

(* ctap/ctap.go:398-405, clientPINArgs. *)
Record cp_args : Type := {
  pn_protocol : N; pn_sub : N; pn_key : option ec2_key; pn_auth : option bytes;
  pn_new : option bytes; pn_hash : option bytes
}.

Definition dec_cp (v : cbor) : option cp_args :=
  let! l := dec_entries v in
  let! proto := get_int 1 dec_uint32 l in
  let! sub := get_int 2 dec_uint32 l in
  let! k := get_int 3 (dec_ptr dec_ec2) l in
  let! auth := get_int 4 dec_bytes l in
  let! new := get_int 5 dec_bytes l in
  let! h := get_int 6 dec_bytes l in
  Some {| pn_protocol := proto; pn_sub := sub; pn_key := k; pn_auth := auth; pn_new := new; pn_hash := h |}.

(* ------------------------------------------------------------------ *)
(* Responses                                                           *)

(* ctap/ctap.go:144-148 and 197-201. *)
Definition mc_response (auth sig cert : bytes) : cbor :=
  cstruct [fld (key 1) (CText (str "packed")); fld (key 2) (CBytes auth);
           fld (key 3) (cstruct [fld (CText (str "alg")) (CInt ALG_ES256); fld (CText (str "sig")) (CBytes sig);
                                 fld (CText (str "x5c")) (CArr [CBytes cert])])].

(* webauthn/webauthn.go:33-37 as made by identity_vault.go:22-28; the empty Transports is
   omitted. *)
Definition descriptor_cbor (id : bytes) : cbor :=
  cstruct [fld (CText (str "type")) (CText (str "public-key")); fld (CText (str "id")) (CBytes id)].

(* ctap/ctap.go:317-323. *)
Definition ga_response (id auth sig : bytes) : cbor :=
  cstruct [fld (key 1) (descriptor_cbor id); fld (key 2) (CBytes auth); fld (key 3) (CBytes sig)].

(* ctap/ctap.go:266-281. *)
Definition info_response (rk : bool) (pin : option bool) : cbor :=
  cstruct [fld (key 1) (CArr [CText (str "FIDO_2_0"); CText (str "U2F_V2")]);
           fld (key 3) (CBytes aaguid);
           fld (key 4) (cstruct [fld (CText (str "plat")) (CBool false); fld (CText (str "rk")) (CBool rk);
                                 match pin with Some b => fld (CText (str "clientPin")) (CBool b) | None => None end;
                                 fld (CText (str "up")) (CBool true)]);
           match pin with Some _ => fld (key 6) (CArr [CInt 1]) | None => None end].

(* ctap/ctap.go:417-421, clientPINResponse. *)
Definition cp_response (k : option ec2_key) (token : option bytes) (retries : option N) : cbor :=
  cstruct [match k with Some k => fld (key 1) (ec2_cbor k) | None => None end;
           omit (empty_slice token) (fld (key 2) (cbytes token));
           match retries with Some r => fld (key 3) (CUint r) | None => None end].

(* ctap/ctap.go:126-131. *)
Definition flag_up : N := 1.
Definition flag_uv : N := 4.
Definition flag_at : N := 64.

(* util.ToBE on an int32. *)
Definition ctr_bytes (z : Z) : bytes := be 4 (Z.to_N (z mod 4294967296)).

Section Server.
  Variable E : Env.
  Let C : Crypto := e_C E.

  (* ctap/ctap.go:150-153, makeAttestedCredentialData. *)
  Definition attested_data (s : source) : res bytes :=
    let? pub := cose_public (cs_key s) in
    let? k := marshal_pub pub in
    Ok (aaguid ++ be 2 (len (cs_id s) mod 65536) ++ cs_id s ++ k).

  (* ctap/ctap.go:155-163, makeAuthData. *)
  Definition auth_data (rp : bytes) (s : source) (attested : option bytes) (flags : N) : bytes :=
    sha256 C rp ++ [match attested with Some _ => N.lor flags flag_at | None => flags end] ++
    ctr_bytes (cs_ctr s) ++ or_nil attested.

  (* ctap/ctap.go:435-439, derivePINAuth. *)
  Definition pin_auth (k data : bytes) : bytes := firstn 16 (hmac256 C k data).

  Definition status (n : N) : M bytes := ret [n].

  (* ctap/ctap.go:203-264, handleMakeCredential. *)
  Definition make_credential (data : bytes) : M bytes :=
    match unmarshal dec_mc data with
    | None => fail
    | Some a =>
      let ps := match mc_params a with Some l => l | None => [] end in
      if existsb es256_param ps then
        do c <- get;
        let check : N + N :=
          if cl_pin c then
            match mc_auth a with
            | Some p =>
              if mc_protocol a =? 1 then
                if bytes_eqb (pin_auth (cl_token c) (or_nil (mc_hash a))) p then inl flag_uv
                else inr st_pin_auth_invalid
              else inr st_pin_auth_invalid
            | None => match cl_hash c with Some _ => inr st_pin_required | None => inl 0 end
            end
          else inl 0 in
        match check with
        | inr e => status e
        | inl flags =>
          match mc_rp a with
          | None => fail
          | Some rp =>
            do ok <- approve_creation E (rp_name rp);
            if ok then
              do s <- new_credential_source E ps rp (mc_user a);
              match s with
              | None => status st_unsupported_algorithm
              | Some s =>
                do att <- lift (attested_data s);
                let auth := auth_data (rp_id rp) s (Some att) (N.lor flags flag_up) in
                do cert <- make_certificate E (cs_key s);
                do r <- sign_random E;
                do sig <- lift (cose_sign C (cs_key s) (auth ++ or_nil (mc_hash a)) r);
                ret (st_success :: marshal_cbor (mc_response auth sig cert))
              end
            else status st_operation_denied
          end
        end
      else status st_unsupported_algorithm
    end.

  (* ctap/ctap.go:283-301, handleGetInfo. *)
  Definition get_info : M bytes :=
    do c <- get;
    let pin := if cl_pin c then Some (match cl_hash c with Some _ => true | None => false end) else None in
    ret (st_success :: marshal_cbor (info_response true pin)).

  (* ctap/ctap.go:325-378, handleGetAssertion. *)
  Definition get_assertion (data : bytes) : M bytes :=
    match unmarshal dec_ga data with
    | None => status st_invalid_cbor
    | Some a =>
      do c <- get;
      let check : N + N :=
        if cl_pin c then
          match ga_auth a with
          | None => inl 0
          | Some p =>
            if ga_protocol a =? 1 then
              if bytes_eqb (pin_auth (cl_token c) (or_nil (ga_hash a))) p then inl flag_uv
              else inr st_pin_auth_invalid
            else inr st_pin_auth_invalid
          end
        else inl 0 in
      match check with
      | inr e => status e
      | inl flags =>
        do s <- get_assertion_source E (ga_rp a) (ga_allow a);
        match s with
        | None => status st_no_credentials
        | Some s =>
          let finish (flags : N) : M bytes :=
            let auth := auth_data (ga_rp a) s None flags in
            do r <- sign_random E;
            do sig <- lift (cose_sign C (cs_key s) (auth ++ or_nil (ga_hash a)) r);
            ret (st_success :: marshal_cbor (ga_response (cs_id s) auth sig)) in
          match op_up (ga_options a) with
          | Some false => finish flags
          | _ => do ok <- approve_login E s;
                 if ok then finish (N.lor flags flag_up) else status st_operation_denied
          end
        end
      end
    end.

  (* ctap/ctap.go:430-433, getPINSharedSecret. *)
  Definition shared_secret (c : client) (k : ec2_key) : res bytes :=
    let? s := ecdh C (cl_ka c) (big_set (or_nil (e2_x k))) (big_set (or_nil (e2_y k))) in
    Ok (sha256 C s).

  (* ctap/ctap.go:445-455, decryptPIN: what precedes the first zero byte; nil (empty) when
     there is none. *)
  Fixpoint before_zero (b : bytes) : option bytes :=
    match b with
    | [] => None
    | x :: r => if x =? 0 then Some [] else match before_zero r with Some t => Some (x :: t) | None => None end
    end.
  Definition decrypt_pin (secret enc : bytes) : res bytes :=
    let? d := decrypt_cbc C secret enc in Ok (or_nil (before_zero d)).

  (* ctap/ctap.go:490-497, handleGetRetries. *)
  Definition get_retries : M bytes :=
    do n <- pin_retries;
    ret (st_success :: marshal_cbor (cp_response None None (Some (Z.to_N (n mod 256))))).

  (* ctap/ctap.go:499-511, handleGetKeyAgreement. *)
  Definition get_key_agreement : M bytes :=
    do c <- get;
    let (x, y) := p256_pub C (cl_ka c) in
    ret (st_success :: marshal_cbor (cp_response
      (Some {| e2_kty := KTY_EC2; e2_alg := ALG_ECDH_HKDF_256; e2_crv := 0;
               e2_x := Some (big_bytes x); e2_y := Some (big_bytes y); e2_d := None |}) None None)).

  (* ctap/ctap.go:513-534, handleSetPIN. *)
  Definition ctap_set_pin (a : cp_args) : M bytes :=
    do c <- get;
    match cl_hash c with
    | Some _ => status st_pin_auth_invalid
    | None =>
      match pn_key a, pn_auth a, pn_new a with
      | Some k, Some auth, Some enc =>
        do secret <- lift (shared_secret c k);
        if bytes_eqb (pin_auth secret enc) auth then
          do pin <- lift (decrypt_pin secret enc);
          if len pin <? 4 then status st_pin_policy
          else
            set_pin_retries 8;;
            set_pin_hash E (firstn 16 (sha256 C pin));;
            status st_success
        else status st_pin_auth_invalid
      | _, _, _ => status st_missing_param
      end
    end.

  (* ctap/ctap.go:536-562, handleChangePIN. *)
  Definition change_pin (a : cp_args) : M bytes :=
    match pn_key a, pn_auth a with
    | Some k, Some auth =>
      do n <- pin_retries;
      if (n =? 0)%Z then status st_pin_blocked
      else
        do c <- get;
        do secret <- lift (shared_secret c k);
        if bytes_eqb (pin_auth secret (or_nil (pn_new a) ++ or_nil (pn_hash a))) auth then
          do n <- pin_retries;
          set_pin_retries (n - 1);;
          do h <- lift (decrypt_cbc C secret (or_nil (pn_hash a)));
          if bytes_eqb (or_nil (cl_hash c)) h then
            set_pin_retries 8;;
            do pin <- lift (decrypt_pin secret (or_nil (pn_new a)));
            if len pin <? 4 then status st_pin_policy
            else set_pin_hash E (firstn 16 (sha256 C pin));; status st_success
          else status st_pin_invalid
        else status st_pin_auth_invalid
    | _, _ => status st_missing_param
    end.

  (* ctap/ctap.go:564-586, handleGetPINToken. *)
  Definition get_pin_token (a : cp_args) : M bytes :=
    match pn_hash a with
    | None => status st_missing_param
    | Some enc =>
      match pn_key a with
      | None => fail
      | Some k =>
        match e2_x k with
        | None => status st_missing_param
        | Some _ =>
          do n <- pin_retries;
          if (n <=? 0)%Z then status st_pin_blocked
          else
            do c <- get;
            do secret <- lift (shared_secret c k);
            do n <- pin_retries;
            set_pin_retries (n - 1);;
            do h <- lift (decrypt_cbc C secret enc);
            if bytes_eqb h (or_nil (cl_hash c)) then
              set_pin_retries 8;;
              do t <- lift (encrypt_cbc C secret (cl_token c));
              ret (st_success :: marshal_cbor (cp_response None (Some t) None))
            else status st_pin_invalid
        end
      end
    end.

  (* ctap/ctap.go:457-488, handleClientPIN. *)
  Definition client_pin (data : bytes) : M bytes :=
    do c <- get;
    if cl_pin c then
      match unmarshal dec_cp data with
      | None => status st_invalid_cbor
      | Some a =>
        if pn_protocol a =? 1 then
          if pn_sub a =? 1 then get_retries
          else if pn_sub a =? 2 then get_key_agreement
          else if pn_sub a =? 3 then ctap_set_pin a
          else if pn_sub a =? 4 then change_pin a
          else if pn_sub a =? 5 then get_pin_token a
          else status st_missing_param
        else status st_invalid_parameter
      end
    else status st_invalid_command.

  (* ctap/ctap.go:100-115, HandleMessage. *)
  Definition ctap_handle (msg : bytes) : M bytes :=
    match msg with
    | [] => fail
    | cmd :: data =>
      if cmd =? 1 then make_credential data
      else if cmd =? 4 then get_info
      else if cmd =? 2 then get_assertion data
      else if cmd =? 6 then client_pin data
      else fail
    end.
End Server.
