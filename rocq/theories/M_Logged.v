(* What the authenticators log: the handlers of M_Ctap and M_U2f again, with the calls of the loggers
   of ctap/ctap.go:19-20, u2f/u2f.go:17 and fido_client/fido_client.go:29.
   A value is logged by what determines its text: a byte string, the bytes that arguments or an
   error were decoded from, the CBOR of a response, a key handle, a credential.
   Simplified: addresses (printed for pointers inside of structures) are left out. *)
From Verif Require Import Base M_Str M_Util M_Cbor M_Crypto M_Cose M_State M_Client M_Ctap M_U2f.

Inductive shown : Type :=
| ShNumber (n : N)
| ShBytes (b : bytes)                 (* in hexadecimal, or as a Go literal *)
| ShArgs (data : bytes)               (* arguments decoded from CBOR *)
| ShError (data : bytes)              (* the error of decoding CBOR *)
| ShReply (b : bytes)                 (* the structure with this CBOR *)
| ShHandle (k : key_handle)           (* %#v of a *webauthn.KeyHandle: both fields in full *)
| ShSource (s : option source).       (* %#v of a *CredentialSource *)

(* util/log.go:13-18: 0 is unsafe, 1 trace, 2 debug, 3 enabled. *)
Record entry : Type := mk_entry { en_level : N; en_text : bytes; en_shown : list shown }.
Definition debug (text : bytes) (l : list shown) : entry := mk_entry 2 text l.
Definition unsafe (text : bytes) (l : list shown) : entry := mk_entry 0 text l.

(* Code that also logs. *)
Definition L (A : Type) : Type := world -> world * list entry * res A.
Definition lret {A} (a : A) : L A := fun w => (w, [], Ok a).
Definition act {A} (m : M A) : L A := fun w => let (w', r) := m w in (w', [], r).
Definition lbind {A B} (m : L A) (f : A -> L B) : L B :=
  fun w => match m w with
           | (w1, l1, Ok a) => let '(w2, l2, r) := f a w1 in (w2, l1 ++ l2, r)
           | (w1, l1, Panic) => (w1, l1, Panic)
           end.
Definition log (e : entry) : L unit := fun w => (w, [e], Ok tt).
Notation "'doL' x <- m ; k" := (lbind m (fun x => k)) (at level 200, x name, m at level 100, k at level 200).
Notation "m ;l; k" := (lbind m (fun _ => k)) (at level 199, right associativity).

Section Server.
  Variable E : Env.
  Let C : Crypto := e_C E.

  Definition lstatus (n : N) : L bytes := lret [n].

  (* ctap/ctap.go:203-264, handleMakeCredential. *)
  Definition make_credential_l (data : bytes) : L bytes :=
    match unmarshal dec_mc data with
    | None => act fail
    | Some a =>
      log (debug (str "MAKE CREDENTIAL: %s") [ShArgs data]);l;
      let ps := match mc_params a with Some l => l | None => [] end in
      if existsb es256_param ps then
        doL c <- act get;
        let check : N + N :=
          if cl_pin c then
            match mc_auth a with
            | Some p =>
              if mc_protocol a =? 1 then
                if bytes_eqb (pin_auth E (cl_token c) (or_nil (mc_hash a))) p then inl flag_uv
                else inr st_pin_auth_invalid
              else inr st_pin_auth_invalid
            | None => match cl_hash c with Some _ => inr st_pin_required | None => inl 0 end
            end
          else inl 0 in
        match check with
        | inr e => lstatus e
        | inl flags =>
          match mc_rp a with
          | None => act fail
          | Some rp =>
            doL ok <- act (approve_creation E (rp_name rp));
            if ok then
              doL s <- act (new_credential_source E ps rp (mc_user a));
              match s with
              | None =>
                log (debug (str "ERROR: Unsupported Algorithm") []);l; lstatus st_unsupported_algorithm
              | Some s =>
                doL att <- act (lift (attested_data s));
                let auth := auth_data E (rp_id rp) s (Some att) (N.lor flags flag_up) in
                doL cert <- act (make_certificate E (cs_key s));
                doL r <- act (sign_random E);
                doL sig <- act (lift (cose_sign C (cs_key s) (auth ++ or_nil (mc_hash a)) r));
                log (debug (str "MAKE CREDENTIAL RESPONSE: %#v") [ShReply (marshal_cbor (mc_response auth sig cert))]);l;
                lret (st_success :: marshal_cbor (mc_response auth sig cert))
              end
            else
              log (debug (str "ERROR: Unapproved action (Create account)") []);l; lstatus st_operation_denied
          end
        end
      else
        log (debug (str "ERROR: Unsupported Algorithm") []);l; lstatus st_unsupported_algorithm
    end.

  (* ctap/ctap.go:283-301, handleGetInfo. *)
  Definition get_info_l : L bytes :=
    doL c <- act get;
    let pin := if cl_pin c then Some (match cl_hash c with Some _ => true | None => false end) else None in
    log (debug (str "GET_INFO RESPONSE: %#v") [ShReply (marshal_cbor (info_response true pin))]);l;
    lret (st_success :: marshal_cbor (info_response true pin)).

  (* fido_client/fido_client.go:107-119, GetAssertionSource. *)
  Definition get_assertion_source_l (rp : bytes) (allow : option (list descriptor)) : L (option source) :=
    doL s <- act (get_assertion_source E rp allow);
    match s with
    | None => log (debug (str "ERROR: No Credentials") []);l; lret None
    | Some s => lret (Some s)
    end.

  (* ctap/ctap.go:325-378, handleGetAssertion. *)
  Definition get_assertion_l (data : bytes) : L bytes :=
    match unmarshal dec_ga data with
    | None => log (debug (str "ERROR: %s") [ShError data]);l; lstatus st_invalid_cbor
    | Some a =>
      log (debug (str "GET ASSERTION: %#v") [ShArgs data]);l;
      doL c <- act get;
      let check : N + N :=
        if cl_pin c then
          match ga_auth a with
          | None => inl 0
          | Some p =>
            if ga_protocol a =? 1 then
              if bytes_eqb (pin_auth E (cl_token c) (or_nil (ga_hash a))) p then inl flag_uv
              else inr st_pin_auth_invalid
            else inr st_pin_auth_invalid
          end
        else inl 0 in
      match check with
      | inr e => lstatus e
      | inl flags =>
        doL s <- get_assertion_source_l (ga_rp a) (ga_allow a);
        log (unsafe (str "CREDENTIAL SOURCE: %#v") [ShSource s]);l;
        match s with
        | None => log (debug (str "ERROR: No Credentials") []);l; lstatus st_no_credentials
        | Some s =>
          let finish (flags : N) : L bytes :=
            let auth := auth_data E (ga_rp a) s None flags in
            doL r <- act (sign_random E);
            doL sig <- act (lift (cose_sign C (cs_key s) (auth ++ or_nil (ga_hash a)) r));
            log (debug (str "GET ASSERTION RESPONSE: %#v") [ShReply (marshal_cbor (ga_response (cs_id s) auth sig))]);l;
            lret (st_success :: marshal_cbor (ga_response (cs_id s) auth sig)) in
          match op_up (ga_options a) with
          | Some false => finish flags
          | _ => doL ok <- act (approve_login E s);
                 if ok then finish (N.lor flags flag_up)
                 else log (debug (str "ERROR: Unapproved action (Account login)") []);l; lstatus st_operation_denied
          end
        end
      end
    end.

  (* ctap/ctap.go:490-497, handleGetRetries. *)
  Definition get_retries_l : L bytes :=
    doL n <- act pin_retries;
    let doc := cp_response None None (Some (Z.to_N (n mod 256))) in
    log (debug (str "CLIENT_PIN_GET_RETRIES: %v") [ShReply (marshal_cbor doc)]);l;
    lret (st_success :: marshal_cbor doc).

  (* ctap/ctap.go:499-511, handleGetKeyAgreement. *)
  Definition get_key_agreement_l : L bytes :=
    doL c <- act get;
    let (x, y) := p256_pub C (cl_ka c) in
    let doc := cp_response
      (Some {| e2_kty := KTY_EC2; e2_alg := ALG_ECDH_HKDF_256; e2_crv := 0;
               e2_x := Some (big_bytes x); e2_y := Some (big_bytes y); e2_d := None |}) None None in
    log (debug (str "CLIENT_PIN_GET_KEY_AGREEMENT RESPONSE: %#v") [ShReply (marshal_cbor doc)]);l;
    lret (st_success :: marshal_cbor doc).

  (* ctap/ctap.go:513-534, handleSetPIN. *)
  Definition ctap_set_pin_l (a : cp_args) : L bytes :=
    doL c <- act get;
    match cl_hash c with
    | Some _ => lstatus st_pin_auth_invalid
    | None =>
      match pn_key a, pn_auth a, pn_new a with
      | Some k, Some auth, Some enc =>
        doL secret <- act (lift (shared_secret E c k));
        if bytes_eqb (pin_auth E secret enc) auth then
          doL pin <- act (lift (decrypt_pin E secret enc));
          if len pin <? 4 then lstatus st_pin_policy
          else
            act (set_pin_retries 8);l;
            act (set_pin_hash E (firstn 16 (sha256 C pin)));l;
            log (debug (str "SETTING PIN HASH: %v") [ShBytes (firstn 16 (sha256 C pin))]);l;
            lstatus st_success
        else lstatus st_pin_auth_invalid
      | _, _, _ => lstatus st_missing_param
      end
    end.

  (* ctap/ctap.go:564-586, handleGetPINToken. *)
  Definition get_pin_token_l (a : cp_args) : L bytes :=
    match pn_hash a with
    | None => lstatus st_missing_param
    | Some enc =>
      match pn_key a with
      | None => act fail
      | Some k =>
        match e2_x k with
        | None => lstatus st_missing_param
        | Some _ =>
          doL n <- act pin_retries;
          if (n <=? 0)%Z then lstatus st_pin_blocked
          else
            doL c <- act get;
            doL secret <- act (lift (shared_secret E c k));
            doL n <- act pin_retries;
            act (set_pin_retries (n - 1));l;
            doL h <- act (lift (decrypt_cbc C secret enc));
            log (debug (str "TRYING PIN HASH: %v") [ShBytes h]);l;
            if bytes_eqb h (or_nil (cl_hash c)) then
              act (set_pin_retries 8);l;
              doL t <- act (lift (encrypt_cbc C secret (cl_token c)));
              log (debug (str "GET_PIN_TOKEN RESPONSE: %#v") [ShReply (marshal_cbor (cp_response None (Some t) None))]);l;
              lret (st_success :: marshal_cbor (cp_response None (Some t) None))
            else
              log (debug (str "MISMATCH: Provided PIN %v doesn't match stored PIN %v") [ShBytes h; ShBytes (or_nil (cl_hash c))]);l;
              lstatus st_pin_invalid
        end
      end
    end.

  (* ctap/ctap.go:457-488, handleClientPIN.  536-562, handleChangePIN, logs nothing. *)
  Definition client_pin_l (data : bytes) : L bytes :=
    doL c <- act get;
    if cl_pin c then
      match unmarshal dec_cp data with
      | None => log (debug (str "ERROR: %s") [ShError data]);l; lstatus st_invalid_cbor
      | Some a =>
        if pn_protocol a =? 1 then
          log (debug (str "CLIENT_PIN: %v") [ShArgs data]);l;
          let reply (m : L bytes) : L bytes :=
            doL r <- m; log (debug (str "CLIENT_PIN RESPONSE: %#v") [ShBytes r]);l; lret r in
          if pn_sub a =? 1 then reply get_retries_l
          else if pn_sub a =? 2 then reply get_key_agreement_l
          else if pn_sub a =? 3 then reply (ctap_set_pin_l a)
          else if pn_sub a =? 4 then reply (act (change_pin E a))
          else if pn_sub a =? 5 then reply (get_pin_token_l a)
          else lstatus st_missing_param
        else lstatus st_invalid_parameter
      end
    else lstatus st_invalid_command.

  (* ctap/ctap.go:100-115, HandleMessage; the description of an unknown command is empty. *)
  Definition ctap_logged (msg : bytes) : L bytes :=
    match msg with
    | [] => act fail
    | cmd :: data =>
      log (debug (str "CTAP COMMAND: %s") [ShNumber cmd]);l;
      if cmd =? 1 then make_credential_l data
      else if cmd =? 4 then get_info_l
      else if cmd =? 2 then get_assertion_l data
      else if cmd =? 6 then client_pin_l data
      else act fail
    end.

  (* u2f/u2f.go:148-174, handleU2FRegister. *)
  Definition u2f_register_l (req : bytes) : L bytes :=
    if len req =? 64 then
      let challenge := takeN 32 req in
      let app := dropN 32 req in
      doL d <- act (new_scalar E);
      let k := ec_key C d in
      let pub := point_bytes (eq_x (ec_public k), eq_y (ec_public k)) in
      doL handle <- act (seal_handle E
        {| kh_key := Some (sec1 d (eq_x (ec_public k), eq_y (ec_public k))); kh_app := Some app |});
      log (debug (str "KEY HANDLE: %d %#v") [ShNumber (len handle); ShBytes handle]);l;
      doL ok <- act (approve_u2f_registration E);
      if ok then
        doL cert <- act (make_certificate E (priv_ec k));
        doL r <- act (sign_random E);
        doL sig <- act (lift (cose_sign C (priv_ec k) ([0] ++ app ++ challenge ++ handle ++ pub) r));
        lret ([5] ++ pub ++ [len handle mod 256] ++ handle ++ cert ++ sig ++ sw_no_error)
      else lret sw_conditions
    else act fail.

  (* u2f/u2f.go:133-146, openKeyHandle, and 184-192: the error is that of decoding the box or of
     decoding what is inside. *)
  Definition open_handle_l (dev : bytes) (b : bytes) : res (bytes + key_handle) :=
    match unmarshal dec_box b with
    | None => Ok (inl b)
    | Some bx =>
      let? d := open C dev bx in
      match unmarshal dec_key_handle d with
      | None => Ok (inl d)
      | Some kh => Ok (inr kh)
      end
    end.

  (* u2f/u2f.go:176-213, handleU2FAuthenticate. *)
  Definition u2f_authenticate_l (control : N) (req : bytes) : L bytes :=
    doL p <- act (lift (let? (challenge, r) := read_buf 32 req in
                        let? (app, r) := read_buf 32 r in
                        let? (n, r) := read_le 1 r in
                        let? (h, _) := read_buf n r in
                        Ok (challenge, app, h)));
    let '(challenge, app, h) := p in
    doL c <- act get;
    doL kh <- act (lift (open_handle_l (cl_key c) h));
    match kh with
    | inl e =>
      log (debug (str "U2F AUTHENTICATE: Invalid key handle given - %s %#v") [ShError e; ShBytes h]);l; lret sw_wrong_data
    | inr kh =>
      let invalid : L bytes :=
        log (debug (str "U2F AUTHENTICATE: Invalid input data %#v") [ShHandle kh]);l; lret sw_wrong_data in
      match kh_key kh with
      | None => invalid
      | Some kb =>
        if bytes_eqb (or_nil (kh_app kh)) app then
          match ec_parse C kb with
          | None => act fail
          | Some k =>
            let finish : M bytes :=
              do n <- next_counter;
              do r <- sign_random E;
              do sig <- lift (cose_sign C (priv_ec k) (app ++ [1] ++ be 4 n ++ challenge) r);
              ret ([1] ++ be 4 n ++ sig ++ sw_no_error) in
            if control =? 7 then lret sw_conditions
            else if control =? 3 then
              doL ok <- act (approve_u2f_authentication E);
              if ok then act finish else lret sw_conditions
            else if control =? 8 then act finish
            else lret sw_wrong_length
          end
        else invalid
      end
    end.

  (* u2f/u2f.go:110-126, HandleMessage. *)
  Definition u2f_logged (msg : bytes) : L bytes :=
    doL p <- act (lift (decode_u2f msg));
    let '(h, req, le) := p in
    log (debug (str "MESSAGE: Header: %s Request: %#v Response Length: %d")
           [ShBytes [uh_cla h; uh_cmd h; uh_p1 h; uh_p2 h]; ShBytes req; ShNumber le]);l;
    doL r <- (if uh_cmd h =? 3 then lret (str "U2F_V2" ++ sw_no_error)
              else if uh_cmd h =? 1 then u2f_register_l req
              else if uh_cmd h =? 2 then u2f_authenticate_l (uh_p1 h) req
              else act fail);
    log (debug (str "RESPONSE: %#v") [ShBytes r]);l;
    lret r.
End Server.
