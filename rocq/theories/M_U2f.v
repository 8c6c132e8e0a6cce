(* Model of u2f/u2f.go. *)
From Verif Require Import Base M_Str M_Util M_Cbor M_Crypto M_Cose M_State M_Client.

(* u2f/u2f.go:35-42. *)
Definition sw_no_error : bytes := be 2 0x9000.
Definition sw_conditions : bytes := be 2 0x6985.
Definition sw_wrong_data : bytes := be 2 0x6A80.
Definition sw_wrong_length : bytes := be 2 0x6700.

(* u2f/u2f.go:52-57. *)
Record u2f_header : Type := { uh_cla : N; uh_cmd : N; uh_p1 : N; uh_p2 : N }.

(* u2f/u2f.go:84-108, decodeU2FMessage. *)
Definition decode_u2f (msg : bytes) : res (u2f_header * bytes * N) :=
  match msg with
  | cla :: cmd :: p1 :: p2 :: buf =>
    let h := {| uh_cla := cla; uh_cmd := cmd; uh_p1 := p1; uh_p2 := p2 |} in
    match buf with
    | [] => Ok (h, [], 0)
    | _ =>
      let? (z, buf) := read_buf 1 buf in
      match z with
      | 0 :: _ =>
        let? (n, buf) := read_be 2 buf in
        match buf with
        | [] => Ok (h, [], n)
        | _ =>
          let? (req, buf) := read_buf n buf in
          match buf with
          | [] => Ok (h, req, 0)
          | _ => let? (le, _) := read_be 2 buf in Ok (h, req, le)
          end
        end
      | _ => Panic
      end
    end
  | _ => Panic
  end.

(* webauthn/webauthn.go:44-47, KeyHandle. *)
Record key_handle : Type := { kh_key : option bytes; kh_app : option bytes }.

Definition key_handle_cbor (k : key_handle) : cbor :=
  cstruct [fld (CInt 1) (cbytes (kh_key k)); fld (CInt 2) (cbytes (kh_app k))].
Definition dec_key_handle (v : cbor) : option key_handle :=
  let! l := dec_entries v in
  let! k := get_int 1 dec_bytes l in
  let! a := get_int 2 dec_bytes l in
  Some {| kh_key := k; kh_app := a |}.

(* crypto/crypto.go:118-121, EncryptedBox. *)
Definition box_cbor (b : box) : cbor :=
  cstruct [fld (CInt 1) (cbytes (bx_data b)); fld (CInt 2) (cbytes (bx_iv b))].
Definition dec_box (v : cbor) : option box :=
  let! l := dec_entries v in
  let! d := get_int 1 dec_bytes l in
  let! i := get_int 2 dec_bytes l in
  Some {| bx_data := d; bx_iv := i |}.

Section Server.
  Variable E : Env.
  Let C : Crypto := e_C E.

  (* u2f/u2f.go:128-131, sealKeyHandle. *)
  Definition seal_handle (k : key_handle) : M bytes :=
    do c <- get;
    do n <- random E 12;
    do b <- lift (seal C (cl_key c) (marshal_cbor (key_handle_cbor k)) n);
    ret (marshal_cbor (box_cbor b)).

  (* u2f/u2f.go:133-146, openKeyHandle: None is an error. *)
  Definition open_handle (dev : bytes) (b : bytes) : res (option key_handle) :=
    match unmarshal dec_box b with
    | None => Ok None
    | Some bx => let? d := open C dev bx in Ok (unmarshal dec_key_handle d)
    end.

  (* u2f/u2f.go:148-174, handleU2FRegister. *)
  Definition u2f_register (req : bytes) : M bytes :=
    if len req =? 64 then
      let challenge := takeN 32 req in
      let app := dropN 32 req in
      do d <- new_scalar E;
      let k := ec_key C d in
      let pub := point_bytes (eq_x (ec_public k), eq_y (ec_public k)) in
      do handle <- seal_handle
        {| kh_key := Some (sec1 d (eq_x (ec_public k), eq_y (ec_public k))); kh_app := Some app |};
      do ok <- approve_u2f_registration E;
      if ok then
        do cert <- make_certificate E (priv_ec k);
        do r <- sign_random E;
        do sig <- lift (cose_sign C (priv_ec k) ([0] ++ app ++ challenge ++ handle ++ pub) r);
        ret ([5] ++ pub ++ [len handle mod 256] ++ handle ++ cert ++ sig ++ sw_no_error)
      else ret sw_conditions
    else fail.

  (* u2f/u2f.go:176-213, handleU2FAuthenticate. *)
  Definition u2f_authenticate (control : N) (req : bytes) : M bytes :=
    do p <- lift (let? (challenge, r) := read_buf 32 req in
                  let? (app, r) := read_buf 32 r in
                  let? (n, r) := read_le 1 r in
                  let? (h, _) := read_buf n r in
                  Ok (challenge, app, h));
    let '(challenge, app, h) := p in
    do c <- get;
    do kh <- lift (open_handle (cl_key c) h);
    match kh with
    | None => ret sw_wrong_data
    | Some kh =>
      match kh_key kh with
      | None => ret sw_wrong_data
      | Some kb =>
        if bytes_eqb (or_nil (kh_app kh)) app then
          match ec_parse C kb with
          | None => fail
          | Some k =>
            let finish : M bytes :=
              do n <- next_counter;
              do r <- sign_random E;
              do sig <- lift (cose_sign C (priv_ec k) (app ++ [1] ++ be 4 n ++ challenge) r);
              ret ([1] ++ be 4 n ++ sig ++ sw_no_error) in
            if control =? 7 then ret sw_conditions
            else if control =? 3 then
              do ok <- approve_u2f_authentication E;
              if ok then finish else ret sw_conditions
            else if control =? 8 then finish
            else ret sw_wrong_length
          end
        else ret sw_wrong_data
      end
    end.

  (* u2f/u2f.go:110-126, HandleMessage. *)
  Definition u2f_handle (msg : bytes) : M bytes :=
    do p <- lift (decode_u2f msg);
    let '(h, req, _) := p in
    if uh_cmd h =? 3 then ret (str "U2F_V2" ++ sw_no_error)
    else if uh_cmd h =? 1 then u2f_register req
    else if uh_cmd h =? 2 then u2f_authenticate (uh_p1 h) req
    else fail.
End Server.
