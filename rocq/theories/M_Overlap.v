(* Requests that overlap.  usb/usb_device.go:88 starts a goroutine for every packet and
   ctap_hid/channel.go:27 locks per channel only, so a request on one channel can arrive while
   another waits for its user (ApproveClientAction blocks).  Here every request is cut at that
   question: [begin] is what is done before it, [resume] the answer and what is done after it.
   Any number of requests may be waiting; they are answered in any order.
   Simplified: the parts before and after a question are atomic (races inside them: M_Race);
   the processes, crashes and the data saver are as in M_History. *)
From Verif Require Import Base M_Str M_Util M_Utf8 M_Cbor M_Crypto M_Cose M_State M_Client M_Ctap M_U2f M_History.

(* The local variables of a handler that waits. *)
Inductive pending : Type :=
| PCreate (a : mc_args) (rp : rp_ent) (flags : N)             (* ctap/ctap.go:235 *)
| PLogin (a : ga_args) (flags : N) (s : source)               (* ctap/ctap.go:356; s is what the pointer points at *)
| PRegister (d : N) (challenge app handle : bytes)            (* u2f/u2f.go:163 *)
| PAuthenticate (k : ec_priv) (challenge app : bytes).        (* u2f/u2f.go:201 *)

Section Server.
  Variable E : Env.
  Let C : Crypto := e_C E.

  (* ctap/ctap.go:203-234. *)
  Definition mc_begin (data : bytes) : M (bytes + pending) :=
    match unmarshal dec_mc data with
    | None => fail
    | Some a =>
      let ps := match mc_params a with Some l => l | None => [] end in
      if existsb es256_param ps then
        do c <- get;
        let check : N + N :=
          if cl_pin c then
            match mc_auth a with
            | Some p =>
              if mc_protocol a =? 1 then
                if bytes_eqb (pin_auth E (cl_token c) (or_nil (mc_hash a))) p then inl flag_uv
                else inr st_pin_auth_invalid
              else inr st_pin_auth_invalid
            | None => match cl_hash c with Some _ => inr st_pin_required | None => inl 0 end
            end
          else inl 0 in
        match check with
        | inr e => ret (inl [e])
        | inl flags =>
          match mc_rp a with
          | None => fail
          | Some rp => ret (inr (PCreate a rp flags))
          end
        end
      else ret (inl [st_unsupported_algorithm])
    end.

  (* ctap/ctap.go:239-263. *)
  Definition mc_finish (a : mc_args) (rp : rp_ent) (flags : N) : M bytes :=
    do s <- new_credential_source E (match mc_params a with Some l => l | None => [] end) rp (mc_user a);
    match s with
    | None => ret [st_unsupported_algorithm]
    | Some s =>
      do att <- lift (attested_data s);
      let auth := auth_data E (rp_id rp) s (Some att) (N.lor flags flag_up) in
      do cert <- make_certificate E (cs_key s);
      do r <- sign_random E;
      do sig <- lift (cose_sign C (cs_key s) (auth ++ or_nil (mc_hash a)) r);
      ret (st_success :: marshal_cbor (mc_response auth sig cert))
    end.

  (* ctap/ctap.go:363-377: the counter is read from the source now. *)
  Definition ga_finish (a : ga_args) (flags : N) (s : source) : M bytes :=
    let auth := auth_data E (ga_rp a) s None flags in
    do r <- sign_random E;
    do sig <- lift (cose_sign C (cs_key s) (auth ++ or_nil (ga_hash a)) r);
    ret (st_success :: marshal_cbor (ga_response (cs_id s) auth sig)).

  (* ctap/ctap.go:325-355; a request without user presence is answered at once. *)
  Definition ga_begin (data : bytes) : M (bytes + pending) :=
    match unmarshal dec_ga data with
    | None => ret (inl [st_invalid_cbor])
    | Some a =>
      do c <- get;
      let check : N + N :=
        if cl_pin c then
          match ga_auth a with
          | None => inl 0
          | Some p =>
            if ga_protocol a =? 1 then
              if bytes_eqb (pin_auth E (cl_token c) (or_nil (ga_hash a))) p then inl flag_uv
              else inr st_pin_auth_invalid
            else inr st_pin_auth_invalid
          end
        else inl 0 in
      match check with
      | inr e => ret (inl [e])
      | inl flags =>
        do s <- get_assertion_source E (ga_rp a) (ga_allow a);
        match s with
        | None => ret (inl [st_no_credentials])
        | Some s =>
          match op_up (ga_options a) with
          | Some false => fmapM inl (ga_finish a flags s)
          | _ => ret (inr (PLogin a flags s))
          end
        end
      end
    end.

  (* u2f/u2f.go:148-162. *)
  Definition register_begin (req : bytes) : M (bytes + pending) :=
    if len req =? 64 then
      let challenge := takeN 32 req in
      let app := dropN 32 req in
      do d <- new_scalar E;
      let k := ec_key C d in
      do handle <- seal_handle E
        {| kh_key := Some (sec1 d (eq_x (ec_public k), eq_y (ec_public k))); kh_app := Some app |};
      ret (inr (PRegister d challenge app handle))
    else fail.

  (* u2f/u2f.go:167-173. *)
  Definition register_finish (d : N) (challenge app handle : bytes) : M bytes :=
    let k := ec_key C d in
    let pub := point_bytes (eq_x (ec_public k), eq_y (ec_public k)) in
    do cert <- make_certificate E (priv_ec k);
    do r <- sign_random E;
    do sig <- lift (cose_sign C (priv_ec k) ([0] ++ app ++ challenge ++ handle ++ pub) r);
    ret ([5] ++ pub ++ [len handle mod 256] ++ handle ++ cert ++ sig ++ sw_no_error).

  (* u2f/u2f.go:205-208. *)
  Definition auth_finish (k : ec_priv) (challenge app : bytes) : M bytes :=
    do n <- next_counter;
    do r <- sign_random E;
    do sig <- lift (cose_sign C (priv_ec k) (app ++ [1] ++ be 4 n ++ challenge) r);
    ret ([1] ++ be 4 n ++ sig ++ sw_no_error).

  (* u2f/u2f.go:176-200. *)
  Definition auth_begin (control : N) (req : bytes) : M (bytes + pending) :=
    do p <- lift (let? (challenge, r) := read_buf 32 req in
                  let? (app, r) := read_buf 32 r in
                  let? (n, r) := read_le 1 r in
                  let? (h, _) := read_buf n r in
                  Ok (challenge, app, h));
    let '(challenge, app, h) := p in
    do c <- get;
    do kh <- lift (open_handle E (cl_key c) h);
    match kh with
    | None => ret (inl sw_wrong_data)
    | Some kh =>
      match kh_key kh with
      | None => ret (inl sw_wrong_data)
      | Some kb =>
        if bytes_eqb (or_nil (kh_app kh)) app then
          match ec_parse C kb with
          | None => fail
          | Some k =>
            if control =? 7 then ret (inl sw_conditions)
            else if control =? 3 then ret (inr (PAuthenticate k challenge app))
            else if control =? 8 then fmapM inl (auth_finish k challenge app)
            else ret (inl sw_wrong_length)
          end
        else ret (inl sw_wrong_data)
      end
    end.

  (* ctap/ctap.go:100-115. *)
  Definition ctap_begin (msg : bytes) : M (bytes + pending) :=
    match msg with
    | [] => fail
    | cmd :: data =>
      if cmd =? 1 then mc_begin data
      else if cmd =? 4 then fmapM inl (get_info)
      else if cmd =? 2 then ga_begin data
      else if cmd =? 6 then fmapM inl (client_pin E data)
      else fail
    end.

  (* u2f/u2f.go:110-126. *)
  Definition u2f_begin (msg : bytes) : M (bytes + pending) :=
    do p <- lift (decode_u2f msg);
    let '(h, req, _) := p in
    if uh_cmd h =? 3 then ret (inl (str "U2F_V2" ++ sw_no_error))
    else if uh_cmd h =? 1 then register_begin req
    else if uh_cmd h =? 2 then auth_begin (uh_p1 h) req
    else fail.

  (* The calls of the program around the device ask nothing. *)
  Definition begin (i : input) : M (output + pending) :=
    match i with
    | ICtap m => fmapM (fun x => match x with inl r => inl (OBytes r) | inr p => inr p end) (ctap_begin m)
    | IU2f m => fmapM (fun x => match x with inl r => inl (OBytes r) | inr p => inr p end) (u2f_begin m)
    | _ => fmapM inl (handle E i)
    end.

  (* fido_client/fido_client.go:121-134 and 209-217: the question; then the rest. *)
  Definition resume (p : pending) : M bytes :=
    match p with
    | PCreate a rp flags =>
      do ok <- approve_creation E (rp_name rp);
      if ok then mc_finish a rp flags else ret [st_operation_denied]
    | PLogin a flags s =>
      do ok <- approve_login E s;
      if ok then ga_finish a (N.lor flags flag_up) s else ret [st_operation_denied]
    | PRegister d challenge app handle =>
      do ok <- approve_u2f_registration E;
      if ok then register_finish d challenge app handle else ret sw_conditions
    | PAuthenticate k challenge app =>
      do ok <- approve_u2f_authentication E;
      if ok then auth_finish k challenge app else ret sw_conditions
    end.
End Server.

(* identities/identity_vault.go:31: the vault holds pointers, and a waiting login has one of
   them: it sees what others do to that source, also after the source left the vault.
   Simplified: the source pointed at is told from others by its ID, which is right as long as
   no two sources have the same one. *)
Definition refresh (v : list source) (p : pending) : pending :=
  match p with
  | PLogin a flags s =>
    match find (fun s' => bytes_eqb (cs_id s') (cs_id s)) v with
    | Some s' => PLogin a flags s'
    | None => p
    end
  | _ => p
  end.

(* A waiting request and its number. *)
Record waiting : Type := mk_waiting { wt_no : nat; wt_input : input; wt_state : pending }.

Definition refreshed (w : world) (l : list waiting) : list waiting :=
  map (fun x => mk_waiting (wt_no x) (wt_input x) (refresh (cl_vault (w_client w)) (wt_state x))) l.

Inductive oentry : Type :=
| OStart (p : params)
| OStartFailed (p : params)
| OBegin (n : nat) (i : input)                  (* request n arrives *)
| ODone (n : nat) (i : input) (o : output)      (* it is answered *)
| OPanic (n : nat) (i : input)                  (* it panics: the process ends *)
| OCrash (n : nat) (i : input)                  (* the process is killed while it runs *)
| OKill.                                        (* the process is killed while all wait *)

(* [ohistory E h l w]: [h] can happen; [l] are the requests that wait, if the process runs. *)
Inductive ohistory (E : Env) : list oentry -> option (list waiting) -> world -> Prop :=
| O_new c t : ohistory E [] None {| w_client := c; w_tick := t; w_trace := [] |}
| O_start h w p w' : ohistory E h None w -> start E p (saved_in (w_trace w)) w = (w', Ok tt) ->
    ohistory E (h ++ [OStart p]) (Some []) w'
| O_start_failed h w p w' : ohistory E h None w -> start E p (saved_in (w_trace w)) w = (w', Panic) ->
    ohistory E (h ++ [OStartFailed p]) None w'
| O_wait h l w i w' p : ohistory E h (Some l) w -> good_input i -> begin E i w = (w', Ok (inr p)) ->
    ohistory E (h ++ [OBegin (length h) i]) (Some (refreshed w' l ++ [mk_waiting (length h) i p])) w'
| O_quick h l w i w' o : ohistory E h (Some l) w -> good_input i -> begin E i w = (w', Ok (inl o)) ->
    ohistory E (h ++ [OBegin (length h) i; ODone (length h) i o]) (Some (refreshed w' l)) w'
| O_resume h l1 x l2 w w' r : ohistory E h (Some (l1 ++ x :: l2)) w -> resume E (wt_state x) w = (w', Ok r) ->
    ohistory E (h ++ [ODone (wt_no x) (wt_input x) (OBytes r)]) (Some (refreshed w' (l1 ++ l2))) w'
| O_panic h l w i w' : ohistory E h (Some l) w -> good_input i -> begin E i w = (w', Panic) ->
    ohistory E (h ++ [OBegin (length h) i; OPanic (length h) i]) None w'
| O_panic_later h l1 x l2 w w' : ohistory E h (Some (l1 ++ x :: l2)) w -> resume E (wt_state x) w = (w', Panic) ->
    ohistory E (h ++ [OPanic (wt_no x) (wt_input x)]) None w'
| O_crash h l w i w' r es rest : ohistory E h (Some l) w -> good_input i -> begin E i w = (w', r) ->
    w_trace w' = w_trace w ++ es ++ rest ->
    ohistory E (h ++ [OBegin (length h) i; OCrash (length h) i]) None
      {| w_client := w_client w'; w_tick := w_tick w'; w_trace := w_trace w ++ es |}
| O_crash_later h l1 x l2 w w' r es rest : ohistory E h (Some (l1 ++ x :: l2)) w -> resume E (wt_state x) w = (w', r) ->
    w_trace w' = w_trace w ++ es ++ rest ->
    ohistory E (h ++ [OCrash (wt_no x) (wt_input x)]) None
      {| w_client := w_client w'; w_tick := w_tick w'; w_trace := w_trace w ++ es |}
| O_kill h l w : ohistory E h (Some l) w -> ohistory E (h ++ [OKill]) None w.
