(* Model of identities/identity_vault.go and fido_client/fido_client.go. *)
From Verif Require Import Base M_Str M_Cbor M_Json M_Crypto M_Cose M_State.

(* ------------------------------------------------------------------ *)
(* Environment and world                                               *)

(* fido_client/fido_client.go:22-27, ClientAction. *)
Inductive action : Type := ActU2FRegister | ActU2FAuthenticate | ActMakeCredential | ActGetAssertion.

(* What the device does to its environment: ask the approver (with relying party and user
   name as shown, and the answer), or hand a blob to the data saver. *)
Inductive event : Type :=
| EvAsk (a : action) (rp user : bytes) (answer : bool)
| EvSave (data : bytes).

(* Everything outside the device.  Random draws and approvals are indexed by a counter
   that every draw or question advances. *)
Record Env : Type := {
  e_C : Crypto;
  e_rand : N -> nat -> bytes;                           (* crypto/rand *)
  e_scalar : N -> N;                                    (* generated P-256 scalars *)
  e_approve : N -> action -> bytes -> bytes -> bool;    (* ApproveClientAction *)
  e_pass : bytes;                                       (* dataSaver.Passphrase *)
  e_cert_ok : bytes -> bool;                            (* x509.ParseCertificate succeeds *)
  e_make_cert : N -> bytes -> cose_priv -> cose_pub -> option bytes
    (* x509.CreateCertificate with CA certificate and key, for a public key *)
}.

(* identities/identity_vault.go:13-20.  Simplified: RelyingParty and User are values, not
   pointers (nothing changes them after creation; the sharing that Import creates is in
   [import_sources]); a nil ID is the empty one. *)
Record source : Type := {
  cs_type : bytes; cs_id : bytes; cs_key : cose_priv;
  cs_rp : rp_ent; cs_user : user_ent; cs_ctr : Z
}.

(* fido_client/fido_client.go:41-56; the key agreement key is represented by its scalar and
   a nil key or certificate by the empty one. *)
Record client : Type := {
  cl_key : bytes; cl_cert : bytes; cl_certkey : cose_priv; cl_ctr : N;
  cl_pin : bool; cl_token : bytes; cl_ka : N; cl_retries : Z; cl_hash : option bytes;
  cl_vault : list source
}.

Record world : Type := { w_client : client; w_tick : N; w_trace : list event }.

(* Code that reads and changes the world and may panic; a panic keeps what was done. *)
Definition M (A : Type) : Type := world -> world * res A.
Definition ret {A} (a : A) : M A := fun w => (w, Ok a).
Definition fail {A} : M A := fun w => (w, Panic).
Definition bind {A B} (m : M A) (f : A -> M B) : M B :=
  fun w => match m w with
           | (w, Ok a) => f a w
           | (w, Panic) => (w, Panic)
           end.
Notation "'do' x <- m ; k" := (bind m (fun x => k)) (at level 200, x name, m at level 100, k at level 200).
Notation "m ;; k" := (bind m (fun _ => k)) (at level 199, right associativity).

Definition lift {A} (r : res A) : M A := fun w => (w, r).
Definition get : M client := fun w => (w, Ok (w_client w)).
Definition put (c : client) : M unit :=
  fun w => ({| w_client := c; w_tick := w_tick w; w_trace := w_trace w |}, Ok tt).
Definition emit (e : event) : M unit :=
  fun w => ({| w_client := w_client w; w_tick := w_tick w; w_trace := w_trace w ++ [e] |}, Ok tt).
Definition tick : M N :=
  fun w => ({| w_client := w_client w; w_tick := w_tick w + 1; w_trace := w_trace w |}, Ok (w_tick w)).

(* ------------------------------------------------------------------ *)
(* identities/identity_vault.go                                        *)

(* identities/identity_vault.go:55-57, AddIdentity. *)
Definition add_identity (v : list source) (s : source) : list source := v ++ [s].

(* identities/identity_vault.go:59-68, DeleteIdentity: the last identity takes the place
   of the first one with this id. *)
Fixpoint find_id (v : list source) (id : bytes) : option nat :=
  match v with
  | [] => None
  | s :: r => if bytes_eqb (cs_id s) id then Some O
              else match find_id r id with Some i => Some (S i) | None => None end
  end.

Fixpoint set_nth (v : list source) (i : nat) (s : source) : list source :=
  match v, i with
  | [], _ => []
  | _ :: r, O => s :: r
  | x :: r, S i => x :: set_nth r i s
  end.

Definition delete_identity (v : list source) (id : bytes) : list source * bool :=
  match find_id v id with
  | None => (v, false)
  | Some i =>
    match rev v with
    | [] => (v, false)
    | l :: _ => (removelast (set_nth v i l), true)
    end
  end.

(* webauthn/webauthn.go:33-37. *)
Record descriptor : Type := { de_type : bytes; de_id : option bytes; de_transports : option (list bytes) }.

(* identities/identity_vault.go:70-87, GetMatchingCredentialSources. *)
Fixpoint in_list (id : bytes) (l : list descriptor) : bool :=
  match l with
  | [] => false
  | d :: r => if bytes_eqb (or_nil (de_id d)) id then true else in_list id r
  end.

Fixpoint matching (v : list source) (rp : bytes) (allow : option (list descriptor)) : list source :=
  match v with
  | [] => []
  | s :: r =>
    if bytes_eqb (rp_id (cs_rp s)) rp then
      match allow with
      | Some l => if in_list (cs_id s) l then s :: matching r rp allow else matching r rp allow
      | None => s :: matching r rp allow
      end
    else matching r rp allow
  end.

(* identities/identity_vault.go:89-104, Export. *)
Fixpoint export (v : list source) : res (list saved_source) :=
  match v with
  | [] => Ok []
  | s :: r =>
    let? key := marshal_priv (cs_key s) in
    let? t := export r in
    Ok ({| ss_type := cs_type s; ss_id := Some (cs_id s); ss_key := Some key; ss_rp := cs_rp s;
           ss_user := cs_user s; ss_ctr := cs_ctr s |} :: t)
  end.

Section Client.
  Variable E : Env.
  Let C : Crypto := e_C E.

  (* A key as saved: COSE, or the older SEC 1 form. *)
  Definition read_key (b : bytes) : res (option cose_priv) :=
    let? k := unmarshal_priv C b in
    match k with
    | Some k => Ok (Some k)
    | None => match ec_parse C b with Some k => Ok (Some (priv_ec k)) | None => Ok None end
    end.

  (* identities/identity_vault.go:106-127, Import: the sources read before the first bad key,
     and the source that the loop variable holds at the end (Go 1.19: one variable). *)
  Fixpoint import_loop (l : list saved_source) (last : option saved_source)
    : res (list (saved_source * cose_priv) * option saved_source) :=
    match l with
    | [] => Ok ([], last)
    | s :: r =>
      let? k := read_key (or_nil (ss_key s)) in
      match k with
      | None => Ok ([], Some s)
      | Some k =>
        let? (t, last) := import_loop r (Some s) in
        Ok ((s, k) :: t, last)
      end
    end.

  (* Every imported source points at the loop variable's RelyingParty and User. *)
  Definition import_sources (l : list saved_source) : res (list source) :=
    let? (t, last) := import_loop l None in
    match last with
    | None => Ok []
    | Some z =>
      Ok (map (fun p => {| cs_type := ss_type (fst p); cs_id := or_nil (ss_id (fst p)); cs_key := snd p;
                           cs_rp := ss_rp z; cs_user := ss_user z; cs_ctr := ss_ctr (fst p) |}) t)
    end.

  (* ---------------------------------------------------------------- *)
  (* fido_client/fido_client.go                                        *)

  (* crypto/crypto.go:183-188, RandomBytes. *)
  Definition random (n : nat) : M bytes := do t <- tick; ret (e_rand E t n).

  (* crypto/crypto.go:25-29, GenerateECDSAKey (and 168-172, GenerateECDHKey): the scalar. *)
  Definition new_scalar : M N := do t <- tick; ret (e_scalar E t).

  (* Randomness consumed inside a signature. *)
  Definition sign_random : M bytes := random 32.

  Definition ask (a : action) (rp user : bytes) : M bool :=
    do t <- tick;
    let b := e_approve E t a rp user in
    emit (EvAsk a rp user b);; ret b.

  (* fido_client/fido_client.go:219-234, exportData. *)
  Definition config_of (c : client) : res config :=
    let? ck := marshal_priv (cl_certkey c) in
    let? ss := export (cl_vault c) in
    Ok {| cf_key := Some (cl_key c); cf_cert := Some (cl_cert c); cf_certkey := Some ck; cf_ctr := cl_ctr c;
          cf_pin := cl_pin c; cf_pin_hash := cl_hash c; cf_sources := ss |}.

  Definition export_data : M bytes :=
    do c <- get;
    do cf <- lift (config_of c);
    do salt <- random 16;
    do key <- random 32;
    do kn <- random 12;
    do dn <- random 12;
    match encrypt_fido_state C cf (e_pass E)
            {| dr_salt := salt; dr_key := key; dr_key_nonce := kn; dr_data_nonce := dn |} with
    | Some b => ret b
    | None => fail
    end.

  (* fido_client/fido_client.go:258-261, saveData. *)
  Definition save_data : M unit := do d <- export_data; emit (EvSave d).

  (* fido_client/fido_client.go:236-256, importData; the error of Import is dropped. *)
  Definition import_data (c : client) (data : bytes) : res client :=
    let? st := decrypt_fido_state C data (e_pass E) in
    match st with
    | None => Panic
    | Some st =>
      if e_cert_ok E (or_nil (cf_cert st)) then
        let? k := read_key (or_nil (cf_certkey st)) in
        match k with
        | None => Panic
        | Some k =>
          let? v := import_sources (cf_sources st) in
          Ok {| cl_key := or_nil (cf_key st); cl_cert := or_nil (cf_cert st); cl_certkey := k;
                cl_ctr := cf_ctr st; cl_pin := cf_pin st; cl_token := cl_token c; cl_ka := cl_ka c;
                cl_retries := cl_retries c; cl_hash := cf_pin_hash st; cl_vault := v |}
        end
      else Panic
    end.

  (* fido_client/fido_client.go:58-81 and 263-268, NewDefaultClient and loadData. *)
  Record params : Type := { pa_cert : bytes; pa_certkey : cose_priv; pa_key : bytes; pa_pin : bool }.

  Definition new_client (p : params) (token : bytes) (ka : N) : client :=
    {| cl_key := pa_key p; cl_cert := pa_cert p; cl_certkey := pa_certkey p; cl_ctr := 1; cl_pin := pa_pin p;
       cl_token := token; cl_ka := ka; cl_retries := 8; cl_hash := None; cl_vault := [] |}.

  Definition start (p : params) (data : option bytes) : M unit :=
    do token <- random 16;
    do ka <- new_scalar;
    let c := new_client p token ka in
    match data with
    | None => put c
    | Some d => do c <- lift (import_data c d); put c
    end.

  Definition set_vault (c : client) (v : list source) : client :=
    {| cl_key := cl_key c; cl_cert := cl_cert c; cl_certkey := cl_certkey c; cl_ctr := cl_ctr c;
       cl_pin := cl_pin c; cl_token := cl_token c; cl_ka := cl_ka c; cl_retries := cl_retries c;
       cl_hash := cl_hash c; cl_vault := v |}.
  Definition set_pin (c : client) (b : bool) : client :=
    {| cl_key := cl_key c; cl_cert := cl_cert c; cl_certkey := cl_certkey c; cl_ctr := cl_ctr c;
       cl_pin := b; cl_token := cl_token c; cl_ka := cl_ka c; cl_retries := cl_retries c;
       cl_hash := cl_hash c; cl_vault := cl_vault c |}.
  Definition set_retries (c : client) (n : Z) : client :=
    {| cl_key := cl_key c; cl_cert := cl_cert c; cl_certkey := cl_certkey c; cl_ctr := cl_ctr c;
       cl_pin := cl_pin c; cl_token := cl_token c; cl_ka := cl_ka c; cl_retries := n;
       cl_hash := cl_hash c; cl_vault := cl_vault c |}.
  Definition set_hash (c : client) (h : option bytes) : client :=
    {| cl_key := cl_key c; cl_cert := cl_cert c; cl_certkey := cl_certkey c; cl_ctr := cl_ctr c;
       cl_pin := cl_pin c; cl_token := cl_token c; cl_ka := cl_ka c; cl_retries := cl_retries c;
       cl_hash := h; cl_vault := cl_vault c |}.
  Definition set_ctr (c : client) (n : N) : client :=
    {| cl_key := cl_key c; cl_cert := cl_cert c; cl_certkey := cl_certkey c; cl_ctr := n;
       cl_pin := cl_pin c; cl_token := cl_token c; cl_ka := cl_ka c; cl_retries := cl_retries c;
       cl_hash := cl_hash c; cl_vault := cl_vault c |}.

  (* webauthn/webauthn.go:39-42. *)
  Record cred_param : Type := { cp_type : bytes; cp_alg : Z }.
  Definition es256_param (p : cred_param) : bool :=
    ((cp_alg p =? ALG_ES256)%Z && bytes_eqb (cp_type p) (str "public-key"))%bool.

  (* identities/identity_vault.go:39-53, NewIdentity.  Simplified: the id is drawn before
     the key, both from the same counter. *)
  Definition new_identity (rp : rp_ent) (user : user_ent) : M source :=
    do id <- random 16;
    do d <- new_scalar;
    let s := {| cs_type := str "public-key"; cs_id := id; cs_key := priv_ec (ec_key C d);
                cs_rp := rp; cs_user := user; cs_ctr := 0 |} in
    do c <- get;
    put (set_vault c (add_identity (cl_vault c) s));; ret s.

  (* fido_client/fido_client.go:87-105, NewCredentialSource; ExcludeList is not used.  With
     a nil user the new source makes Export panic (identity_vault.go:98), before anything is
     saved: [fail]. *)
  Definition new_credential_source (ps : list cred_param) (rp : rp_ent) (user : option user_ent)
    : M (option source) :=
    if existsb es256_param ps then
      match user with
      | None => fail
      | Some u => do s <- new_identity rp u; save_data;; ret (Some s)
      end
    else ret None.

  (* int32 arithmetic. *)
  Definition wrap32 (z : Z) : Z := ((z + 2147483648) mod 4294967296 - 2147483648)%Z.

  Definition bump (s : source) : source :=
    {| cs_type := cs_type s; cs_id := cs_id s; cs_key := cs_key s; cs_rp := cs_rp s; cs_user := cs_user s;
       cs_ctr := wrap32 (cs_ctr s + 1) |}.

  (* The vault with the first matching source's counter incremented, and that source. *)
  Fixpoint bump_first (v : list source) (rp : bytes) (allow : option (list descriptor))
    : option (list source * source) :=
    match v with
    | [] => None
    | s :: r =>
      match matching [s] rp allow with
      | [] => match bump_first r rp allow with Some (r', x) => Some (s :: r', x) | None => None end
      | _ => Some (bump s :: r, bump s)
      end
    end.

  (* fido_client/fido_client.go:107-119, GetAssertionSource: sources[0] is a pointer into
     the vault. *)
  Definition get_assertion_source (rp : bytes) (allow : option (list descriptor)) : M (option source) :=
    do c <- get;
    match matching (cl_vault c) rp allow with
    | [] => ret None
    | _ :: _ =>
      match bump_first (cl_vault c) rp allow with
      | None => ret None
      | Some (v, s) => put (set_vault c v);; save_data;; ret (Some s)
      end
    end.

  (* fido_client/fido_client.go:121-134. *)
  Definition approve_creation (rp : bytes) : M bool := ask ActMakeCredential rp [].
  Definition approve_login (s : source) : M bool :=
    ask ActGetAssertion (rp_name (cs_rp s)) (us_name (cs_user s)).

  (* fido_client/fido_client.go:140-148, EnablePIN and DisablePIN. *)
  Definition enable_pin (b : bool) : M unit := do c <- get; put (set_pin c b);; save_data.

  (* fido_client/fido_client.go:163-166, SetPINHash. *)
  Definition set_pin_hash (h : bytes) : M unit := do c <- get; put (set_hash c (Some h));; save_data.

  (* fido_client/fido_client.go:158-161, SetPIN. *)
  Definition set_pin_api (pin : bytes) : M unit := set_pin_hash (firstn 16 (sha256 C pin)).

  (* fido_client/fido_client.go:168-175, PINRetries and SetPINRetries. *)
  Definition pin_retries : M Z :=
    do c <- get;
    if ((0 <? cl_retries c) && (cl_retries c <=? 8))%Z then ret (cl_retries c) else fail.
  Definition set_pin_retries (n : Z) : M unit := do c <- get; put (set_retries c n).

  (* fido_client/fido_client.go:197-201, NewAuthenticationCounterId. *)
  Definition next_counter : M N :=
    do c <- get; put (set_ctr c ((cl_ctr c + 1) mod 4294967296));; ret (cl_ctr c).

  (* fido_client/fido_client.go:203-207, CreateAttestationCertificiate. *)
  Definition make_certificate (k : cose_priv) : M bytes :=
    do c <- get;
    do pub <- lift (cose_public k);
    do t <- tick;
    match e_make_cert E t (cl_cert c) (cl_certkey c) pub with
    | Some b => ret b
    | None => fail
    end.

  (* fido_client/fido_client.go:209-217. *)
  Definition approve_u2f_registration : M bool := ask ActU2FRegister [] [].
  Definition approve_u2f_authentication : M bool := ask ActU2FAuthenticate [] [].

  (* fido_client/fido_client.go:270-276, Identities. *)
  Definition identities (c : client) : list source := cl_vault c.

  (* fido_client/fido_client.go:278-284, DeleteIdentity. *)
  Definition delete_identity_api (id : bytes) : M bool :=
    do c <- get;
    let (v, ok) := delete_identity (cl_vault c) id in
    if ok then put (set_vault c v);; save_data;; ret true else ret false.
End Client.
