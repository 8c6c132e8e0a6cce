(* Model of identities/saved_state.go and of the JSON forms it uses. *)
From Verif Require Import Base M_Str M_Utf8 M_Cbor M_Json M_Crypto.

(* webauthn/webauthn.go:10-13. *)
Record rp_ent : Type := { rp_id : bytes; rp_name : bytes }.

(* webauthn/webauthn.go:20-24. *)
Record user_ent : Type := { us_id : option bytes; us_display : bytes; us_name : bytes }.

(* identities/saved_state.go:14-21. *)
Record saved_source : Type := {
  ss_type : bytes; ss_id : option bytes; ss_key : option bytes;
  ss_rp : rp_ent; ss_user : user_ent; ss_ctr : Z
}.

(* identities/saved_state.go:23-31.  Simplified: a nil Sources slice is an empty one
   (Export always makes one, identity_vault.go:90). *)
Record config : Type := {
  cf_key : option bytes; cf_cert : option bytes; cf_certkey : option bytes;
  cf_ctr : N; cf_pin : bool; cf_pin_hash : option bytes; cf_sources : list saved_source
}.

(* identities/saved_state.go:33-39. *)
Record blob : Type := {
  bl_salt : option bytes; bl_key : option bytes; bl_key_nonce : option bytes;
  bl_data : option bytes; bl_data_nonce : option bytes
}.

(* ------------------------------------------------------------------ *)
(* json.Marshal                                                        *)

Definition jrp (r : rp_ent) : json :=
  JObj [(str "id", JStr (rp_id r)); (str "name", JStr (rp_name r))].

Definition juser (u : user_ent) : json :=
  JObj [(str "id", jbytes (us_id u)); (str "display_name", JStr (us_display u));
        (str "name", JStr (us_name u))].

Definition jsource (s : saved_source) : json :=
  JObj [(str "type", JStr (ss_type s)); (str "id", jbytes (ss_id s));
        (str "private_key", jbytes (ss_key s)); (str "relying_party", jrp (ss_rp s));
        (str "user", juser (ss_user s)); (str "signature_counter", JInt (ss_ctr s))].

(* omitempty on a []byte. *)
Definition some_bytes (b : option bytes) : bool :=
  match b with Some (_ :: _) => true | _ => false end.

Definition jconfig (c : config) : json :=
  JObj ([(str "encryption_key", jbytes (cf_key c));
         (str "attestation_certificate", jbytes (cf_cert c));
         (str "attestation_private_key", jbytes (cf_certkey c));
         (str "authentication_counter", JInt (Z.of_N (cf_ctr c)))] ++
        (if cf_pin c then [(str "pin_enabled", JBool true)] else []) ++
        (if some_bytes (cf_pin_hash c) then [(str "pin_hash", jbytes (cf_pin_hash c))] else []) ++
        [(str "sources", JArr (map jsource (cf_sources c)))]).

Definition jblob (b : blob) : json :=
  JObj [(str "salt", jbytes (bl_salt b)); (str "encryption_key", jbytes (bl_key b));
        (str "key_nonce", jbytes (bl_key_nonce b)); (str "encrypted_data", jbytes (bl_data b));
        (str "data_nonce", jbytes (bl_data_nonce b))].

(* ------------------------------------------------------------------ *)
(* json.Unmarshal                                                      *)

Definition jdec_rp (v : json) : option rp_ent :=
  let! l := jdec_fields v in
  let! id := jfield (str "id") jdec_text l in
  let! name := jfield (str "name") jdec_text l in
  Some {| rp_id := id; rp_name := name |}.

Definition jdec_user (v : json) : option user_ent :=
  let! l := jdec_fields v in
  let! id := jfield (str "id") jdec_bytes l in
  let! display := jfield (str "display_name") jdec_text l in
  let! name := jfield (str "name") jdec_text l in
  Some {| us_id := id; us_display := display; us_name := name |}.

Definition jdec_source (v : json) : option saved_source :=
  let! l := jdec_fields v in
  let! type := jfield (str "type") jdec_text l in
  let! id := jfield (str "id") jdec_bytes l in
  let! key := jfield (str "private_key") jdec_bytes l in
  let! rp := jfield (str "relying_party") jdec_rp l in
  let! user := jfield (str "user") jdec_user l in
  let! ctr := jfield (str "signature_counter") (jdec_int (-2147483648) 2147483648) l in
  Some {| ss_type := type; ss_id := id; ss_key := key; ss_rp := rp; ss_user := user; ss_ctr := ctr |}.

Definition jdec_config (v : json) : option config :=
  let! l := jdec_fields v in
  let! key := jfield (str "encryption_key") jdec_bytes l in
  let! cert := jfield (str "attestation_certificate") jdec_bytes l in
  let! certkey := jfield (str "attestation_private_key") jdec_bytes l in
  let! ctr := jfield (str "authentication_counter") (jdec_int 0 4294967296) l in
  let! pin := jfield (str "pin_enabled") jdec_bool l in
  let! hash := jfield (str "pin_hash") jdec_bytes l in
  let! sources := jfield (str "sources") (jdec_list jdec_source) l in
  Some {| cf_key := key; cf_cert := cert; cf_certkey := certkey; cf_ctr := Z.to_N ctr; cf_pin := pin;
          cf_pin_hash := hash; cf_sources := sources |}.

Definition jdec_blob (v : json) : option blob :=
  let! l := jdec_fields v in
  let! salt := jfield (str "salt") jdec_bytes l in
  let! key := jfield (str "encryption_key") jdec_bytes l in
  let! key_nonce := jfield (str "key_nonce") jdec_bytes l in
  let! data := jfield (str "encrypted_data") jdec_bytes l in
  let! data_nonce := jfield (str "data_nonce") jdec_bytes l in
  Some {| bl_salt := salt; bl_key := key; bl_key_nonce := key_nonce; bl_data := data;
          bl_data_nonce := data_nonce |}.

(* ------------------------------------------------------------------ *)
(* Encryption                                                          *)

(* The random values drawn by EncryptWithPassphrase, in order. *)
Record draws : Type := { dr_salt : bytes; dr_key : bytes; dr_key_nonce : bytes; dr_data_nonce : bytes }.

Section State.
  Variable C : Crypto.

  (* identities/saved_state.go:41-68, EncryptWithPassphrase.  None is an error; neither
     scrypt nor json.Marshal can fail here. *)
  Definition encrypt_with_passphrase (passphrase data : bytes) (d : draws) : option bytes :=
    let kek := scrypt_key C passphrase (dr_salt d) in
    let! (ek, kn) := encrypt C kek (dr_key d) (dr_key_nonce d) in
    let! (ed, dn) := encrypt C (dr_key d) data (dr_data_nonce d) in
    Some (jenc (jblob {| bl_salt := Some (dr_salt d); bl_key := Some ek; bl_key_nonce := Some kn;
                         bl_data := Some ed; bl_data_nonce := Some dn |})).

  (* identities/saved_state.go:70-87, DecryptWithPassphrase. *)
  Definition decrypt_with_passphrase (passphrase data : bytes) : res (option bytes) :=
    match junmarshal jdec_blob data with
    | None => Ok None
    | Some b =>
      let kek := scrypt_key C passphrase (or_nil (bl_salt b)) in
      let? key := decrypt C kek (or_nil (bl_key b)) (or_nil (bl_key_nonce b)) in
      match key with
      | None => Ok None
      | Some key => decrypt C key (or_nil (bl_data b)) (or_nil (bl_data_nonce b))
      end
    end.

  (* identities/saved_state.go:89-99, EncryptFIDOState. *)
  Definition encrypt_fido_state (c : config) (passphrase : bytes) (d : draws) : option bytes :=
    encrypt_with_passphrase passphrase (jenc (jconfig c)) d.

  (* identities/saved_state.go:101-112, DecryptFIDOState. *)
  Definition decrypt_fido_state (data passphrase : bytes) : res (option config) :=
    let? s := decrypt_with_passphrase passphrase data in
    match s with
    | None => Ok None
    | Some s => Ok (junmarshal jdec_config s)
    end.
End State.
