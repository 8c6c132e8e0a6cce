(* Model of crypto/crypto.go over abstract primitives. *)
From Verif Require Import Base M_Cbor.

(* ------------------------------------------------------------------ *)
(* Key types of the Go standard library                                 *)

Inductive curve : Type := P256 | OtherCurve.

(* crypto/ecdsa PublicKey and PrivateKey. *)
Record ec_pub : Type := { eq_curve : curve; eq_x : N; eq_y : N }.
Record ec_priv : Type := { ec_public : ec_pub; ec_d : N }.

(* crypto/ed25519: a private key is the seed followed by the public key. *)
Definition ed_pub := bytes.
Definition ed_priv := bytes.

(* crypto/rsa: the exponent is a Go int; Precomputed is absent until Precompute. *)
Record rsa_pub : Type := { rq_n : N; rq_e : Z }.
Record rsa_pre : Type := { rp_dp : N; rp_dq : N; rp_qinv : N }.
Record rsa_priv : Type :=
  { rs_public : rsa_pub; rs_d : N; rs_primes : list N; rs_pre : option rsa_pre }.

(* The order of the P-256 group. *)
Definition p256_order : N :=
  115792089210356248762697446949407573529996955224135760342422259061068512044369.
Definition valid_scalar (d : N) : Prop := 0 < d /\ d < p256_order.

(* ------------------------------------------------------------------ *)
(* Primitives                                                          *)

(* The primitives taken from the Go standard library and x/crypto.  Randomness used
   by a primitive is an argument. *)
Record Crypto : Type := {
  sha256 : bytes -> bytes;
  hmac256 : bytes -> bytes -> bytes;                (* key, data *)
  aes_enc : bytes -> bytes -> bytes;                (* key, 16-byte block *)
  aes_dec : bytes -> bytes -> bytes;
  gcm_seal : bytes -> bytes -> bytes -> bytes;      (* key, nonce, plaintext *)
  gcm_open : bytes -> bytes -> bytes -> option bytes;
  scrypt_key : bytes -> bytes -> bytes;             (* passphrase, salt *)
  p256_pub : N -> N * N;                            (* scalar -> point *)
  p256_mul : N -> N * N -> option N;                (* x coordinate; None: invalid point *)
  ecdsa_sign : N -> bytes -> bytes -> bytes;        (* scalar, digest, randomness *)
  ecdsa_verify : N * N -> bytes -> bytes -> bool;
  ed_of_seed : bytes -> bytes;                      (* seed -> public key *)
  ed_sign : ed_priv -> bytes -> bytes;
  ed_verify : ed_pub -> bytes -> bytes -> bool;
  rsa_sign : rsa_priv -> bytes -> bytes -> bytes;
  rsa_verify : rsa_pub -> bytes -> bytes -> bool;
  rsa_precompute : N -> N -> N -> res rsa_pre;      (* d, p, q *)
  ec_parse : bytes -> option ec_priv                (* x509.ParseECPrivateKey *)
}.

(* ------------------------------------------------------------------ *)
(* crypto/crypto.go                                                    *)

Definition aes_key_ok (k : bytes) : bool :=
  (len k =? 16) || (len k =? 24) || (len k =? 32).

(* math/big Bytes and SetBytes: big endian without leading zeros. *)
Definition nbytes (n : N) : nat := N.to_nat ((N.size n + 7) / 8).
Definition big_bytes (n : N) : bytes := be (nbytes n) n.
Definition big_set (b : bytes) : N := be_dec b.

(* elliptic.Marshal: uncompressed point with 32-byte coordinates. *)
Definition point_bytes (p : N * N) : bytes := 4 :: be 32 (fst p) ++ be 32 (snd p).

(* x509.MarshalECPrivateKey for P-256: SEC 1 DER with named curve and public key. *)
Definition sec1 (d : N) (pub : N * N) : bytes :=
  [48; 119; 2; 1; 1; 4; 32] ++ be 32 d ++
  [160; 10; 6; 8; 42; 134; 72; 206; 61; 3; 1; 7; 161; 68; 3; 66; 0] ++ point_bytes pub.

Section Ops.
  Variable C : Crypto.

  (* crypto/crypto.go:53-66, Encrypt.  The nonce is drawn by the caller of the model.
     None is the error "could not create device cipher". *)
  Definition encrypt (key data nonce : bytes) : option (bytes * bytes) :=
    if aes_key_ok key then Some (gcm_seal C key nonce data, nonce) else None.

  (* crypto/crypto.go:68-83, Decrypt.  gcm.Open panics on a nonce that is not 12
     bytes long; an authentication failure is an error. *)
  Definition decrypt (key data nonce : bytes) : res (option bytes) :=
    if aes_key_ok key then
      if len nonce =? 12 then Ok (gcm_open C key nonce data) else Panic
    else Ok None.

  (* crypto/crypto.go:118-121, EncryptedBox; nil slices are None. *)
  Record box : Type := { bx_data : option bytes; bx_iv : option bytes }.

  (* crypto/crypto.go:123-127, Seal. *)
  Definition seal (key data nonce : bytes) : res box :=
    match encrypt key data nonce with
    | Some (c, iv) => Ok {| bx_data := Some c; bx_iv := Some iv |}
    | None => Panic
    end.

  Definition or_nil (b : option bytes) : bytes := match b with Some b => b | None => [] end.

  (* crypto/crypto.go:129-133, Open: an error becomes a panic. *)
  Definition open (key : bytes) (b : box) : res bytes :=
    let? r := decrypt key (or_nil (bx_data b)) (or_nil (bx_iv b)) in
    match r with Some p => Ok p | None => Panic end.

  Fixpoint xor (a b : bytes) : bytes :=
    match a, b with
    | x :: a', y :: b' => N.lxor x y :: xor a' b'
    | _, _ => []
    end.

  Fixpoint cbc_enc (n : nat) (key iv data : bytes) : bytes :=
    match n with
    | O => []
    | S n => let c := aes_enc C key (xor (firstn 16 data) iv) in
             c ++ cbc_enc n key c (skipn 16 data)
    end.

  Fixpoint cbc_dec (n : nat) (key iv data : bytes) : bytes :=
    match n with
    | O => []
    | S n => let c := firstn 16 data in
             xor (aes_dec C key c) iv ++ cbc_dec n key c (skipn 16 data)
    end.

  (* crypto/crypto.go:142-150, EncryptAESCBC: zero initialisation vector;
     CryptBlocks panics on partial blocks. *)
  Definition encrypt_cbc (key data : bytes) : res bytes :=
    if aes_key_ok key && (len data mod 16 =? 0)
    then Ok (cbc_enc (length data / 16) key (zeros 16) data) else Panic.

  (* crypto/crypto.go:152-160, DecryptAESCBC. *)
  Definition decrypt_cbc (key data : bytes) : res bytes :=
    if aes_key_ok key && (len data mod 16 =? 0)
    then Ok (cbc_dec (length data / 16) key (zeros 16) data) else Panic.

  (* crypto/crypto.go:85-90, SignECDSA. *)
  Definition sign_ecdsa (k : ec_priv) (data rnd : bytes) : bytes :=
    ecdsa_sign C (ec_d k) (sha256 C data) rnd.

  (* crypto/crypto.go:92-95, VerifyECDSA. *)
  Definition verify_ecdsa (k : ec_pub) (data sig : bytes) : bool :=
    ecdsa_verify C (eq_x k, eq_y k) (sha256 C data) sig.

  (* crypto/crypto.go:97-103, SignEd25519 and VerifyEd25519. *)
  Definition sign_ed25519 (k : ed_priv) (data : bytes) : bytes := ed_sign C k data.
  Definition verify_ed25519 (k : ed_pub) (data sig : bytes) : bool := ed_verify C k data sig.

  (* crypto/crypto.go:105-116, SignRSA and VerifyRSA. *)
  Definition sign_rsa (k : rsa_priv) (data rnd : bytes) : bytes := rsa_sign C k (sha256 C data) rnd.
  Definition verify_rsa (k : rsa_pub) (data sig : bytes) : bool := rsa_verify C k (sha256 C data) sig.

  (* crypto/crypto.go:25-29, GenerateECDSAKey, from the scalar drawn. *)
  Definition ec_key (d : N) : ec_priv :=
    {| ec_public := {| eq_curve := P256; eq_x := fst (p256_pub C d); eq_y := snd (p256_pub C d) |};
       ec_d := d |}.

  (* crypto/crypto.go:174-177, ECDH: the x coordinate without leading zeros; a point
     that is not on the curve panics. *)
  Definition ecdh (d : N) (x y : N) : res bytes :=
    match p256_mul C d (x, y) with
    | Some s => Ok (big_bytes s)
    | None => Panic
    end.
End Ops.
