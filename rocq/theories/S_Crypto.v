(* The functional laws assumed of the cryptographic primitives. *)
From Verif Require Import Base M_Crypto.

Definition aes_key (k : bytes) : Prop := len k = 16 \/ len k = 24 \/ len k = 32.

Record laws (C : Crypto) : Prop := {
  l_sha_len : forall b, len (sha256 C b) = 32;
  l_sha_wf : forall b, wfb (sha256 C b);
  l_hmac_len : forall k b, len (hmac256 C k b) = 32;
  l_hmac_wf : forall k b, wfb (hmac256 C k b);
  (* AES is a permutation of 16-byte blocks *)
  l_aes_len : forall k b, aes_key k -> len b = 16 -> len (aes_enc C k b) = 16;
  l_aes_wf : forall k b, wfb (aes_enc C k b);
  l_aes_dec_len : forall k b, aes_key k -> len b = 16 -> len (aes_dec C k b) = 16;
  l_aes_dec_wf : forall k b, wfb (aes_dec C k b);
  l_aes_inv : forall k b, aes_key k -> len b = 16 -> wfb b -> aes_dec C k (aes_enc C k b) = b;
  (* GCM opens exactly what was sealed *)
  l_gcm_open : forall k n p, aes_key k -> len n = 12 -> wfb p -> gcm_open C k n (gcm_seal C k n p) = Some p;
  l_gcm_only : forall k n c p, gcm_open C k n c = Some p -> c = gcm_seal C k n p;
  l_gcm_len : forall k n p, len (gcm_seal C k n p) = len p + 16;
  l_gcm_wf : forall k n p, wfb p <-> wfb (gcm_seal C k n p);
  l_scrypt_len : forall p s, len (scrypt_key C p s) = 32;
  l_scrypt_wf : forall p s, wfb (scrypt_key C p s);
  (* P-256 *)
  l_pub_x : forall d, valid_scalar d -> fst (p256_pub C d) < 2 ^ 256;
  l_pub_y : forall d, valid_scalar d -> snd (p256_pub C d) < 2 ^ 256;
  l_ecdsa : forall d h r, valid_scalar d -> ecdsa_verify C (p256_pub C d) h (ecdsa_sign C d h r) = true;
  l_ecdsa_wf : forall d h r, wfb r -> wfb (ecdsa_sign C d h r);
  l_ecdsa_len : forall d h r, len (ecdsa_sign C d h r) <= 72 + len r;
  l_ecdh : forall a b, valid_scalar a -> valid_scalar b ->
     exists s, s < 2 ^ 256 /\ p256_mul C a (p256_pub C b) = Some s /\ p256_mul C b (p256_pub C a) = Some s;
  (* Ed25519 and RSA keys *)
  l_ed_len : forall s, len (ed_of_seed C s) = 32;
  l_rsa_pre : forall d p q, 1 < p -> 1 < q -> N.gcd p q = 1 -> exists pre, rsa_precompute C d p q = Ok pre;
  (* SEC 1 *)
  l_sec1 : forall d, valid_scalar d -> ec_parse C (sec1 d (p256_pub C d)) = Some (ec_key C d)
}.

(* Block [i] of a message. *)
Definition block (i : nat) (m : bytes) : bytes := firstn 16 (skipn (16 * i) m).
