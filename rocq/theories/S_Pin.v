(* A platform that follows PIN protocol one (CTAP 2.0 section 5.5). *)
From Verif Require Import Base M_Cbor S_Cbor M_Crypto S_Crypto S_Ctap S_CtapReq.

Definition xor_bytes (a b : bytes) : bytes := map (fun p => N.lxor (fst p) (snd p)) (combine a b).

(* AES-CBC, block by block. *)
Inductive cbc (C : Crypto) (k : bytes) : bytes -> bytes -> bytes -> Prop :=
| cbc_nil iv : cbc C k iv [] []
| cbc_cons iv b m c cs : len b = 16 -> c = aes_enc C k (xor_bytes b iv) -> cbc C k c m cs ->
    cbc C k iv (b ++ m) (c ++ cs).

(* PIN protocol one encrypts with a zero initialisation vector. *)
Definition enciphers (C : Crypto) (k plain cipher : bytes) : Prop := cbc C k (repeat 0 16) plain cipher.

(* The secret that a platform with scalar [p] shares with a device with public point [q]:
   SHA-256 of the x coordinate of the product, as 32 bytes. *)
Definition platform_secret (C : Crypto) (p : N) (q : N * N) (z : N) (s : bytes) : Prop :=
  p256_mul C p q = Some z /\ s = sha256 C (be 32 z).

Definition platform_key (C : Crypto) (p : N) : bytes * bytes :=
  (be 32 (fst (p256_pub C p)), be 32 (snd (p256_pub C p))).

(* A PIN that may be set: 4 to 63 bytes, none of them zero. *)
Definition fair_pin (pin : bytes) : Prop := wfb pin /\ 4 <= len pin <= 63 /\ ~ In 0 pin.

Definition half (b : bytes) : bytes := firstn 16 b.

Definition ask_agreement : cbor := cp_request 2 None None None None.

(* SetPIN: the PIN padded with zeros to 64 bytes. *)
Definition set_pin_request (C : Crypto) (p : N) (s pin : bytes) (v : cbor) : Prop :=
  exists enc, enciphers C s (pin ++ repeat 0 (64 - length pin)) enc /\
    v = cp_request 3 (Some (platform_key C p)) (Some (half (hmac256 C s enc))) (Some enc) None.

(* ChangePIN. *)
Definition change_pin_request (C : Crypto) (p : N) (s old pin : bytes) (v : cbor) : Prop :=
  exists enc henc, enciphers C s (pin ++ repeat 0 (64 - length pin)) enc /\
    enciphers C s (half (sha256 C old)) henc /\
    v = cp_request 4 (Some (platform_key C p)) (Some (half (hmac256 C s (enc ++ henc)))) (Some enc) (Some henc).

(* GetPINToken. *)
Definition token_request (C : Crypto) (p : N) (s pin : bytes) (v : cbor) : Prop :=
  exists enc, enciphers C s (half (sha256 C pin)) enc /\
    v = cp_request 5 (Some (platform_key C p)) None None (Some enc).
