(* Well-formed device configurations, and what a blob on disk says. *)
From Verif Require Import Base M_Crypto M_State S_Cbor.

Definition wfo (b : option bytes) : Prop := match b with Some b => wfb b | None => True end.

Definition proper_rp (r : rp_ent) : Prop := utf8_text (rp_id r) /\ utf8_text (rp_name r).
Definition proper_user (u : user_ent) : Prop :=
  wfo (us_id u) /\ utf8_text (us_display u) /\ utf8_text (us_name u).

Definition proper_source (s : saved_source) : Prop :=
  utf8_text (ss_type s) /\ wfo (ss_id s) /\ wfo (ss_key s) /\ proper_rp (ss_rp s) /\
  proper_user (ss_user s) /\ (-2147483648 <= ss_ctr s < 2147483648)%Z.

(* Texts are UTF-8, numbers fit their Go types, a PIN hash is not the empty string. *)
Definition proper_config (c : config) : Prop :=
  wfo (cf_key c) /\ wfo (cf_cert c) /\ wfo (cf_certkey c) /\ cf_ctr c < 4294967296 /\
  wfo (cf_pin_hash c) /\ cf_pin_hash c <> Some [] /\ Forall proper_source (cf_sources c).

Definition proper_draws (d : draws) : Prop :=
  wfb (dr_salt d) /\ len (dr_key d) = 32 /\ wfb (dr_key d) /\
  len (dr_key_nonce d) = 12 /\ wfb (dr_key_nonce d) /\ len (dr_data_nonce d) = 12 /\ wfb (dr_data_nonce d).

(* The five byte strings named by a blob encrypt [data] under [passphrase]. *)
Definition encrypts (C : Crypto) (passphrase data salt ek kn ed dn : bytes) : Prop :=
  exists key, aes_key_ok key = true /\
    ek = gcm_seal C (scrypt_key C passphrase salt) kn key /\ ed = gcm_seal C key dn data.

(* A text in braces, with no brace in between. *)
Definition closed_text (d : bytes) : Prop := exists m, d = 123 :: m ++ [125] /\ Forall (fun b => b < 123) m.

(* White space in JSON. *)
Definition json_space (b : N) : Prop := b = 32 \/ b = 9 \/ b = 10 \/ b = 13.
