(* Properties C61..C63, C65, C68: COSE keys, AES-CBC and integer codecs. *)
From Verif Require Import Base M_Util M_Cbor S_Cbor P_Cbor2 M_Crypto S_Crypto P_Crypto M_Cose S_Cose P_Cose P_Cose2 P_Cose3 P_Cose4 P_Hid2.

(* ---------------------------------------------------------------- C61 *)
Theorem C61_private_round_trip : forall C k, laws C -> proper_priv C k ->
  exists b k', marshal_priv k = Ok b /\ unmarshal_priv C b = Ok (Some k') /\ same_priv k k'.
Proof. exact priv_round_trip. Qed.
Print Assumptions C61_private_round_trip.

(* Equal agrees with having the same numbers, on proper keys. *)
Theorem C61_equal_correct : forall C k k', proper_priv C k -> proper_priv C k' ->
  (cose_priv_equal k k' = true <-> same_priv k k').
Proof. exact priv_equal_iff. Qed.
Print Assumptions C61_equal_correct.

(* Encoding twice gives the same bytes, so a key survives any number of saves. *)
Theorem C61_stable : forall C k b, laws C -> proper_priv C k -> kp_rsa k = None ->
  marshal_priv k = Ok b -> unmarshal_priv C b = Ok (Some k).
Proof. exact priv_stable. Qed.
Print Assumptions C61_stable.

Example C61_example_ec : proper_priv toy (priv_ec (ec_key toy 5)).
Proof. apply (ProperEc toy 5 6 5); vm_compute; reflexivity. Qed.
Example C61_example_ed : proper_priv toy (priv_ed (be 32 77 ++ ed_of_seed toy (be 32 77))).
Proof. apply ProperEd. reflexivity. Qed.
Example C61_example_rsa : proper_priv toy (priv_rsa
  {| rs_public := {| rq_n := 3233; rq_e := 17 |}; rs_d := 413; rs_primes := [61; 53];
     rs_pre := Some {| rp_dp := 53; rp_dq := 49; rp_qinv := 38 |} |}).
Proof.
  apply ProperRsa; try reflexivity; try lia; repeat constructor; vm_compute; discriminate.
Qed.

(* A stored private key is a canonical RFC 8152 document of its numbers. *)
Theorem C61_private_document : forall C k b, proper_priv C k -> marshal_priv k = Ok b ->
  match kp_ec k, kp_ed k, kp_rsa k with
  | Some e, _, _ => 0 < ec_d e ->
      canonical (cose_ec2 1 (big_bytes (eq_x (ec_public e))) (big_bytes (eq_y (ec_public e))) (Some (big_bytes (ec_d e)))) b
  | None, Some s, _ => wfb s -> len s = 64 -> canonical (cose_ed25519 (skipn 32 s) (Some (firstn 32 s))) b
  | None, None, Some r => forall p q pre, rs_primes r = [p; q] -> rs_pre r = Some pre ->
      Forall (fun n => 0 < n) [rs_d r; p; q; rp_dp pre; rp_dq pre; rp_qinv pre] ->
      canonical (cose_rsa_private (big_bytes (rq_n (rs_public r))) (be 4 (Z.to_N (rq_e (rs_public r) mod 4294967296)))
        (big_bytes (rs_d r)) (big_bytes p) (big_bytes q) (big_bytes (rp_dp pre)) (big_bytes (rp_dq pre)) (big_bytes (rp_qinv pre))) b
  | None, None, None => False
  end.
Proof. exact priv_document. Qed.
Print Assumptions C61_private_document.

(* The reader takes the numbers of the document and insists on the curve. *)
Theorem C61_private_read : forall C crv x y d b, (-128 <= crv < 128)%Z -> d <> [] ->
  canonical (cose_ec2 crv x y (Some d)) b ->
  unmarshal_priv C b = if (crv =? 1)%Z
    then Ok (Some (priv_ec {| ec_public := {| eq_curve := P256; eq_x := be_dec x; eq_y := be_dec y |}; ec_d := be_dec d |}))
    else Panic.
Proof. exact read_ec_priv. Qed.
Print Assumptions C61_private_read.

(* A key of another curve is never written. *)
Theorem C61_other_curve : forall x y d, let k := {| eq_curve := OtherCurve; eq_x := x; eq_y := y |} in
  marshal_pub (pub_ec k) = Panic /\ marshal_priv (priv_ec {| ec_public := k; ec_d := d |}) = Panic.
Proof. exact other_curve. Qed.
Print Assumptions C61_other_curve.

Example C61_example_read :
  canonical (cose_ec2 2 [1; 2] [3] (Some [4; 5])) (cenc (cose_ec2 2 [1; 2] [3] (Some [4; 5]))) /\
  canonical (cose_ec2 1 [1; 2] [3] (Some [4; 5])) (cenc (cose_ec2 1 [1; 2] [3] (Some [4; 5]))).
Proof.
  assert (wfb [1; 2] /\ wfb [3] /\ wfb [4; 5]) as (A & B & D) by (repeat split; repeat constructor).
  split; unfold cose_ec2; canon_doc.
Qed.

(* ---------------------------------------------------------------- C62 *)
Definition C62_full : Prop := forall k, proper_pub k ->
  exists b k', marshal_pub k = Ok b /\ unmarshal_pub b = Ok (Some k') /\ cose_pub_equal k k' = true /\
    (forall e, kq_ec k = Some e -> canonical (cose_es256 (be 32 (eq_x e)) (be 32 (eq_y e))) b).

Theorem C62_ecdsa_partial : forall x y, x < 2 ^ 256 -> y < 2 ^ 256 ->
  let k := pub_ec {| eq_curve := P256; eq_x := x; eq_y := y |} in
  exists b, marshal_pub k = Ok b /\ unmarshal_pub b = Ok (Some k) /\ cose_pub_equal k k = true /\
    canonical (cose_es256 (big_bytes x) (big_bytes y)) b.
Proof. exact pub_ecdsa. Qed.
Print Assumptions C62_ecdsa_partial.

(* The encoding has 32-byte coordinates exactly when neither starts with a zero byte. *)
Theorem C62_coordinates_partial : forall x, x < 2 ^ 256 ->
  (big_bytes x = be 32 x <-> 2 ^ 248 <= x) /\ len (big_bytes x) <= 32 /\ be_dec (big_bytes x) = x.
Proof. exact coordinate_len. Qed.
Print Assumptions C62_coordinates_partial.

(* Ed25519 keys are written canonically and come back as they were, but Equal denies it. *)
Theorem C62_ed25519_partial : forall k, wfb k -> len k = 32 ->
  exists b, marshal_pub (pub_ed k) = Ok b /\ canonical (cose_ed25519 k None) b /\ unmarshal_pub b = Ok (Some (pub_ed k)).
Proof. exact ed_pub_document. Qed.
Print Assumptions C62_ed25519_partial.

(* The reader of ECDSA keys takes the numbers of the document and insists on the curve. *)
Theorem C62_ecdsa_read_partial : forall crv x y b, (-128 <= crv < 128)%Z -> canonical (cose_ec2 crv x y None) b ->
  unmarshal_pub b = if (crv =? 1)%Z
    then Ok (Some (pub_ec {| eq_curve := P256; eq_x := be_dec x; eq_y := be_dec y |})) else Panic.
Proof. exact read_ec_pub. Qed.
Print Assumptions C62_ecdsa_read_partial.

Theorem C62_ed25519_equal_never : forall k k', cose_pub_equal (pub_ed k) (pub_ed k') = false.
Proof. reflexivity. Qed.
Print Assumptions C62_ed25519_equal_never.

(* No RSA public key can be read back: the exponent is lost and the reader panics. *)
Theorem C62_rsa_refuted : forall n e, N.size n <= 1000000 ->
  exists b, marshal_pub (pub_rsa {| rq_n := n; rq_e := e |}) = Ok b /\ unmarshal_pub b = Panic /\
    forall e', marshal_pub (pub_rsa {| rq_n := n; rq_e := e' |}) = Ok b.
Proof. exact pub_rsa_lost. Qed.
Print Assumptions C62_rsa_refuted.

(* A point of the curve whose encoding is not a valid COSE P-256 key. *)
Theorem C62_coordinates_refuted : exists x y b, on_p256 x y /\
  marshal_pub (pub_ec {| eq_curve := P256; eq_x := x; eq_y := y |}) = Ok b /\
  ~ canonical (cose_es256 (be 32 x) (be 32 y)) b.
Proof. exact pub_ec_short. Qed.
Print Assumptions C62_coordinates_refuted.

Theorem C62_not_full_refuted : ~ C62_full.
Proof.
  intro H. destruct (H (pub_ed (zeros 32))) as (b & k' & _ & E & Eq & _).
  - constructor; [repeat constructor | reflexivity].
  - destruct k' as [e [d|] r]; cbn in Eq; destruct e; discriminate.
Qed.
Print Assumptions C62_not_full_refuted.

Example C62_example : proper_pub (pub_ec {| eq_curve := P256; eq_x := 5; eq_y := 31468013646237722594854082025316614106172411895747863909393730389177298123724 |}).
Proof. constructor; reflexivity. Qed.

(* ---------------------------------------------------------------- C63 *)
Theorem C63_cbc_inverse : forall C key data, laws C ->
  aes_key key -> len data mod 16 = 0 -> wfb data ->
  exists c, encrypt_cbc C key data = Ok c /\ len c = len data /\ wfb c /\ decrypt_cbc C key c = Ok data.
Proof. exact decrypt_encrypt_cbc. Qed.
Print Assumptions C63_cbc_inverse.

(* The mode is CBC with a zero initialisation vector. *)
Theorem C63_cbc_mode : forall C key data c i, laws C ->
  encrypt_cbc C key data = Ok c -> (16 * i < length data)%nat ->
  block i c = aes_enc C key (xor (block i data) (match i with O => zeros 16 | S j => block j c end)).
Proof. exact encrypt_cbc_blocks. Qed.
Print Assumptions C63_cbc_mode.

Theorem C63_otherwise_panics : forall C key data,
  ~ (aes_key key /\ len data mod 16 = 0) ->
  encrypt_cbc C key data = Panic /\ decrypt_cbc C key data = Panic.
Proof. exact cbc_panics. Qed.
Print Assumptions C63_otherwise_panics.

Example C63_example : exists c, encrypt_cbc toy (zeros 32) (be 48 123456) = Ok c /\
  decrypt_cbc toy (zeros 32) c = Ok (be 48 123456) /\ encrypt_cbc toy (zeros 32) (be 47 1) = Panic /\
  encrypt_cbc toy (zeros 31) (be 48 1) = Panic.
Proof. eexists. vm_compute. auto. Qed.

(* ---------------------------------------------------------------- C65 *)
(* The bytes written are the base-256 digits, in either order. *)
Theorem C65_digits : forall n v i, (i < n)%nat ->
  nth i (le n v) 0 = (v / 256 ^ N.of_nat i) mod 256 /\
  nth i (be n v) 0 = (v / 256 ^ N.of_nat (n - 1 - i)) mod 256 /\
  length (le n v) = n /\ length (be n v) = n.
Proof. exact codec_digits. Qed.
Print Assumptions C65_digits.

Theorem C65_read_back : forall n v rest, v < 256 ^ N.of_nat n ->
  read_le n (le n v ++ rest) = Ok (v, rest) /\ read_be n (be n v ++ rest) = Ok (v, rest) /\
  from_be n (be n v) = Ok v.
Proof. exact codec_read_back. Qed.
Print Assumptions C65_read_back.

Theorem C65_short_reads : forall n buf,
  (read_le n buf = Panic <-> len buf < N.of_nat n) /\ (read_be n buf = Panic <-> len buf < N.of_nat n).
Proof. exact codec_short. Qed.
Print Assumptions C65_short_reads.

(* What is read is determined by the bytes, and nothing is lost. *)
Theorem C65_read_write : forall n buf v rest, wfb buf ->
  (read_le n buf = Ok (v, rest) -> buf = le n v ++ rest /\ v < 256 ^ N.of_nat n) /\
  (read_be n buf = Ok (v, rest) -> buf = be n v ++ rest /\ v < 256 ^ N.of_nat n).
Proof. exact codec_read_write. Qed.
Print Assumptions C65_read_write.

Example C65_example : read_le 4 [1; 2; 3; 4; 5] = Ok (67305985, [5]) /\
  read_be 4 [1; 2; 3; 4; 5] = Ok (16909060, [5]) /\ read_be 4 [1; 2; 3] = Panic.
Proof. vm_compute. auto. Qed.

(* ---------------------------------------------------------------- C68 *)
Theorem C68_sign_verify : forall C k data rnd, laws C -> sign_laws C -> key_pair C k ->
  exists q sig, cose_public k = Ok q /\ cose_sign C k data rnd = Ok sig /\ cose_verify C q data sig = Ok true.
Proof. exact sign_verify. Qed.
Print Assumptions C68_sign_verify.

Theorem C68_stored_key_signs : forall C k data rnd, laws C -> sign_laws C -> proper_priv C k -> key_pair C k ->
  exists q b k' sig, cose_public k = Ok q /\ marshal_priv k = Ok b /\ unmarshal_priv C b = Ok (Some k') /\
    cose_sign C k' data rnd = Ok sig /\ cose_verify C q data sig = Ok true.
Proof. exact stored_key_signs. Qed.
Print Assumptions C68_stored_key_signs.

Example C68_laws : laws toy /\ sign_laws toy.
Proof. split; [apply toy_laws|apply toy_sign_laws]. Qed.
Example C68_example_ec : key_pair toy (priv_ec (ec_key toy 5)).
Proof. constructor. split; reflexivity. Qed.
Example C68_example_ed : key_pair toy (priv_ed (be 32 77 ++ ed_of_seed toy (be 32 77))).
Proof. constructor. reflexivity. Qed.
(* p = 5, q = 7, e = 5, d = 5 *)
Example C68_example_rsa : rsa_pair toy {| rs_public := {| rq_n := 5 * 7; rq_e := 5 |}; rs_d := 5; rs_primes := [5; 7];
  rs_pre := Some {| rp_dp := 0; rp_dq := 5; rp_qinv := 2 |} |}.
Proof.
  constructor; try reflexivity; constructor; try lia;
    intros n H; apply Znumtheory.Zgcd_1_rel_prime; cbn;
    assert (X : (n = 1 \/ n = 2 \/ n = 3 \/ n = 4 \/ n = 5 \/ n = 6)%Z) by (cbn in H; lia);
    cbn in H; repeat (destruct X as [->|X]; [reflexivity|]); subst; try reflexivity; lia.
Qed.
