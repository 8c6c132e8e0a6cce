(* Model of cose/cose.go. *)
From Verif Require Import Base M_Util M_Cbor M_Crypto.

(* cose/cose.go:17-41. *)
Definition ALG_ES256 : Z := -7.
Definition ALG_ECDH_HKDF_256 : Z := -25.
Definition ALG_ED25519 : Z := -8.
Definition ALG_PS256 : Z := -37.
Definition CRV_P256 : Z := 1.
Definition CRV_ED25519 : Z := 6.
Definition KTY_OKP : Z := 1.
Definition KTY_EC2 : Z := 2.
Definition KTY_RSA : Z := 3.

(* cose/cose.go:43-47 and 100-104: three pointers, of which one should be set. *)
Record cose_priv : Type :=
  { kp_ec : option ec_priv; kp_ed : option ed_priv; kp_rsa : option rsa_priv }.
Record cose_pub : Type :=
  { kq_ec : option ec_pub; kq_ed : option ed_pub; kq_rsa : option rsa_pub }.

Definition priv_ec (k : ec_priv) : cose_priv := {| kp_ec := Some k; kp_ed := None; kp_rsa := None |}.
Definition priv_ed (k : ed_priv) : cose_priv := {| kp_ec := None; kp_ed := Some k; kp_rsa := None |}.
Definition priv_rsa (k : rsa_priv) : cose_priv := {| kp_ec := None; kp_ed := None; kp_rsa := Some k |}.
Definition pub_ec (k : ec_pub) : cose_pub := {| kq_ec := Some k; kq_ed := None; kq_rsa := None |}.
Definition pub_ed (k : ed_pub) : cose_pub := {| kq_ec := None; kq_ed := Some k; kq_rsa := None |}.
Definition pub_rsa (k : rsa_pub) : cose_pub := {| kq_ec := None; kq_ed := None; kq_rsa := Some k |}.

Definition curve_eqb (a b : curve) : bool :=
  match a, b with P256, P256 => true | OtherCurve, OtherCurve => true | _, _ => false end.

(* The Equal methods of the standard library; rsa.PrivateKey.Equal ignores
   Precomputed. *)
Definition ec_pub_eqb (a b : ec_pub) : bool :=
  (eq_x a =? eq_x b) && (eq_y a =? eq_y b) && curve_eqb (eq_curve a) (eq_curve b).
Definition ec_priv_eqb (a b : ec_priv) : bool :=
  ec_pub_eqb (ec_public a) (ec_public b) && (ec_d a =? ec_d b).
Definition rsa_pub_eqb (a b : rsa_pub) : bool := (rq_n a =? rq_n b) && (rq_e a =? rq_e b)%Z.
Definition rsa_priv_eqb (a b : rsa_priv) : bool :=
  rsa_pub_eqb (rs_public a) (rs_public b) && (rs_d a =? rs_d b) &&
  bytes_eqb (rs_primes a) (rs_primes b).

Definition opt_eqb {A} (eqb : A -> A -> bool) (a b : option A) : bool :=
  match a, b with
  | None, None => true
  | Some a, Some b => eqb a b
  | _, _ => false
  end.

(* cose/cose.go:49-71, SupportedCOSEPrivateKey.Equal. *)
Definition cose_priv_equal (a b : cose_priv) : bool :=
  opt_eqb ec_priv_eqb (kp_ec a) (kp_ec b) &&
  opt_eqb bytes_eqb (kp_ed a) (kp_ed b) &&
  opt_eqb rsa_priv_eqb (kp_rsa a) (kp_rsa b).

(* cose/cose.go:106-128, SupportedCOSEPublicKey.Equal: for Ed25519 a pointer is passed
   to Equal, whose type assertion to ed25519.PublicKey then fails. *)
Definition cose_pub_equal (a b : cose_pub) : bool :=
  opt_eqb ec_pub_eqb (kq_ec a) (kq_ec b) &&
  opt_eqb (fun _ _ => false) (kq_ed a) (kq_ed b) &&
  opt_eqb rsa_pub_eqb (kq_rsa a) (kq_rsa b).

(* ed25519.PrivateKey.Public and Seed: slicing panics on fewer than 32 bytes. *)
Definition ed_public (k : ed_priv) : res ed_pub :=
  if len k <? 32 then Panic else Ok (pad (skipn 32 k) 32).
Definition ed_seed (k : ed_priv) : res bytes :=
  if len k <? 32 then Panic else Ok (firstn 32 k).

(* cose/cose.go:73-86, Public. *)
Definition cose_public (k : cose_priv) : res cose_pub :=
  match kp_ec k, kp_ed k, kp_rsa k with
  | Some e, _, _ => Ok (pub_ec (ec_public e))
  | None, Some e, _ => let? p := ed_public e in Ok (pub_ed p)
  | None, None, Some r => Ok (pub_rsa (rs_public r))
  | None, None, None => Panic
  end.

(* cose/cose.go:142-149, COSEEC2Key. *)
Record ec2_key : Type := {
  e2_kty : Z; e2_alg : Z; e2_crv : Z;
  e2_x : option bytes; e2_y : option bytes; e2_d : option bytes
}.

Definition empty_slice (b : option bytes) : bool :=
  match b with None => true | Some [] => true | Some (_ :: _) => false end.

Definition ec2_cbor (k : ec2_key) : cbor :=
  cstruct [fld (CInt 1) (CInt (e2_kty k)); fld (CInt 3) (CInt (e2_alg k));
           fld (CInt (-1)) (CInt (e2_crv k)); fld (CInt (-2)) (cbytes (e2_x k));
           fld (CInt (-3)) (cbytes (e2_y k));
           omit (empty_slice (e2_d k)) (fld (CInt (-4)) (cbytes (e2_d k)))].

Definition dec_ec2 (v : cbor) : option ec2_key :=
  let! l := dec_entries v in
  let! kty := get_int 1 dec_int8 l in
  let! alg := get_int 3 dec_int8 l in
  let! crv := get_int (-1) dec_int8 l in
  let! x := get_int (-2) dec_bytes l in
  let! y := get_int (-3) dec_bytes l in
  let! d := get_int (-4) dec_bytes l in
  Some {| e2_kty := kty; e2_alg := alg; e2_crv := crv; e2_x := x; e2_y := y; e2_d := d |}.

(* cose/cose.go:160-177, encodeECDSAPublicKey. *)
Definition encode_ecdsa_pub (k : ec_pub) : res bytes :=
  match eq_curve k with
  | P256 => Ok (marshal_cbor (ec2_cbor
      {| e2_kty := KTY_EC2; e2_alg := ALG_ES256; e2_crv := CRV_P256;
         e2_x := Some (big_bytes (eq_x k)); e2_y := Some (big_bytes (eq_y k)); e2_d := None |}))
  | OtherCurve => Panic
  end.

(* cose/cose.go:179-194, decodeECDSAPublicKey. *)
Definition decode_ecdsa_pub (b : bytes) : res ec_pub :=
  match unmarshal dec_ec2 b with
  | None => Panic
  | Some k =>
    if (e2_crv k =? CRV_P256)%Z
    then Ok {| eq_curve := P256; eq_x := big_set (or_nil (e2_x k)); eq_y := big_set (or_nil (e2_y k)) |}
    else Panic
  end.

(* cose/cose.go:196-214, encodeECDSAPrivateKey. *)
Definition encode_ecdsa_priv (k : ec_priv) : res bytes :=
  match eq_curve (ec_public k) with
  | P256 => Ok (marshal_cbor (ec2_cbor
      {| e2_kty := KTY_EC2; e2_alg := ALG_ES256; e2_crv := CRV_P256;
         e2_x := Some (big_bytes (eq_x (ec_public k))); e2_y := Some (big_bytes (eq_y (ec_public k)));
         e2_d := Some (big_bytes (ec_d k)) |}))
  | OtherCurve => Panic
  end.

(* cose/cose.go:216-233, decodeECDSAPrivateKey. *)
Definition decode_ecdsa_priv (b : bytes) : res ec_priv :=
  match unmarshal dec_ec2 b with
  | None => Panic
  | Some k =>
    if (e2_crv k =? CRV_P256)%Z
    then Ok {| ec_public := {| eq_curve := P256; eq_x := big_set (or_nil (e2_x k));
                               eq_y := big_set (or_nil (e2_y k)) |};
               ec_d := big_set (or_nil (e2_d k)) |}
    else Panic
  end.

(* cose/cose.go:235-241, COSEOKPKey. *)
Record okp_key : Type := {
  ok_kty : Z; ok_alg : Z; ok_crv : Z; ok_x : option bytes; ok_d : option bytes
}.

Definition okp_cbor (k : okp_key) : cbor :=
  cstruct [fld (CInt 1) (CInt (ok_kty k)); fld (CInt 3) (CInt (ok_alg k));
           fld (CInt (-1)) (CInt (ok_crv k)); fld (CInt (-2)) (cbytes (ok_x k));
           omit (empty_slice (ok_d k)) (fld (CInt (-4)) (cbytes (ok_d k)))].

Definition dec_okp (v : cbor) : option okp_key :=
  let! l := dec_entries v in
  let! kty := get_int 1 dec_int8 l in
  let! alg := get_int 3 dec_int8 l in
  let! crv := get_int (-1) dec_int8 l in
  let! x := get_int (-2) dec_bytes l in
  let! d := get_int (-4) dec_bytes l in
  Some {| ok_kty := kty; ok_alg := alg; ok_crv := crv; ok_x := x; ok_d := d |}.

(* cose/cose.go:243-251, encodeEd25519PublicKey. *)
Definition encode_ed_pub (k : ed_pub) : bytes :=
  marshal_cbor (okp_cbor {| ok_kty := KTY_OKP; ok_alg := ALG_ED25519; ok_crv := CRV_ED25519;
                            ok_x := Some k; ok_d := None |}).

(* cose/cose.go:253-258, decodeEd25519PublicKey; a nil slice is read as empty. *)
Definition decode_ed_pub (b : bytes) : res ed_pub :=
  match unmarshal dec_okp b with
  | None => Panic
  | Some k => Ok (or_nil (ok_x k))
  end.

(* cose/cose.go:260-270, encodeEd215519PrivateKey. *)
Definition encode_ed_priv (k : ed_priv) : res bytes :=
  let? p := ed_public k in
  let? s := ed_seed k in
  Ok (marshal_cbor (okp_cbor {| ok_kty := KTY_OKP; ok_alg := ALG_ED25519; ok_crv := CRV_ED25519;
                                ok_x := Some p; ok_d := Some s |})).

(* cose/cose.go:280-291, COSERSAKey. *)
Record cose_rsa : Type := {
  cr_kty : Z; cr_alg : Z; cr_n : option bytes; cr_e : option bytes; cr_d : option bytes;
  cr_p : option bytes; cr_q : option bytes; cr_dp : option bytes; cr_dq : option bytes;
  cr_qinv : option bytes
}.

Definition rsa_cbor (k : cose_rsa) : cbor :=
  let opt z b := omit (empty_slice b) (fld (CInt z) (cbytes b)) in
  cstruct [fld (CInt 1) (CInt (cr_kty k)); fld (CInt 3) (CInt (cr_alg k));
           fld (CInt (-1)) (cbytes (cr_n k)); fld (CInt (-2)) (cbytes (cr_e k));
           opt (-3)%Z (cr_d k); opt (-4)%Z (cr_p k); opt (-5)%Z (cr_q k);
           opt (-6)%Z (cr_dp k); opt (-7)%Z (cr_dq k); opt (-8)%Z (cr_qinv k)].

Definition dec_rsa (v : cbor) : option cose_rsa :=
  let! l := dec_entries v in
  let! kty := get_int 1 dec_int8 l in
  let! alg := get_int 3 dec_int8 l in
  let! n := get_int (-1) dec_bytes l in
  let! e := get_int (-2) dec_bytes l in
  let! d := get_int (-3) dec_bytes l in
  let! p := get_int (-4) dec_bytes l in
  let! q := get_int (-5) dec_bytes l in
  let! dp := get_int (-6) dec_bytes l in
  let! dq := get_int (-7) dec_bytes l in
  let! qinv := get_int (-8) dec_bytes l in
  Some {| cr_kty := kty; cr_alg := alg; cr_n := n; cr_e := e; cr_d := d; cr_p := p; cr_q := q;
          cr_dp := dp; cr_dq := dq; cr_qinv := qinv |}.

(* util/util.go:76-80, ToBE of a Go int: binary.Write rejects the type and its error is
   dropped, so the buffer stays empty and Bytes is nil. *)
Definition to_be_int (v : Z) : option bytes := None.

(* ToBE of an int32, and FromBE[int32]. *)
Definition to_be_i32 (v : Z) : bytes := be 4 (Z.to_N (v mod 4294967296)).
Definition to_i32 (v : Z) : Z :=
  let m := (v mod 4294967296)%Z in if (m <? 2147483648)%Z then m else (m - 4294967296)%Z.
Definition from_be_i32 (b : bytes) : res Z :=
  let? n := from_be 4 b in Ok (to_i32 (Z.of_N n)).

(* util/util.go:82-86 at type int: binary.Read rejects the type, hence a panic. *)
Definition from_be_int (b : bytes) : res Z := Panic.

(* cose/cose.go:293-301, encodeRSAPublicKey. *)
Definition encode_rsa_pub (k : rsa_pub) : bytes :=
  marshal_cbor (rsa_cbor {| cr_kty := KTY_RSA; cr_alg := ALG_PS256; cr_n := Some (big_bytes (rq_n k));
    cr_e := to_be_int (rq_e k); cr_d := None; cr_p := None; cr_q := None;
    cr_dp := None; cr_dq := None; cr_qinv := None |}).

(* cose/cose.go:303-312, decodeRSAPublicKey. *)
Definition decode_rsa_pub (b : bytes) : res rsa_pub :=
  match unmarshal dec_rsa b with
  | None => Panic
  | Some k =>
    let? e := from_be_int (or_nil (cr_e k)) in
    Ok {| rq_n := big_set (or_nil (cr_n k)); rq_e := e |}
  end.

(* cose/cose.go:314-329, encodeRSAPrivateKey: panics without two primes or without
   precomputed values. *)
Definition encode_rsa_priv (k : rsa_priv) : res bytes :=
  match rs_primes k, rs_pre k with
  | p :: q :: _, Some pre =>
    Ok (marshal_cbor (rsa_cbor {| cr_kty := KTY_RSA; cr_alg := ALG_PS256;
      cr_n := Some (big_bytes (rq_n (rs_public k)));
      cr_e := Some (to_be_i32 (to_i32 (rq_e (rs_public k))));
      cr_d := Some (big_bytes (rs_d k)); cr_p := Some (big_bytes p); cr_q := Some (big_bytes q);
      cr_dp := Some (big_bytes (rp_dp pre)); cr_dq := Some (big_bytes (rp_dq pre));
      cr_qinv := Some (big_bytes (rp_qinv pre)) |}))
  | _, _ => Panic
  end.

(* cose/cose.go:362-365, COSEKeyHeader. *)
Definition dec_header_alg (v : cbor) : option Z :=
  let! l := dec_entries v in
  let! _ := get_int 1 dec_int8 l in
  get_int 3 dec_int8 l.

(* cose/cose.go:350-360, MarshalCOSEPublicKey. *)
Definition marshal_pub (k : cose_pub) : res bytes :=
  match kq_ec k, kq_ed k, kq_rsa k with
  | Some e, _, _ => encode_ecdsa_pub e
  | None, Some e, _ => Ok (encode_ed_pub e)
  | None, None, Some r => Ok (encode_rsa_pub r)
  | None, None, None => Panic
  end.

(* cose/cose.go:367-388, UnmarshalCOSEPublicKey; the inner None is a returned error. *)
Definition unmarshal_pub (b : bytes) : res (option cose_pub) :=
  match unmarshal dec_header_alg b with
  | None => Ok None
  | Some alg =>
    if (alg =? ALG_ES256)%Z then let? k := decode_ecdsa_pub b in Ok (Some (pub_ec k))
    else if (alg =? ALG_ED25519)%Z then let? k := decode_ed_pub b in Ok (Some (pub_ed k))
    else if (alg =? ALG_PS256)%Z then let? k := decode_rsa_pub b in Ok (Some (pub_rsa k))
    else Ok None
  end.

(* cose/cose.go:390-400, MarshalCOSEPrivateKey. *)
Definition marshal_priv (k : cose_priv) : res bytes :=
  match kp_ec k, kp_ed k, kp_rsa k with
  | Some e, _, _ => encode_ecdsa_priv e
  | None, Some e, _ => encode_ed_priv e
  | None, None, Some r => encode_rsa_priv r
  | None, None, None => Panic
  end.

Section Ops.
  Variable C : Crypto.

  (* cose/cose.go:88-98, Sign; ed25519.Sign panics unless the key has 64 bytes. *)
  Definition cose_sign (k : cose_priv) (data rnd : bytes) : res bytes :=
    match kp_ec k, kp_ed k, kp_rsa k with
    | Some e, _, _ => Ok (sign_ecdsa C e data rnd)
    | None, Some e, _ => if len e =? 64 then Ok (sign_ed25519 C e data) else Panic
    | None, None, Some r => Ok (sign_rsa C r data rnd)
    | None, None, None => Panic
    end.

  (* cose/cose.go:130-140, Verify; ed25519.Verify panics unless the key has 32 bytes. *)
  Definition cose_verify (k : cose_pub) (data sig : bytes) : res bool :=
    match kq_ec k, kq_ed k, kq_rsa k with
    | Some e, _, _ => Ok (verify_ecdsa C e data sig)
    | None, Some e, _ => if len e =? 32 then Ok (verify_ed25519 C e data sig) else Panic
    | None, None, Some r => Ok (verify_rsa C r data sig)
    | None, None, None => Panic
    end.

  (* cose/cose.go:272-278, decodeEd25519PrivateKey: NewKeyFromSeed panics unless the seed
     has 32 bytes. *)
  Definition decode_ed_priv (b : bytes) : res ed_priv :=
    match unmarshal dec_okp b with
    | None => Panic
    | Some k =>
      let s := or_nil (ok_d k) in
      if len s =? 32 then Ok (s ++ ed_of_seed C s) else Panic
    end.

  (* cose/cose.go:331-348, decodeRSAPrivateKey. *)
  Definition decode_rsa_priv (b : bytes) : res rsa_priv :=
    match unmarshal dec_rsa b with
    | None => Panic
    | Some k =>
      let? e := from_be_i32 (or_nil (cr_e k)) in
      let d := big_set (or_nil (cr_d k)) in
      let p := big_set (or_nil (cr_p k)) in
      let q := big_set (or_nil (cr_q k)) in
      let? pre := rsa_precompute C d p q in
      Ok {| rs_public := {| rq_n := big_set (or_nil (cr_n k)); rq_e := e |};
            rs_d := d; rs_primes := [p; q]; rs_pre := Some pre |}
    end.

  (* cose/cose.go:402-423, UnmarshalCOSEPrivateKey. *)
  Definition unmarshal_priv (b : bytes) : res (option cose_priv) :=
    match unmarshal dec_header_alg b with
    | None => Ok None
    | Some alg =>
      if (alg =? ALG_ES256)%Z then let? k := decode_ecdsa_priv b in Ok (Some (priv_ec k))
      else if (alg =? ALG_ED25519)%Z then let? k := decode_ed_priv b in Ok (Some (priv_ed k))
      else if (alg =? ALG_PS256)%Z then let? k := decode_rsa_priv b in Ok (Some (priv_rsa k))
      else Ok None
    end.
End Ops.
