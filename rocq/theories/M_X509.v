(* Model of identities/attestation.go with what it uses of crypto/x509, encoding/asn1,
   x/crypto/cryptobyte and time.  The behaviour of these libraries is modelled from knowledge of
   Go 1.19, not from source.  Certificate authorities have P-256 or Ed25519 keys; other kinds
   are not modelled (the functions return None, as for an error). *)
From Verif Require Import Base M_Crypto M_Cose M_Str.

(* ------------------------------------------------------------------ *)
(* encoding/asn1, Marshal: one byte of tag, the length, the contents    *)
Definition asn1_length (n : N) : bytes :=
  if n <? 128 then [n] else let b := big_bytes n in (128 + len b) :: b.
Definition asn1 (tag : N) (c : bytes) : bytes := tag :: asn1_length (len c) ++ c.
Definition asn1_seq (l : list bytes) : bytes := asn1 48 (concat l).
Definition asn1_oid (c : bytes) : bytes := asn1 6 c.
Definition asn1_octets (c : bytes) : bytes := asn1 4 c.
(* BitString whose BitLength is a multiple of 8. *)
Definition asn1_bits (c : bytes) : bytes := asn1 3 (0 :: c).

(* Object identifiers, encoded. *)
Definition oid_country : bytes := [85; 4; 6].
Definition oid_organization : bytes := [85; 4; 10].
Definition oid_unit : bytes := [85; 4; 11].
Definition oid_common_name : bytes := [85; 4; 3].
Definition oid_key_usage : bytes := [85; 29; 15].
Definition oid_ext_key_usage : bytes := [85; 29; 37].
Definition oid_basic_constraints : bytes := [85; 29; 19].
Definition oid_subject_key_id : bytes := [85; 29; 14].
Definition oid_authority_key_id : bytes := [85; 29; 35].
Definition oid_client_auth : bytes := [43; 6; 1; 5; 5; 7; 3; 2].
Definition oid_server_auth : bytes := [43; 6; 1; 5; 5; 7; 3; 1].
Definition oid_ec_public_key : bytes := [42; 134; 72; 206; 61; 2; 1].
Definition oid_p256 : bytes := [42; 134; 72; 206; 61; 3; 1; 7].
Definition oid_ecdsa_sha256 : bytes := [42; 134; 72; 206; 61; 4; 3; 2].
Definition oid_ed25519 : bytes := [43; 101; 112].

(* crypto/x509/pkix, Name.ToRDNSequence, for the attributes used here; encoding/asn1 writes a
   string as PrintableString when it can, which it can for the strings used here. *)
Definition rdn (oid text : bytes) : bytes := asn1 49 (asn1_seq [asn1_oid oid; asn1 19 text]).

(* ------------------------------------------------------------------ *)
(* time.Time in UTC, to the second.  Simplified: AddDate works in UTC, not in the local zone. *)
Record date : Type := mk_date { d_year : N; d_month : N; d_day : N; d_hour : N; d_minute : N; d_second : N }.
Definition leap_year (y : N) : bool := (y mod 4 =? 0) && (negb (y mod 100 =? 0) || (y mod 400 =? 0)).
(* time.Time.AddDate(10, 0, 0): a 29 February that does not exist becomes 1 March. *)
Definition add_ten_years (d : date) : date :=
  let y := d_year d + 10 in
  if (d_month d =? 2) && (d_day d =? 29) && negb (leap_year y)
  then mk_date y 3 1 (d_hour d) (d_minute d) (d_second d)
  else mk_date y (d_month d) (d_day d) (d_hour d) (d_minute d) (d_second d).

Definition digit (n : N) : N := 48 + n mod 10.
Definition two_digits (n : N) : bytes := [digit (n / 10); digit n].
Definition four_digits (n : N) : bytes := two_digits (n / 100) ++ two_digits (n mod 100).
(* encoding/asn1: UTCTime from 1950 to 2049, else GeneralizedTime; an error after 9999. *)
Definition asn1_time (d : date) : option bytes :=
  let rest := two_digits (d_month d) ++ two_digits (d_day d) ++ two_digits (d_hour d) ++
              two_digits (d_minute d) ++ two_digits (d_second d) ++ [90] in
  if (1950 <=? d_year d) && (d_year d <? 2050) then Some (asn1 23 (two_digits (d_year d mod 100) ++ rest))
  else if d_year d <=? 9999 then Some (asn1 24 (four_digits (d_year d) ++ rest))
  else None.

(* ------------------------------------------------------------------ *)
(* cryptobyte, readASN1: tag, contents, whole element and what follows. *)
Definition read_asn1 (b : bytes) : option (N * bytes * bytes * bytes) :=
  match b with
  | tag :: l :: rest =>
    if tag mod 32 =? 31 then None
    else if l <? 128 then
      if len rest <? l then None else Some (tag, takeN l rest, takeN (2 + l) b, dropN l rest)
    else
      let n := l - 128 in
      if (n =? 0) || (4 <? n) || (len rest <? n) then None
      else
        let v := be_dec (takeN n rest) in
        if (v <? 128) || (v / 256 ^ (n - 1) =? 0) then None
        else
          let body := dropN n rest in
          if len body <? v then None else Some (tag, takeN v body, takeN (2 + n + v) b, dropN v body)
  | _ => None
  end.
(* ReadASN1 and ReadASN1Element with a tag. *)
Definition read_tag (tag : N) (b : bytes) : option (bytes * bytes) :=
  let! (t, c, _, rest) := read_asn1 b in if t =? tag then Some (c, rest) else None.
Definition read_element (tag : N) (b : bytes) : option (bytes * bytes) :=
  let! (t, _, e, rest) := read_asn1 b in if t =? tag then Some (e, rest) else None.
(* SkipOptionalASN1 and ReadOptionalASN1: only the tag is looked at to see if it is there. *)
Definition has_tag (tag : N) (b : bytes) : bool := match b with t :: _ => t =? tag | [] => false end.
Definition skip_optional (tag : N) (b : bytes) : option bytes :=
  if has_tag tag b then let! (_, rest) := read_tag tag b in Some rest else Some b.

(* What CreateCertificate uses of the parent certificate. *)
Record authority : Type := { au_subject : bytes; au_key : bytes; au_key_id : bytes }.

(* crypto/x509, processExtensions, for the subject key identifier. *)
Fixpoint read_key_id (fuel : nat) (id b : bytes) : option bytes :=
  match b, fuel with
  | [], _ => Some id
  | _, O => None
  | _, S f =>
    let! (ext, rest) := read_tag 48 b in
    let! (oid, ext) := read_tag 6 ext in
    let! ext := skip_optional 1 ext in
    let! (value, _) := read_tag 4 ext in
    if bytes_eqb oid oid_subject_key_id
    then let! (id, _) := read_tag 4 value in read_key_id f id rest
    else read_key_id f id rest
  end.

(* crypto/x509, parseCertificate, for these fields of a certificate that ParseCertificate
   accepts; what it checks besides is e_cert_ok of M_Client. *)
Definition parse_authority (b : bytes) : option authority :=
  let! (cert, _) := read_tag 48 b in
  let! (tbs, _) := read_tag 48 cert in
  let! (version, tbs) := (if has_tag 160 tbs then
                            let! (v, rest) := read_tag 160 tbs in
                            let! (n, _) := read_tag 2 v in Some (be_dec n, rest)
                          else Some (0, tbs)) in
  let! (_, tbs) := read_tag 2 tbs in
  let! (_, tbs) := read_tag 48 tbs in
  let! (_, tbs) := read_tag 48 tbs in
  let! (_, tbs) := read_tag 48 tbs in
  let! (subject, tbs) := read_element 48 tbs in
  let! (key, tbs) := read_element 48 tbs in
  let! id := (if 0 <? version then
                let! tbs := skip_optional 129 tbs in
                let! tbs := skip_optional 130 tbs in
                if (version =? 2) && has_tag 163 tbs then
                  let! (x, _) := read_tag 163 tbs in
                  let! (x, _) := read_tag 48 x in
                  read_key_id (length x) [] x
                else Some []
              else Some []) in
  Some {| au_subject := subject; au_key := key; au_key_id := id |}.

(* ------------------------------------------------------------------ *)
(* crypto/x509, marshalPublicKey and publicKeyInfo: the bytes of the key, and the structure. *)
Definition key_bits (k : cose_pub) : option bytes :=
  match kq_ec k, kq_ed k with
  | Some e, _ => match eq_curve e with P256 => Some (point_bytes (eq_x e, eq_y e)) | OtherCurve => None end
  | None, Some e => Some e
  | None, None => None
  end.
Definition key_info (k : cose_pub) : option bytes :=
  let! bits := key_bits k in
  let alg := match kq_ec k with
             | Some _ => asn1_seq [asn1_oid oid_ec_public_key; asn1_oid oid_p256]
             | None => asn1_seq [asn1_oid oid_ed25519]
             end in
  Some (asn1_seq [alg; asn1_bits bits]).

(* crypto/x509, signingParamsForPublicKey. *)
Definition signature_algorithm (k : cose_priv) : bytes :=
  asn1_seq [asn1_oid (match kp_ec k with Some _ => oid_ecdsa_sha256 | None => oid_ed25519 end)].

(* crypto/x509, buildCertExtensions: an extension, and the ones used here in its order. *)
Definition extension (oid : bytes) (critical : bool) (value : bytes) : bytes :=
  asn1_seq [asn1_oid oid; if critical then asn1 1 [255] else []; asn1_octets value].
(* marshalKeyUsage: digitalSignature, or digitalSignature and keyCertSign. *)
Definition key_usage (is_ca : bool) : bytes := asn1 3 (if is_ca then [2; 132] else [7; 128]).
(* marshalBasicConstraints *)
Definition basic_constraints (is_ca : bool) : bytes := asn1_seq (if is_ca then [asn1 1 [255]] else []).
Definition extensions (is_ca : bool) (subject_id authority_id : bytes) : bytes :=
  asn1_seq [extension oid_key_usage true (key_usage is_ca);
            extension oid_ext_key_usage false (asn1_seq [asn1_oid oid_client_auth; asn1_oid oid_server_auth]);
            extension oid_basic_constraints true (basic_constraints is_ca);
            if len subject_id =? 0 then [] else extension oid_subject_key_id false (asn1_octets subject_id);
            if len authority_id =? 0 then []
            else extension oid_authority_key_id false (asn1_seq [asn1 128 authority_id])].

Section Create.
  Variable C : Crypto.
  Variable sha1 : bytes -> bytes.

  (* crypto/x509, CreateCertificate, and ParseCertificate of the result, of which only the
     length limit of cryptobyte is modelled.  [parent] is None for a certificate that is its
     own parent. *)
  Definition create_certificate (rnd subject : bytes) (is_ca : bool) (not_before not_after : date)
      (parent : option authority) (pub : cose_pub) (key : cose_priv) : option bytes :=
    let! own := (match cose_public key with Ok p => Some p | Panic => None end) in
    let! own_info := key_info own in
    let! bits := key_bits pub in
    let! info := key_info pub in
    let issuer := match parent with Some p => au_subject p | None => subject end in
    let authority_id := match parent with
                        | Some p => if bytes_eqb issuer subject then [] else au_key_id p
                        | None => []
                        end in
    let subject_id := if is_ca then sha1 bits else [] in
    if (match parent with Some p => bytes_eqb own_info (au_key p) | None => true end) then
      let! before := asn1_time not_before in
      let! after := asn1_time not_after in
      let alg := signature_algorithm key in
      let tbs := asn1_seq [asn1 160 (asn1 2 [2]); asn1 2 [0]; alg; issuer; asn1_seq [before; after]; subject;
                           info; asn1 163 (extensions is_ca subject_id authority_id)] in
      match cose_sign C key tbs rnd with
      | Ok sig =>
        match cose_verify C own tbs sig with
        | Ok true =>
          let cert := asn1_seq [tbs; alg; asn1_bits sig] in
          if len cert <? 4294967296 then Some cert else None
        | _ => None
        end
      | Panic => None
      end
    else None.

  (* identities/attestation.go:41-72, CreateSelfSignedAttestationCertificate.  [t1] and [t2] are
     what the two calls of time.Now return; the authority is given by its certificate. *)
  Definition attestation_subject : bytes :=
    asn1_seq [rdn oid_country (str "US"); rdn oid_organization (str "Self-Signed Virtual FIDO");
              rdn oid_unit (str "Authenticator Attestation"); rdn oid_common_name (str "Self-Signed Virtual FIDO")].
  Definition create_attestation_certificate (rnd : bytes) (t1 t2 : date) (ca : bytes) (ca_key : cose_priv)
      (target : cose_pub) : option bytes :=
    let! a := parse_authority ca in
    create_certificate rnd attestation_subject false t1 (add_ten_years t2) (Some a) target ca_key.

  (* identities/attestation.go:83-105, CreateSelfSignedCA. *)
  Definition ca_subject : bytes :=
    asn1_seq [rdn oid_country (str "US"); rdn oid_organization (str "Self-Signed Virtual FIDO")].
  Definition create_ca (rnd : bytes) (t1 t2 : date) (key : cose_priv) : option bytes :=
    let! pub := (match cose_public key with Ok p => Some p | Panic => None end) in
    create_certificate rnd ca_subject true t1 (add_ten_years t2) None pub key.

  (* identities/attestation.go:74-81, CreateCAPrivateKey, from the scalar drawn. *)
  Definition create_ca_key (d : N) : cose_priv := priv_ec (ec_key C d).
End Create.
