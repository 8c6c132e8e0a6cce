(* Certificates in the device: how certificate creation is connected to it, and what relying
   parties check. *)
From Verif Require Import Base M_Crypto S_Crypto M_Cose M_Str M_State M_Client M_X509 S_X509.

(* The same date and time ten years later; 1 March for a 29 February. *)
Definition ten_years_after (d e : date) : Prop :=
  d_year e = d_year d + 10 /\ d_hour e = d_hour d /\ d_minute e = d_minute d /\ d_second e = d_second d /\
  (if (d_month d =? 2) && (d_day d =? 29) then d_month e = 3 /\ d_day e = 1
   else d_month e = d_month d /\ d_day e = d_day d).

(* A parent certificate that can be read: version 3, no extension twice, a readable identifier. *)
Definition readable (ca : bytes) (va : certificate) : Prop :=
  read_certificate ca = Some va /\ ce_version va = 3 /\ NoDup (map fst (ce_extensions va)) /\
  (ext_value [85; 29; 14] (ce_extensions va) <> None -> subject_key_id va <> None).

(* The coordinates of an authority's key are those of points. *)
Definition sized (k : cose_priv) : Prop :=
  match kp_ec k with Some e => eq_x (ec_public e) < 2 ^ 256 /\ eq_y (ec_public e) < 2 ^ 256 | None => True end.

(* The certificates of the device are those of M_X509, made with some clock, randomness and
   SHA-1; they contain nothing but bytes. *)
Definition certifies (E : Env) (sha1 : bytes -> bytes) (before after : N -> date) (rnd : N -> bytes) : Prop :=
  (forall t ca k p b, e_make_cert E t ca k p = Some b <->
     create_attestation_certificate (e_C E) sha1 (rnd t) (before t) (after t) ca k p = Some b /\ wfb b) /\
  forall t, proper_date (before t) /\ proper_date (after t) /\ d_year (after t) <= 9989.

(* WebAuthn 8.2: the verification procedure for packed attestation with x5c.  If the certificate
   has the AAGUID extension (1.3.6.1.4.1.45724.1.1.4), it is the AAGUID of the authenticator data. *)
Definition packed_accepts (C : Crypto) (strict : bool) (auth hash sig cert : bytes) : bool :=
  match read_certificate cert with
  | Some c =>
    packed_certificate strict c &&
    match ec_point c with
    | Some q => ecdsa_verify C q (sha256 C (auth ++ hash)) sig
    | None => false
    end &&
    match ext_value [43; 6; 1; 4; 1; 130; 229; 28; 1; 1; 4] (ce_extensions c) with
    | Some v => bytes_eqb v ([4; 16] ++ takeN 16 (dropN 37 auth))
    | None => true
    end
  | None => false
  end.
