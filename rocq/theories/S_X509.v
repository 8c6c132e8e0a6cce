(* Reading certificates (X.690 DER, RFC 5280), and what relying parties require of them. *)
From Verif Require Import Base M_Crypto M_Str M_X509.

(* ---- DER: the first element of a string of bytes: tag, contents, the element itself, the rest *)
Definition element (b : bytes) : option (N * bytes * bytes * bytes) :=
  match b with
  | tag :: l :: rest =>
    let '(header, size) := if l <? 128 then (0, Some l)
                           else let n := l - 128 in
                                let v := be_dec (takeN n rest) in
                                (* at most four bytes of length, and no more than needed *)
                                (n, if (1 <=? n) && (n <=? 4) && (n <=? len rest) && (128 <=? v) && (256 ^ (n - 1) <=? v)
                                    then Some v else None) in
    match size with
    | Some s =>
      let body := dropN header rest in
      if negb (tag mod 32 =? 31) && (s <=? len body)
      then Some (tag, takeN s body, tag :: l :: takeN header rest ++ takeN s body, dropN s body)
      else None
    | None => None
    end
  | _ => None
  end.

(* All elements of a string of bytes. *)
Fixpoint elements_upto (fuel : nat) (b : bytes) : option (list (N * bytes)) :=
  match b, fuel with
  | [], _ => Some []
  | _, O => None
  | _, S f =>
    match element b with
    | Some (t, c, _, rest) => match elements_upto f rest with Some l => Some ((t, c) :: l) | None => None end
    | None => None
    end
  end.
Definition elements (b : bytes) : option (list (N * bytes)) := elements_upto (length b) b.

(* ---- RFC 5280, 4.1 *)
Definition digits (a b : N) : option N :=
  if (48 <=? a) && (a <=? 57) && (48 <=? b) && (b <=? 57) then Some (10 * (a - 48) + (b - 48)) else None.
Fixpoint pairs (b : bytes) : option (list N) :=
  match b with
  | [90] => Some []
  | x :: y :: r => match digits x y, pairs r with Some n, Some l => Some (n :: l) | _, _ => None end
  | _ => None
  end.
(* UTCTime: the years 1950 to 2049; GeneralizedTime. *)
Definition read_time (e : N * bytes) : option date :=
  match fst e, pairs (snd e) with
  | 23, Some [y; mo; d; h; mi; s] => Some (mk_date (if y <? 50 then 2000 + y else 1900 + y) mo d h mi s)
  | 24, Some [c; y; mo; d; h; mi; s] => Some (mk_date (100 * c + y) mo d h mi s)
  | _, _ => None
  end.

(* A name: attributes with the tag of their text. *)
Definition read_attribute (e : N * bytes) : option (bytes * (N * bytes)) :=
  match e with
  | (49, c) =>
    match elements c with
    | Some [(48, c)] => match elements c with Some [(6, oid); (tag, text)] => Some (oid, (tag, text)) | _ => None end
    | _ => None
    end
  | _ => None
  end.
Fixpoint all_some {A B} (f : A -> option B) (l : list A) : option (list B) :=
  match l with
  | [] => Some []
  | x :: r => match f x, all_some f r with Some y, Some l => Some (y :: l) | _, _ => None end
  end.
Definition read_name (c : bytes) : option (list (bytes * (N * bytes))) :=
  match elements c with Some l => all_some read_attribute l | None => None end.

Definition read_extension (e : N * bytes) : option (bytes * (bool * bytes)) :=
  match e with
  | (48, c) =>
    match elements c with
    | Some [(6, oid); (4, v)] => Some (oid, (false, v))
    | Some [(6, oid); (1, [255]); (4, v)] => Some (oid, (true, v))
    | _ => None
    end
  | _ => None
  end.

Record certificate : Type := {
  ce_signed : bytes;                       (* tbsCertificate, as signed *)
  ce_version : N; ce_serial : bytes; ce_algorithm : bytes; ce_issuer : bytes;
  ce_before : date; ce_after : date; ce_subject : bytes;
  ce_key_algorithm : bytes; ce_key : bytes;
  ce_extensions : list (bytes * (bool * bytes)); ce_signature : bytes }.

Definition read_certificate (b : bytes) : option certificate :=
  match elements b with
  | Some [(48, c)] =>
    match element c, elements c with
    | Some (_, _, signed, _), Some [(48, tbs); (48, alg); (3, 0 :: sig)] =>
      match elements tbs with
      | Some [(160, v); (2, serial); (48, alg'); (48, issuer); (48, validity); (48, subject); (48, info); (163, x)] =>
        match elements v, elements validity, elements info, elements x with
        | Some [(2, [version])], Some [t1; t2], Some [(48, key_alg); (3, 0 :: key)], Some [(48, x)] =>
          match read_time t1, read_time t2, elements x with
          | Some before, Some after, Some l =>
            match all_some read_extension l with
            | Some exts =>
              if bytes_eqb alg alg' then
                Some {| ce_signed := signed; ce_version := 1 + version; ce_serial := serial; ce_algorithm := alg;
                        ce_issuer := issuer; ce_before := before; ce_after := after; ce_subject := subject;
                        ce_key_algorithm := key_alg; ce_key := key; ce_extensions := exts; ce_signature := sig |}
              else None
            | None => None
            end
          | _, _, _ => None
          end
        | _, _, _, _ => None
        end
      | _ => None
      end
    | _, _ => None
    end
  | _ => None
  end.

(* The value of an extension. *)
Fixpoint ext_value (oid : bytes) (l : list (bytes * (bool * bytes))) : option bytes :=
  match l with
  | [] => None
  | (o, (_, v)) :: r => if bytes_eqb o oid then Some v else ext_value oid r
  end.
(* 4.2.1.9: is it a CA? *)
Definition ca_flag (c : certificate) : option bool :=
  match ext_value [85; 29; 19] (ce_extensions c) with
  | None => None
  | Some v => match elements v with
              | Some [(48, [])] => Some false
              | Some [(48, c)] => match elements c with Some [(1, [255])] => Some true | _ => None end
              | _ => None
              end
  end.
(* 4.2.1.3: bit [i] of the key usage, the first bit of the string being bit 0. *)
Definition may (i : N) (c : certificate) : bool :=
  match ext_value [85; 29; 15] (ce_extensions c) with
  | Some v => match elements v with Some [(3, [_; x])] => N.testbit x (7 - i) | _ => false end
  | None => false
  end.
(* 4.2.1.1 and 4.2.1.2 *)
Definition subject_key_id (c : certificate) : option bytes :=
  match ext_value [85; 29; 14] (ce_extensions c) with
  | Some v => match elements v with Some [(4, i)] => Some i | _ => None end
  | None => None
  end.
Definition authority_key_id (c : certificate) : option bytes :=
  match ext_value [85; 29; 35] (ce_extensions c) with
  | Some v => match elements v with
              | Some [(48, c)] => match elements c with Some [(128, i)] => Some i | _ => None end
              | _ => None
              end
  | None => None
  end.

(* The P-256 key of a certificate: id-ecPublicKey with the curve, an uncompressed point. *)
Definition ec_point (c : certificate) : option (N * N) :=
  match elements (ce_key_algorithm c), ce_key c with
  | Some [(6, [42; 134; 72; 206; 61; 2; 1]); (6, [42; 134; 72; 206; 61; 3; 1; 7])], 4 :: p =>
    if len p =? 64 then Some (be_dec (takeN 32 p), be_dec (dropN 32 p)) else None
  | _, _ => None
  end.
Definition ed_point (c : certificate) : option bytes :=
  match elements (ce_key_algorithm c) with
  | Some [(6, [43; 101; 112])] => Some (ce_key c)
  | _ => None
  end.

(* The signature of [c] is by the key of [by]: ECDSA with SHA-256, or Ed25519. *)
Definition signed_by (C : Crypto) (by_ c : certificate) : bool :=
  match elements (ce_algorithm c) with
  | Some [(6, [42; 134; 72; 206; 61; 4; 3; 2])] =>
    match ec_point by_ with
    | Some q => ecdsa_verify C q (sha256 C (ce_signed c)) (ce_signature c)
    | None => false
    end
  | Some [(6, [43; 101; 112])] =>
    match ed_point by_ with
    | Some q => ed_verify C q (ce_signed c) (ce_signature c)
    | None => false
    end
  | _ => false
  end.

(* ---- dates *)
Definition month_days (y m : N) : N :=
  if m =? 2 then (if (y mod 4 =? 0) && (negb (y mod 100 =? 0) || (y mod 400 =? 0)) then 29 else 28)
  else if (m =? 4) || (m =? 6) || (m =? 9) || (m =? 11) then 30 else 31.
Definition proper_date (d : date) : Prop :=
  d_year d <= 9999 /\ 1 <= d_month d <= 12 /\ 1 <= d_day d <= month_days (d_year d) (d_month d) /\
  d_hour d <= 23 /\ d_minute d <= 59 /\ d_second d <= 59.
(* Seconds, with every month given 31 days: enough to compare. *)
Definition instant (d : date) : N :=
  ((((d_year d * 12 + d_month d) * 32 + d_day d) * 24 + d_hour d) * 60 + d_minute d) * 60 + d_second d.
Definition valid_at (now : date) (c : certificate) : bool :=
  (instant (ce_before c) <=? instant now) && (instant now <=? instant (ce_after c)).

(* ---- RFC 5280, 6.1, for a certificate directly under a trust anchor given by a certificate *)
Definition chains (C : Crypto) (now : date) (anchor c : certificate) : bool :=
  bytes_eqb (ce_issuer c) (ce_subject anchor) && signed_by C anchor c && valid_at now anchor && valid_at now c &&
  match ca_flag anchor with Some b => b | None => false end && may 5 anchor &&
  match authority_key_id c, subject_key_id anchor with Some a, Some b => bytes_eqb a b | None, _ => true | _, None => false end.

(* ---- WebAuthn, 8.2.1: packed attestation certificates.  [strict]: the types of strings, too. *)
Definition attribute (oid : bytes) (l : list (bytes * (N * bytes))) : option (N * bytes) :=
  match filter (fun x => bytes_eqb (fst x) oid) l with [(_, v)] => Some v | _ => None end.
Definition utf8 (strict : bool) (v : option (N * bytes)) : bool :=
  match v with Some (tag, text) => (negb strict || (tag =? 12)) && (1 <=? len text) | None => false end.
Definition packed_certificate (strict : bool) (c : certificate) : bool :=
  (ce_version c =? 3) &&
  match read_name (ce_subject c) with
  | Some n =>
    match attribute [85; 4; 6] n with Some (tag, text) => (tag =? 19) && (len text =? 2) | None => false end &&
    utf8 strict (attribute [85; 4; 10] n) && utf8 strict (attribute [85; 4; 3] n) &&
    utf8 strict (attribute [85; 4; 11] n) &&
    match attribute [85; 4; 11] n with Some (_, text) => bytes_eqb text (str "Authenticator Attestation") | None => false end
  | None => false
  end &&
  match ca_flag c with Some b => negb b | None => false end.

(* ---- FIDO U2F Raw Message Formats, 4.3: taking a registration response apart *)
Definition take_apart (r : bytes) : option (bytes * bytes * bytes * bytes) :=
  match r with
  | 5 :: r =>
    if len r <? 66 then None
    else
      let pk := takeN 65 r in
      match dropN 65 r with
      | n :: r =>
        let h := takeN n r in
        match element (dropN n r) with
        | Some (_, _, cert, rest) =>
          if len rest <? 2 then None
          else if bytes_eqb (dropN (len rest - 2) rest) [0x90; 0] then Some (pk, h, cert, takeN (len rest - 2) rest) else None
        | None => None
        end
      | [] => None
      end
  | _ => None
  end.

(* What the relying party checks of it, knowing application and challenge. *)
Definition u2f_accepts (C : Crypto) (app chal r : bytes) : bool :=
  match take_apart r with
  | Some (pk, h, cert, sig) =>
    match read_certificate cert with
    | Some c =>
      match ec_point c with
      | Some q => ecdsa_verify C q (sha256 C ([0] ++ app ++ chal ++ h ++ pk)) sig
      | None => false
      end
    | None => false
    end
  | None => false
  end.
