(* Properties C102..C108: the certificates that the device issues, as relying parties read them.
   [certifies] connects the certificate oracle of the device to the model of
   identities/attestation.go; [readable] says that the authority's certificate can be read. *)
From Verif Require Import Base M_Cbor M_Crypto M_Cose M_Str M_State M_Client M_Ctap M_U2f M_X509.
From Verif Require Import S_Crypto S_Cbor S_Cose S_State S_Client S_Ctap S_CtapReq S_U2f S_X509 S_X509Dev.
From Verif Require Import P_Crypto P_Cbor3 P_Ctap3 P_Toy P_Pin P_U2f2 P_X509a P_X509b P_X509c P_X509d P_X509e P_X509f P_X509g C_U2f.

Local Opaque xdev ctap_handle u2f_handle run toy_ca toy_va.

Definition p256 (x y : N) : cose_pub := pub_ec {| eq_curve := P256; eq_x := x; eq_y := y |}.

(* ---------------------------------------------------------------- C102 *)
(* Read back: an X.509 version 3 certificate for the key, issued in the name of and signed by the
   authority, for ten years, not for a CA. *)
Theorem C102_certificate : forall C sha1 rnd t1 t2 ca va ca_key x y cert, readable ca va -> sized ca_key ->
  proper_date t1 -> proper_date t2 -> d_year t2 <= 9989 -> x < 2 ^ 256 -> y < 2 ^ 256 ->
  create_attestation_certificate C sha1 rnd t1 t2 ca ca_key (p256 x y) = Some cert ->
  exists v, read_certificate cert = Some v /\ ce_version v = 3 /\
    ce_issuer v = ce_subject va /\ signed_by C va v = true /\ ec_point v = Some (x, y) /\
    ce_before v = t1 /\ ten_years_after t2 (ce_after v) /\ proper_date (ce_after v) /\
    ca_flag v = Some false /\ may 0 v = true /\ may 5 v = false /\
    (authority_key_id v = None \/ authority_key_id v = subject_key_id va) /\
    read_name (ce_subject v) =
      Some [([85; 4; 6], (19, str "US")); ([85; 4; 10], (19, str "Self-Signed Virtual FIDO"));
            ([85; 4; 11], (19, str "Authenticator Attestation")); ([85; 4; 3], (19, str "Self-Signed Virtual FIDO"))].
Proof.
  intros C sha1 rnd t1 t2 ca va ca_key x y cert Rd Z P1 P2 Y9 X Y H.
  destruct (attestation_read C sha1 _ _ _ _ _ _ _ _ _ Rd Z P1 P2 Y9 X Y H)
    as (v & cc & V1 & V2 & V3 & V4 & V5 & V6 & V7 & V8 & V9 & V10 & V11 & V12 & V13 & V14 & V15 & V16).
  exists v. rewrite V6, V8. do 6 (split; [assumption|]). split; [now apply ten_later|]. split; [now apply ten_years|].
  do 4 (split; [assumption|]). exact attestation_name.
Qed.
Print Assumptions C102_certificate.

Example C102_example : readable (toy_ca 5 today) (toy_va 5 today) /\ sized (create_ca_key toy 5) /\ proper_date today /\
  exists cert, create_attestation_certificate toy toy_sha1 [] today today (toy_ca 5 today) (create_ca_key toy 5) (p256 3 4) = Some cert.
Proof.
  split; [apply toy_readable|]. split; [apply toy_sized; split; reflexivity|]. split; [apply today_ok|]. eexists. vm_compute. reflexivity.
Qed.

(* ---------------------------------------------------------------- C103 *)
(* A U2F registration response is taken apart unambiguously -- the certificate ends where DER says --
   and the relying party accepts it: the signature verifies under the key in the certificate, which
   is the key of the response, certified by the authority. *)
Theorem C103_u2f_accepted : forall E sha1 before after rnd w msg w' r va, env_ok E -> certifies E sha1 before after rnd ->
  client_ok E (w_client w) -> readable (cl_cert (w_client w)) va -> sized (cl_certkey (w_client w)) -> wfb msg ->
  nth_error msg 1 = Some 1 -> u2f_handle E msg w = (w', Ok r) -> r <> refused ->
  exists p1 chal app pk h cert sig v, reads msg 1 p1 (chal ++ app) /\ len chal = 32 /\ len app = 32 /\
    u2f_accepts (e_C E) app chal r = true /\ take_apart r = Some (pk, h, cert, sig) /\
    read_certificate cert = Some v /\ ce_issuer v = ce_subject va /\ signed_by (e_C E) va v = true /\
    exists q, ec_point v = Some q /\ encodes_point pk q.
Proof. exact u2f_accepted. Qed.
Print Assumptions C103_u2f_accepted.

Example C103_example : env_ok (xE true) /\ certifies (xE true) toy_sha1 (fun _ => today) (fun _ => today) (fun _ => []) /\
  client_ok (xE true) (w_client (xdev 5)) /\ readable (cl_cert (w_client (xdev 5))) (toy_va 5 today) /\
  sized (cl_certkey (w_client (xdev 5))) /\ wfb (reg_msg chal1 appA) /\ nth_error (reg_msg chal1 appA) 1 = Some 1 /\
  exists r, snd (u2f_handle (xE true) (reg_msg chal1 appA) (xdev 5)) = Ok (5 :: r).
Proof.
  split; [apply xE_ok|]. split; [apply xE_certifies|]. split; [apply xdev_ok; split; reflexivity|]. split; [apply toy_readable|].
  split; [apply (toy_sized 5); split; reflexivity|]. split; [apply C46_request|]. split; [reflexivity|]. eexists. vm_compute. reflexivity.
Qed.

(* ---------------------------------------------------------------- C104 *)
(* WebAuthn verification of packed attestation accepts every registration.  False to the letter:
   WebAuthn 8.2.1 wants UTF8String where the certificates have PrintableString. *)
Definition C104_statement (strict : bool) : Prop :=
  forall E sha1 before after rnd w data w' b va, env_ok E -> certifies E sha1 before after rnd ->
  client_ok E (w_client w) -> readable (cl_cert (w_client w)) va -> sized (cl_certkey (w_client w)) -> wfb data ->
  ctap_handle E (1 :: data) w = (w', Ok (0 :: b)) ->
  exists a auth sig cert v ad id key x y, unmarshal dec_mc data = Some a /\
    response (attestation_doc auth sig cert) (0 :: b) /\
    packed_accepts (e_C E) strict auth (or_nil (mc_hash a)) sig cert = true /\
    read_certificate cert = Some v /\ ce_issuer v = ce_subject va /\ signed_by (e_C E) va v = true /\
    has_auth_data auth ad /\ attested (ad_rest ad) the_aaguid id key /\ canonical (cose_es256 x y) key /\
    ec_point v = Some (be_dec x, be_dec y).
Definition C104_full : Prop := C104_statement true.

(* Apart from the types of strings it holds. *)
Theorem C104_packed_partial : C104_statement false.
Proof.
  intros E sha1 before after rnd w data w' b va L Ce K Rd Z W H.
  destruct (ctap_accepted E sha1 before after rnd w data w' b va L Ce K Rd Z W H)
    as (a & auth & sig & cert & v & ad & id & key & x & y & H1 & H2 & H3 & _ & H5 & H6 & H7 & H8 & H9 & H10 & H11).
  exists a, auth, sig, cert, v, ad, id, key, x, y. do 9 (split; [assumption|]). assumption.
Qed.
Print Assumptions C104_packed_partial.

Lemma C104_registers : exists w' b, ctap_handle (xE true) (msg_mc rpA None) (xdev 5) = (w', Ok (0 :: b)).
Proof. eexists _, _. vm_compute. reflexivity. Qed.

Lemma response_unique auth sig cert auth' sig' cert' r : response (attestation_doc auth sig cert) r -> response (attestation_doc auth' sig' cert') r ->
  auth = auth' /\ sig = sig' /\ cert = cert'.
Proof.
  intros (b & B & Q) (b' & B' & Q'). assert (b = b') as <- by congruence. pose proof (canonical_one _ _ _ Q Q') as X.
  unfold attestation_doc in X. now injection X as -> -> ->.
Qed.

(* With strings checked, no registration is accepted. *)
Theorem C104_strings : forall E sha1 before after rnd w data w' b va, env_ok E -> certifies E sha1 before after rnd ->
  client_ok E (w_client w) -> readable (cl_cert (w_client w)) va -> sized (cl_certkey (w_client w)) -> wfb data ->
  ctap_handle E (1 :: data) w = (w', Ok (0 :: b)) ->
  forall a auth sig cert, unmarshal dec_mc data = Some a -> response (attestation_doc auth sig cert) (0 :: b) ->
  packed_accepts (e_C E) true auth (or_nil (mc_hash a)) sig cert = false.
Proof.
  intros E sha1 before after rnd w data w' b va L Ce K Rd Z W H a auth sig cert U R.
  destruct (ctap_accepted E sha1 before after rnd w data w' b va L Ce K Rd Z W H)
    as (a' & auth' & sig' & cert' & v & ad & id & key & x & y & H1 & H2 & _ & H4 & _).
  assert (a' = a) as -> by congruence. destruct (response_unique _ _ _ _ _ _ _ R H2) as (-> & -> & ->). exact H4.
Qed.
Print Assumptions C104_strings.

Theorem C104_strings_refuted : ~ C104_full.
Proof.
  intro F. destruct C104_registers as (w' & b & H).
  destruct (F (xE true) toy_sha1 (fun _ => today) (fun _ => today) (fun _ => []) (xdev 5) (tl (msg_mc rpA None)) w' b (toy_va 5 today)
    (xE_ok true) (xE_certifies true) (xdev_ok true 5 ltac:(split; reflexivity)) toy_readable (toy_sized 5 ltac:(split; reflexivity))
    ltac:(apply wfbb_iff; vm_compute; reflexivity) H) as (a & auth & sig & cert & v & ad & id & key & x & y & U & R & A & _).
  rewrite (C104_strings (xE true) toy_sha1 (fun _ => today) (fun _ => today) (fun _ => []) (xdev 5) (tl (msg_mc rpA None)) w' b (toy_va 5 today)
    (xE_ok true) (xE_certifies true) (xdev_ok true 5 ltac:(split; reflexivity)) toy_readable (toy_sized 5 ltac:(split; reflexivity))
    ltac:(apply wfbb_iff; vm_compute; reflexivity) H a auth sig cert U R) in A. discriminate A.
Qed.
Print Assumptions C104_strings_refuted.

(* ---------------------------------------------------------------- C105 *)
(* RFC 5280, 4.1.2.2: serial numbers are positive, and no authority uses one twice. *)
Definition C105_full : Prop := forall C sha1 r r' t1 t2 t1' t2' ca key q q' cert cert' v v',
  create_attestation_certificate C sha1 r t1 t2 ca key q = Some cert ->
  create_attestation_certificate C sha1 r' t1' t2' ca key q' = Some cert' ->
  read_certificate cert = Some v -> read_certificate cert' = Some v' -> q <> q' ->
  0 < be_dec (ce_serial v) /\ ce_serial v <> ce_serial v'.

Theorem C105_serial_refuted : exists cert cert' v v',
  create_attestation_certificate toy toy_sha1 [] today today (toy_ca 5 today) (create_ca_key toy 5) (p256 3 4) = Some cert /\
  create_attestation_certificate toy toy_sha1 [] today today (toy_ca 5 today) (create_ca_key toy 5) (p256 4 3) = Some cert' /\
  read_certificate cert = Some v /\ read_certificate cert' = Some v' /\ ce_serial v = [0] /\ ce_serial v' = [0] /\ ~ C105_full.
Proof.
  assert (exists cert cert' v v',
    create_attestation_certificate toy toy_sha1 [] today today (toy_ca 5 today) (create_ca_key toy 5) (p256 3 4) = Some cert /\
    create_attestation_certificate toy toy_sha1 [] today today (toy_ca 5 today) (create_ca_key toy 5) (p256 4 3) = Some cert' /\
    read_certificate cert = Some v /\ read_certificate cert' = Some v' /\ ce_serial v = [0] /\ ce_serial v' = [0])
    as (c & c' & v & v' & A & B & D & F & G & H).
  { eexists _, _, _, _. split; [vm_compute; reflexivity|]. split; [vm_compute; reflexivity|]. split; [vm_compute; reflexivity|].
    split; [vm_compute; reflexivity|]. split; reflexivity. }
  exists c, c', v, v'. do 6 (split; [assumption|]). intro X. assert (NQ : p256 3 4 <> p256 4 3) by discriminate.
  destruct (X toy toy_sha1 [] [] today today today today (toy_ca 5 today) (create_ca_key toy 5) _ _ _ _ _ _ A B D F NQ) as [_ N]. congruence.
Qed.
Print Assumptions C105_serial_refuted.

(* It is 0 in all of them. *)
Theorem C105_always_zero : forall C sha1 rnd t1 t2 ca va ca_key x y cert, readable ca va -> sized ca_key ->
  proper_date t1 -> proper_date t2 -> d_year t2 <= 9989 -> x < 2 ^ 256 -> y < 2 ^ 256 ->
  create_attestation_certificate C sha1 rnd t1 t2 ca ca_key (p256 x y) = Some cert ->
  exists v, read_certificate cert = Some v /\ ce_serial v = [0].
Proof.
  intros C sha1 rnd t1 t2 ca va ca_key x y cert Rd Z P1 P2 Y9 X Y H.
  destruct (attestation_read C sha1 _ _ _ _ _ _ _ _ _ Rd Z P1 P2 Y9 X Y H) as (v & cc & V1 & V2 & V3 & V4 & _). eauto.
Qed.
Print Assumptions C105_always_zero.

(* Different keys do get different certificates. *)
Theorem C105_distinct_partial : forall C sha1 r r' t1 t2 t1' t2' ca va key x y x' y' cert, readable ca va -> sized key ->
  proper_date t1 -> proper_date t2 -> d_year t2 <= 9989 -> x < 2 ^ 256 -> y < 2 ^ 256 ->
  proper_date t1' -> proper_date t2' -> d_year t2' <= 9989 -> x' < 2 ^ 256 -> y' < 2 ^ 256 ->
  create_attestation_certificate C sha1 r t1 t2 ca key (p256 x y) = Some cert ->
  create_attestation_certificate C sha1 r' t1' t2' ca key (p256 x' y') = Some cert -> (x, y) = (x', y').
Proof.
  intros C sha1 r r' t1 t2 t1' t2' ca va key x y x' y' cert Rd Z P1 P2 Y9 X Y P1' P2' Y9' X' Y' H H'.
  destruct (C102_certificate C sha1 _ _ _ _ _ _ _ _ _ Rd Z P1 P2 Y9 X Y H) as (v & V1 & _ & _ & _ & V2 & _).
  destruct (C102_certificate C sha1 _ _ _ _ _ _ _ _ _ Rd Z P1' P2' Y9' X' Y' H') as (v' & V1' & _ & _ & _ & V2' & _). congruence.
Qed.
Print Assumptions C105_distinct_partial.

(* ---------------------------------------------------------------- C106 *)
Lemma authority_read C sha1 rnd t1 t2 d ca : laws C -> (forall b, len (sha1 b) = 20) -> valid_scalar d ->
  proper_date t1 -> proper_date t2 -> d_year t2 <= 9989 -> create_ca C sha1 rnd t1 t2 (create_ca_key C d) = Some ca ->
  exists va, readable ca va /\
    ce_issuer va = ce_subject va /\ signed_by C va va = true /\ ec_point va = Some (p256_pub C d) /\
    ca_flag va = Some true /\ may 5 va = true /\ ce_before va = t1 /\ ten_years_after t2 (ce_after va) /\
    subject_key_id va = Some (sha1 ([4] ++ be 32 (fst (p256_pub C d)) ++ be 32 (snd (p256_pub C d)))) /\
    read_name (ce_subject va) = Some [([85; 4; 6], (19, str "US")); ([85; 4; 10], (19, str "Self-Signed Virtual FIDO"))].
Proof.
  intros L S V P1 P2 Y9 H.
  assert (Z : sized (create_ca_key C d)) by (split; [apply (l_pub_x _ L), V|apply (l_pub_y _ L), V]).
  destruct (ca_read C sha1 _ _ _ _ _ Z P1 P2 Y9 H)
    as (va & own & bits & O & B & Rd & V1 & V2 & V3 & V4 & V5 & V6 & V7 & V8 & V9 & V10 & V11 & V12 & V13).
  change (cose_public (create_ca_key C d)) with (Ok (pub_ec (ec_public (ec_key C d)))) in O.
  assert (own = pub_ec (ec_public (ec_key C d))) as -> by congruence. 
  change (Some (point_bytes (fst (p256_pub C d), snd (p256_pub C d))) = Some bits) in B. rewrite <- surjective_pairing in B.
  assert (Bq : bits = point_bytes (p256_pub C d)) by congruence. rewrite Bq in *.
  exists va. rewrite V1, V2, V4. split; [exact Rd|]. split; [reflexivity|]. split; [exact V13|]. split.
  { rewrite (surjective_pairing (p256_pub C d)). apply point_read; [exact V5|rewrite <- surjective_pairing; exact V6|apply (l_pub_x _ L), V|apply (l_pub_y _ L), V]. }
  split; [exact V8|]. split; [exact V10|]. split; [exact V3|]. split; [now apply ten_later|].
  split; [rewrite V11, S; reflexivity|]. vm_compute. reflexivity.
Qed.

(* A self-signed authority can be made for every P-256 key; read back, it is a CA certificate in its
   own name, signed by its own key, identified by the hash of its key. *)
Theorem C106_authority : forall C sha1 rnd t1 t2 d, laws C -> (forall b, len (sha1 b) = 20) -> valid_scalar d ->
  proper_date t1 -> proper_date t2 -> d_year t2 <= 9989 -> len rnd < 2000000000 ->
  exists ca va, create_ca C sha1 rnd t1 t2 (create_ca_key C d) = Some ca /\ readable ca va /\
    ce_issuer va = ce_subject va /\ signed_by C va va = true /\ ec_point va = Some (p256_pub C d) /\
    ca_flag va = Some true /\ may 5 va = true /\ ce_before va = t1 /\ ten_years_after t2 (ce_after va) /\
    subject_key_id va = Some (sha1 ([4] ++ be 32 (fst (p256_pub C d)) ++ be 32 (snd (p256_pub C d)))) /\
    read_name (ce_subject va) = Some [([85; 4; 6], (19, str "US")); ([85; 4; 10], (19, str "Self-Signed Virtual FIDO"))].
Proof.
  intros C sha1 rnd t1 t2 d L S V P1 P2 Y9 Sz. destruct (ca_made C sha1 rnd t1 t2 d L V P1 P2 Y9 S Sz) as (ca & H).
  destruct (authority_read C sha1 rnd t1 t2 d ca L S V P1 P2 Y9 H) as (va & R). exists ca, va. auto.
Qed.
Print Assumptions C106_authority.

(* Under it, certificates can be made for every key, and path validation (RFC 5280, 6.1) accepts them
   as long as both are valid. *)
Theorem C106_chain : forall C sha1 rnd rnd' s1 s2 t1 t2 d x y ca now, laws C -> (forall b, len (sha1 b) = 20 /\ wfb (sha1 b)) -> valid_scalar d ->
  proper_date s1 -> proper_date s2 -> d_year s2 <= 9989 -> proper_date t1 -> proper_date t2 -> d_year t2 <= 9989 ->
  wfb rnd -> x < 2 ^ 256 -> y < 2 ^ 256 -> create_ca C sha1 rnd s1 s2 (create_ca_key C d) = Some ca -> len ca + len rnd' < 2000000000 ->
  exists va cert v, create_attestation_certificate C sha1 rnd' t1 t2 ca (create_ca_key C d) (p256 x y) = Some cert /\
    read_certificate ca = Some va /\ read_certificate cert = Some v /\
    (valid_at now va = true -> valid_at now v = true -> chains C now va v = true).
Proof.
  intros C sha1 rnd rnd' s1 s2 t1 t2 d x y ca now L S V Q1 Q2 Y9' P1 P2 Y9 Wr X Y H Sz.
  assert (Z : sized (create_ca_key C d)) by (split; [apply (l_pub_x _ L), V|apply (l_pub_y _ L), V]).
  assert (W : wfb ca).
  { pose proof H as H'. unfold create_ca in H'. cbn [cose_public create_ca_key kp_ec priv_ec obind] in H'.
    assert (Wsub : wfb ca_subject) by (apply wfbb_iff; vm_compute; reflexivity).
    exact (proj1 (certificate_wf _ _ _ _ _ _ _ None _ _ _ _ L Wr (fun b => proj2 (S b)) Wsub Logic.I Q1 (ten_years _ Q2 Y9') H')). }
  destruct (authority_read _ _ _ _ _ _ _ L (fun b => proj1 (S b)) V Q1 Q2 Y9' H) as (va & Rd & A1 & A2 & A3 & A4 & A5 & _).
  destruct (attestation_made C sha1 rnd' t1 t2 ca va d x y L V W Rd A3 P1 P2 Y9 Sz) as (cert & M).
  destruct (attestation_read C sha1 _ _ _ _ _ _ _ _ _ Rd Z P1 P2 Y9 X Y M)
    as (v & cc & V1 & V2 & V3 & V4 & V5 & V6 & V7 & V8 & V9 & _).
  exists va, cert, v. split; [exact M|]. split; [apply Rd|]. split; [exact V1|]. intros N1 N2.
  unfold valid_at in N2. rewrite V7, V8 in N2. apply andb_prop in N2 as [N2 N3]. apply N.leb_le in N2, N3.
  destruct (chain_ok C sha1 _ _ _ _ _ _ _ _ _ now Rd Z P1 P2 Y9 X Y M A4 A5 N1 (conj N2 N3)) as (v' & V' & Ch). congruence.
Qed.
Print Assumptions C106_chain.

Example C106_example : (forall b, len (toy_sha1 b) = 20 /\ wfb (toy_sha1 b)) /\ valid_scalar 5 /\ proper_date today /\
  valid_at (mk_date 2030 1 1 0 0 0) (toy_va 5 today) = true.
Proof.
  split; [|split; [split; reflexivity|split; [apply today_ok|vm_compute; reflexivity]]].
  intro b. unfold toy_sha1. pose proof (l_sha_len _ toy_laws b) as Lb. pose proof (l_sha_wf _ toy_laws b) as Wb. split.
  - rewrite takeN_len. lia.
  - rewrite <- (takeN_dropN 20 (sha256 toy b)) in Wb. now apply Forall_app in Wb.
Qed.

(* ---------------------------------------------------------------- C107 *)
(* Issued certificates are acceptable when they are issued.  False: the authority may have expired
   (or not be valid yet), and nothing checks. *)
Definition C107_statement (side : date -> certificate -> Prop) : Prop :=
  forall C sha1 rnd t1 t2 ca va key x y cert, readable ca va -> sized key ->
  proper_date t1 -> proper_date t2 -> d_year t2 <= 9989 -> instant t1 <= instant t2 -> x < 2 ^ 256 -> y < 2 ^ 256 ->
  ca_flag va = Some true -> may 5 va = true -> side t2 va ->
  create_attestation_certificate C sha1 rnd t1 t2 ca key (p256 x y) = Some cert ->
  exists v, read_certificate cert = Some v /\ chains C t2 va v = true.
Definition C107_full : Prop := C107_statement (fun _ _ => True).

Theorem C107_valid_partial : C107_statement (fun t va => valid_at t va = true).
Proof.
  intros C sha1 rnd t1 t2 ca va key x y cert Rd Z P1 P2 Y9 Ord X Y F M Va H.
  exact (chain_ok C sha1 _ _ _ _ _ _ _ _ _ t2 Rd Z P1 P2 Y9 X Y H F M Va (conj Ord (instant_ten t2 P2))).
Qed.
Print Assumptions C107_valid_partial.

Example C107_example : valid_at today (toy_va 5 today) = true /\ ca_flag (toy_va 5 today) = Some true /\ may 5 (toy_va 5 today) = true.
Proof. vm_compute. auto. Qed.

Theorem C107_expired_refuted : ~ C107_full.
Proof.
  intro F. pose (late := mk_date 2040 1 1 0 0 0).
  assert (exists cert v, create_attestation_certificate toy toy_sha1 [] late late (toy_ca 5 today) (create_ca_key toy 5) (p256 3 4) = Some cert /\
    read_certificate cert = Some v /\ chains toy late (toy_va 5 today) v = false) as (cert & v & A & B & D).
  { eexists _, _. split; [vm_compute; reflexivity|]. split; [vm_compute; reflexivity|]. vm_compute. reflexivity. }
  destruct (F toy toy_sha1 [] late late (toy_ca 5 today) (toy_va 5 today) (create_ca_key toy 5) 3 4 cert toy_readable
    (toy_sized 5 ltac:(split; reflexivity)) ltac:(repeat split; discriminate) ltac:(repeat split; discriminate) ltac:(discriminate) (N.le_refl _)
    ltac:(reflexivity) ltac:(reflexivity) (proj1 (proj2 C107_example)) (proj2 (proj2 C107_example)) Logic.I A) as (v' & B' & D'). congruence.
Qed.
Print Assumptions C107_expired_refuted.

(* ---------------------------------------------------------------- C108 *)
(* The device cannot be started with a certificate and a key that do not belong together.  False: it
   starts, and the first registration that the user approves is saved and then crashes the device. *)
Definition C108_full : Prop := forall E sha1 before after rnd p w w' va, env_ok E -> certifies E sha1 before after rnd ->
  params_ok E p -> readable (pa_cert p) va -> start E p None w = (w', Ok tt) ->
  forall d, valid_scalar d -> pa_certkey p = create_ca_key (e_C E) d -> ec_point va = Some (p256_pub (e_C E) d).

Definition xdev0 (k : N) : world := {| w_client := w_client (xdev k); w_tick := 0; w_trace := [] |}.
Lemma C108_starts : start (xE true) (xP 6) None (xdev0 6) = (xdev 6, Ok tt).
Proof. vm_compute. reflexivity. Qed.

Theorem C108_not_full : ~ C108_full.
Proof.
  intro F. pose proof (F (xE true) toy_sha1 (fun _ => today) (fun _ => today) (fun _ => []) (xP 6) (xdev0 6) (xdev 6) (toy_va 5 today) (xE_ok true)
    (xE_certifies true) (xP_ok true 6 ltac:(split; reflexivity)) toy_readable C108_starts 6 ltac:(split; reflexivity) eq_refl) as X.
  vm_compute in X. discriminate X.
Qed.
Print Assumptions C108_not_full.

Theorem C108_mismatch_refuted : exists w1 s d q, params_ok (xE true) (xP 6) /\ readable (pa_cert (xP 6)) (toy_va 5 today) /\
  start (xE true) (xP 6) None (xdev0 6) = (xdev 6, Ok tt) /\ ec_point (toy_va 5 today) <> Some (p256_pub toy 6) /\
  ctap_handle (xE true) (msg_mc rpA None) (xdev 6) = (w1, Panic) /\ cl_vault (w_client w1) = [s] /\ rp_id (cs_rp s) = rpA /\
  w_trace w1 = [EvAsk ActMakeCredential (rp_name (cs_rp s)) [] q; EvSave d].
Proof.
  eexists _, _, _, _. split; [apply xP_ok; split; reflexivity|]. split; [apply toy_readable|]. split; [exact C108_starts|].
  split; [vm_compute; discriminate|]. split; [vm_compute; reflexivity|]. split; [vm_compute; reflexivity|]. split; [reflexivity|].
  vm_compute. reflexivity.
Qed.
Print Assumptions C108_mismatch_refuted.

(* A matching pair never fails: every approved, permitted registration succeeds, by either protocol. *)
Theorem C108_matching_partial : forall E sha1 before after rnd w va d, env_ok E -> client_ok E (w_client w) ->
  certifies E sha1 before after rnd -> (forall b, wfb (sha1 b)) ->
  (forall t, wfb (rnd t) /\ len (cl_cert (w_client w)) + len (rnd t) < 2000000000) ->
  readable (cl_cert (w_client w)) va -> valid_scalar d -> cl_certkey (w_client w) = create_ca_key (e_C E) d ->
  ec_point va = Some (p256_pub (e_C E) d) ->
  (forall data a rp u, wfb data -> unmarshal dec_mc data = Some a -> offers_es256 a -> mc_rp a = Some rp -> mc_user a = Some u ->
     (cl_pin (w_client w) = true -> mc_verified (e_C E) (w_client w) a \/ (mc_auth a = None /\ cl_hash (w_client w) = None)) ->
     e_approve E (w_tick w) ActMakeCredential (rp_name rp) [] = true ->
     exists w' b, ctap_handle E (1 :: data) w = (w', Ok (0 :: b))) /\
  (forall cla p1 p2 data le msg w', apdu cla 1 p1 p2 data le msg -> len data = 64 -> u2f_handle E msg w <> (w', Panic)).
Proof.
  intros E sha1 before after rnd w va d L K Ce Ws Wr Rd V Ck Pt.
  assert (CC : can_certify E (w_client w)).
  { eapply client_certifies; eauto; [apply (eo_laws E L)|apply (co_cert E _ K)]. }
  split.
  - intros. eapply registration_succeeds; eauto.
  - intros. eapply u2f_register_total; eauto.
Qed.
Print Assumptions C108_matching_partial.

Example C108_example : client_ok (xE true) (w_client (xdev 5)) /\ cl_certkey (w_client (xdev 5)) = create_ca_key toy 5 /\
  ec_point (toy_va 5 today) = Some (p256_pub toy 5) /\ len (cl_cert (w_client (xdev 5))) < 2000000000.
Proof. split; [apply xdev_ok; split; reflexivity|]. split; [reflexivity|]. split; vm_compute; reflexivity. Qed.
