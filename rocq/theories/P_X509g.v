(* The toy device of P_Toy with certificates as M_X509 makes them. *)
From Verif Require Import Base M_Cbor M_Crypto S_Crypto P_Crypto M_Cose M_Str M_State M_Client M_Ctap M_U2f M_X509.
From Verif Require Import S_Cbor S_Cose S_State S_Client S_Ctap S_CtapReq S_U2f S_X509 S_X509Dev P_Client P_Toy.
From Verif Require Import P_X509a P_X509b P_X509c P_X509d P_X509e P_X509f.

Definition toy_sha1 (b : bytes) : bytes := takeN 20 (sha256 toy b).
Definition today : date := mk_date 2026 11 16 12 0 0.
Definition toy_ca (d : N) (t : date) : bytes :=
  match create_ca toy toy_sha1 [] t t (create_ca_key toy d) with Some b => b | None => [] end.

Definition xE (ok : bool) : Env := {|
  e_C := toy; e_rand := e_rand (toyE ok); e_scalar := e_scalar (toyE ok); e_approve := e_approve (toyE ok); e_pass := [];
  e_cert_ok := fun b => match parse_authority b with Some _ => true | None => false end;
  e_make_cert := fun t ca k p => match create_attestation_certificate toy toy_sha1 [] today today ca k p with
                                 | Some b => if wfbb b then Some b else None
                                 | None => None
                                 end |}.

Lemma made_len C sha1 rnd t1 t2 ca k p b : create_attestation_certificate C sha1 rnd t1 t2 ca k p = Some b -> len b < 4294967296.
Proof.
  unfold create_attestation_certificate. destruct (parse_authority ca) as [a|]; [|discriminate]. cbn [obind]. unfold create_certificate.
  destruct (match cose_public k with Ok q => Some q | Panic => None end) as [own|]; [|discriminate]. cbn [obind].
  destruct (key_info own); [|discriminate]. cbn [obind]. destruct (key_bits p); [|discriminate]. cbn [obind]. destruct (key_info p); [|discriminate]. cbn [obind].
  destruct (bytes_eqb _ (au_key a)); [|discriminate]. destruct (asn1_time t1); [|discriminate]. cbn [obind]. destruct (asn1_time _); [|discriminate]. cbn [obind].
  destruct (cose_sign C k _ rnd) as [sig|]; [|discriminate]. destruct (cose_verify C own _ sig) as [[]|]; try discriminate.
  match goal with |- (if ?c <? _ then _ else _) = _ -> _ => destruct (c <? 4294967296) eqn:Z; [|discriminate] end.
  intro H. apply N.ltb_lt in Z. congruence.
Qed.

Lemma today_ok : proper_date today.
Proof. repeat split; discriminate. Qed.

Lemma xE_ok ok : env_ok (xE ok).
Proof.
  destruct (toyE_ok ok) as [L A B D _]. constructor; auto. cbn [e_make_cert xE]. intros t ca k p b H.
  destruct (create_attestation_certificate toy toy_sha1 [] today today ca k p) as [c|] eqn:X; [|discriminate H].
  destruct (wfbb c) eqn:W; [|discriminate H]. injection H as <-. split; [now apply wfbb_iff|]. exact (made_len _ _ _ _ _ _ _ _ _ X).
Qed.

Lemma xE_certifies ok : certifies (xE ok) toy_sha1 (fun _ => today) (fun _ => today) (fun _ => []).
Proof.
  split.
  - intros t ca k p b. cbn [e_make_cert xE e_C]. destruct (create_attestation_certificate toy toy_sha1 [] today today ca k p) as [c|].
    + destruct (wfbb c) eqn:W.
      * split; [intro H; injection H as <-; split; [reflexivity|now apply wfbb_iff]|]. now intros [H _].
      * split; [discriminate|]. intros [H Wb]. injection H as ->. apply wfbb_iff in Wb. congruence.
    + split; [discriminate|]. now intros [H _].
  - intros _. split; [apply today_ok|]. split; [apply today_ok|]. discriminate.
Qed.

(* Parameters: a certificate for the key 5, and the key [k]. *)
Definition xP (k : N) : params := {|
  pa_cert := toy_ca 5 today; pa_certkey := create_ca_key toy k; pa_key := be 32 9; pa_pin := false |}.
Lemma xP_ok ok k : valid_scalar k -> params_ok (xE ok) (xP k).
Proof.
  intro V. split; [split; [right; right; reflexivity|apply be_wf]|].
  split; [split; [apply wfbb_iff; vm_compute; reflexivity|vm_compute; reflexivity]|].
  apply ec_stable; [apply toy_laws|exact V].
Qed.
Definition xdev (k : N) : world :=
  {| w_client := new_client (xP k) (be 16 1) 2; w_tick := 2; w_trace := [] |}.
Lemma xdev_ok ok k : valid_scalar k -> client_ok (xE ok) (w_client (xdev k)).
Proof.
  intro V. apply new_client_ok; [apply xE_ok|now apply xP_ok|reflexivity|apply be_wf|split; reflexivity].
Qed.

Definition toy_va (d : N) (t : date) : certificate :=
  match read_certificate (toy_ca d t) with
  | Some v => v
  | None => {| ce_signed := []; ce_version := 0; ce_serial := []; ce_algorithm := []; ce_issuer := []; ce_before := today; ce_after := today;
               ce_subject := []; ce_key_algorithm := []; ce_key := []; ce_extensions := []; ce_signature := [] |}
  end.
Lemma toy_ca_made : create_ca toy toy_sha1 [] today today (create_ca_key toy 5) = Some (toy_ca 5 today).
Proof. vm_compute. reflexivity. Qed.
Lemma toy_sized d : valid_scalar d -> sized (create_ca_key toy d).
Proof. intro V. split; [apply (l_pub_x _ toy_laws), V|apply (l_pub_y _ toy_laws), V]. Qed.
Lemma toy_readable : readable (toy_ca 5 today) (toy_va 5 today).
Proof.
  destruct (ca_read toy toy_sha1 [] today today (create_ca_key toy 5) (toy_ca 5 today) (toy_sized 5 ltac:(split; reflexivity)) today_ok today_ok ltac:(discriminate) toy_ca_made)
    as (va & own & bits & _ & _ & R & _). unfold toy_va. destruct R as (R & X). rewrite R. split; [exact R|exact X].
Qed.
