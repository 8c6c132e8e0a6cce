(* What the readers of keys accept, and the documents that private keys are stored as. *)
From Verif Require Import Base M_Util M_Cbor S_Cbor P_Cbor P_Cbor2 M_Crypto S_Crypto P_Crypto M_Cose S_Cose P_Cose P_Cose2 P_Hid2.
From Coq Require Import Lia.

Lemma head_bound mt n h : Head mt n h -> n < 256 ^ 8.
Proof.
  assert (24 < 256 ^ 8 /\ 256 < 256 ^ 8 /\ 256 ^ 2 < 256 ^ 8 /\ 256 ^ 4 < 256 ^ 8) as (A & B & D & F) by (repeat split; vm_compute; reflexivity).
  intro H. destruct H; [|eapply N.lt_trans; eassumption..|assumption]. eapply N.lt_trans; eassumption.
Qed.

Lemma canonical_bytes x b : canonical (CBytes x) b -> wfb x /\ len x < 256 ^ 8.
Proof. intro H. inversion H; subst. eauto using head_bound. Qed.

Lemma canonical_entries l b : canonical (CMap l) b -> Forall (fun p => exists v, canonical (snd p) v) l.
Proof.
  intro H. inversion H as [| | | | |l0 ks vs h H1 H2 H3 H4| | |]; subst. clear - H3. remember (map snd l) as m eqn:M.
  revert l M. induction H3 as [|x y m ys X F IH]; intros [|p l] M; try discriminate M; constructor.
  - injection M as -> _. eauto.
  - apply IH. now injection M.
Qed.

Definition ec2_of (crv : Z) (x y : bytes) (d : option bytes) : ec2_key :=
  {| e2_kty := KTY_EC2; e2_alg := ALG_ES256; e2_crv := crv; e2_x := Some x; e2_y := Some y; e2_d := d |}.

Lemma ec2_of_struct crv x y d : d <> Some [] -> ec2_cbor (ec2_of crv x y d) = cose_ec2 crv x y d.
Proof.
  intro D. rewrite ec2_struct. cbn [ec2_of e2_kty e2_alg e2_crv e2_x e2_y e2_d].
  assert (CInt crv = integer crv) as I.
  { unfold CInt, integer. destruct (Z.ltb_spec crv 0); [|reflexivity]. f_equal; lia. }
  unfold cose_ec2. rewrite I. f_equal. f_equal. destruct d as [[|a d]|]; [contradiction|reflexivity..].
Qed.

Lemma ec2_read crv x y d b : (-128 <= crv < 128)%Z -> d <> Some [] -> canonical (cose_ec2 crv x y d) b ->
  unmarshal dec_header_alg b = Some ALG_ES256 /\ unmarshal dec_ec2 b = Some (ec2_of crv x y d).
Proof.
  intros R D H. pose proof (canonical_entries _ _ H) as F. rewrite (canonical_cenc _ _ H).
  assert (X : len x < 256 ^ 8 /\ len y < 256 ^ 8 /\ short d).
  { cbn [app] in F. repeat (apply Forall_cons_iff in F; destruct F as [? F]). cbn [snd] in *.
    repeat match goal with H : exists v, canonical (CBytes _) v |- _ => destruct H as (? & H); apply canonical_bytes in H as [_ H] end.
    split; [assumption|]. split; [assumption|]. destruct d as [d|]; [|exact short_none].
    cbn [private_part] in F. apply Forall_inv in F as (v & V). now apply canonical_bytes in V. }
  destruct X as (X & Y & Dd).
  rewrite <- ec2_of_struct by exact D.
  assert (K : cok (ec2_cbor (ec2_of crv x y d)) /\ (cdepth (ec2_cbor (ec2_of crv x y d)) <= max_nested)%nat).
  { apply ec2_cok; try si; try assumption. }
  rewrite !unmarshal_cenc' by apply K. rewrite dec_header_ec2 by si. split; [reflexivity|].
  rewrite dec_ec2_ok by (try si; assumption). unfold ec2_of. cbn [e2_kty e2_alg e2_crv e2_x e2_y e2_d]. do 2 f_equal.
  unfold norm_d. destruct d as [[|a d]|]; [contradiction|reflexivity..].
Qed.

Lemma read_ec_pub crv x y b : (-128 <= crv < 128)%Z -> canonical (cose_ec2 crv x y None) b ->
  unmarshal_pub b = if (crv =? 1)%Z then Ok (Some (pub_ec {| eq_curve := P256; eq_x := be_dec x; eq_y := be_dec y |})) else Panic.
Proof.
  intros R H. destruct (ec2_read crv x y None b R ltac:(congruence) H) as [A B].
  unfold unmarshal_pub. rewrite A. change (ALG_ES256 =? ALG_ES256)%Z with true. cbn match. unfold decode_ecdsa_pub. rewrite B.
  cbn [ec2_of e2_crv e2_x e2_y or_nil]. change CRV_P256 with 1%Z. now destruct (crv =? 1)%Z.
Qed.

Lemma read_ec_priv C crv x y d b : (-128 <= crv < 128)%Z -> d <> [] -> canonical (cose_ec2 crv x y (Some d)) b ->
  unmarshal_priv C b = if (crv =? 1)%Z
    then Ok (Some (priv_ec {| ec_public := {| eq_curve := P256; eq_x := be_dec x; eq_y := be_dec y |}; ec_d := be_dec d |})) else Panic.
Proof.
  intros R D H. destruct (ec2_read crv x y (Some d) b R ltac:(congruence) H) as [A B].
  unfold unmarshal_priv. rewrite A. change (ALG_ES256 =? ALG_ES256)%Z with true. cbn match. unfold decode_ecdsa_priv. rewrite B.
  cbn [ec2_of e2_crv e2_x e2_y e2_d or_nil]. change CRV_P256 with 1%Z. now destruct (crv =? 1)%Z.
Qed.

Lemma other_curve x y d : let k := {| eq_curve := OtherCurve; eq_x := x; eq_y := y |} in
  marshal_pub (pub_ec k) = Panic /\ marshal_priv (priv_ec {| ec_public := k; ec_d := d |}) = Panic.
Proof. split; reflexivity. Qed.

(* ---- documents *)
Lemma ok_inj A (x y : A) : Ok x = Ok y -> x = y.
Proof. intro H. now injection H. Qed.

Ltac canon_doc := apply cenc_canonical; cbn [cgood fold_right fst snd app private_part];
  split; [vm_compute; reflexivity|]; split;
  [repeat match goal with |- _ /\ _ => split | |- True => exact I end; try assumption; try (vm_compute; reflexivity)
  |apply increasing_sorted; vm_compute; reflexivity].

Lemma ed_pub_document k : wfb k -> len k = 32 ->
  exists b, marshal_pub (pub_ed k) = Ok b /\ canonical (cose_ed25519 k None) b /\ unmarshal_pub b = Ok (Some (pub_ed k)).
Proof.
  intros W L. destruct (marshal_ed_pub k L) as (b & A & B). exists b. split; [exact A|]. split; [|exact B].
  assert (Lk : len k < 256 ^ 8) by (rewrite L; vm_compute; reflexivity).
  apply ok_inj in A; subst b. unfold encode_ed_pub, marshal_cbor. rewrite okp_struct. cbn [ok_kty ok_alg ok_crv ok_x ok_d empty_slice app].
  change (canonical (cose_ed25519 k None) (cenc (cose_ed25519 k None))). unfold cose_ed25519. canon_doc.
Qed.

Lemma priv_document C k b : proper_priv C k -> marshal_priv k = Ok b ->
  match kp_ec k, kp_ed k, kp_rsa k with
  | Some e, _, _ => 0 < ec_d e ->
      canonical (cose_ec2 1 (big_bytes (eq_x (ec_public e))) (big_bytes (eq_y (ec_public e))) (Some (big_bytes (ec_d e)))) b
  | None, Some s, _ => wfb s -> len s = 64 -> canonical (cose_ed25519 (skipn 32 s) (Some (firstn 32 s))) b
  | None, None, Some r => forall p q pre, rs_primes r = [p; q] -> rs_pre r = Some pre ->
      Forall (fun n => 0 < n) [rs_d r; p; q; rp_dp pre; rp_dq pre; rp_qinv pre] ->
      canonical (cose_rsa_private (big_bytes (rq_n (rs_public r))) (be 4 (Z.to_N (rq_e (rs_public r) mod 4294967296)))
        (big_bytes (rs_d r)) (big_bytes p) (big_bytes q) (big_bytes (rp_dp pre)) (big_bytes (rp_dq pre)) (big_bytes (rp_qinv pre))) b
  | None, None, None => False
  end.
Proof.
  assert (NE : forall n, 0 < n -> empty_slice (Some (big_bytes n)) = false).
  { intros n P. destruct (big_bytes n) as [|a r] eqn:B; [|reflexivity]. pose proof (big_set_bytes n) as S. rewrite B in S. cbn in S. lia. }
  intros [x y d Hx Hy Hd | seed Hs | n e d p q pre He Hp Hq Hg Hs]; cbn [kp_ec kp_ed kp_rsa].
  - cbn [marshal_priv kp_ec encode_ecdsa_priv ec_public eq_curve eq_x eq_y ec_d]. intros M P.
    unfold encode_ecdsa_priv in M. cbn [ec_public eq_curve eq_x eq_y ec_d] in M. apply ok_inj in M; subst b. unfold marshal_cbor.
    match goal with |- canonical _ (cenc (ec2_cbor ?k)) => change k with (ec2_of 1 (big_bytes x) (big_bytes y) (Some (big_bytes d))) end.
    rewrite ec2_of_struct.
    2:{ intro Q. injection Q as Q. pose proof (NE d P) as Z. rewrite Q in Z. discriminate Z. }
    pose proof (big_bytes_wf x). pose proof (big_bytes_wf y). pose proof (big_bytes_wf d).
    pose proof (p256_len64 x Hx). pose proof (p256_len64 y Hy). pose proof (p256_len64 d Hd).
    unfold cose_ec2. canon_doc.
  - intros M W L. set (s := seed ++ ed_of_seed C seed) in *.
    cbn [marshal_priv kp_ec kp_ed] in M. unfold encode_ed_priv, ed_public, ed_seed in M.
    rewrite L in M. change (64 <? 32) with false in M. cbn [rbind] in M. apply ok_inj in M; subst b. unfold marshal_cbor.
    rewrite okp_struct. cbn [ok_kty ok_alg ok_crv ok_x ok_d].
    assert (Z : pad (skipn 32 s) 32 = skipn 32 s).
    { unfold pad. rewrite firstn_app. assert (length (skipn 32 s) = 32)%nat as E by (rewrite skipn_length; unfold len in L; lia).
      rewrite firstn_all2 by lia. rewrite E. cbn. apply app_nil_r. }
    rewrite ?Z.
    match goal with |- context [if ?b then _ else _] => assert (N : b = false) end.
    { destruct s as [|a s']; [discriminate L|reflexivity]. }
    rewrite N. cbn [cbytes].
    assert (wfb (skipn 32 s)) by (apply (wfb_dropN 32); exact W).
    assert (wfb (firstn 32 s)) by (apply (wfb_takeN 32); exact W).
    assert (len (skipn 32 s) < 256 ^ 8) by (unfold len in *; rewrite skipn_length; replace (length s) with 64%nat by lia; vm_compute; reflexivity).
    assert (len (firstn 32 s) < 256 ^ 8) by (unfold len in *; rewrite firstn_length; replace (length s) with 64%nat by lia; vm_compute; reflexivity).
    change (canonical (cose_ed25519 (skipn 32 s) (Some (firstn 32 s))) (cenc (cose_ed25519 (skipn 32 s) (Some (firstn 32 s))))).
    unfold cose_ed25519. canon_doc.
  - intros M p' q' pre' Ep Eq P. cbn [rs_primes rs_pre rs_d rs_public rq_n rq_e] in *. injection Ep as <- <-. injection Eq as <-.
    cbn [marshal_priv kp_ec kp_ed kp_rsa] in M. unfold encode_rsa_priv in M. cbn [rs_primes rs_pre rs_d rs_public rq_n rq_e] in M.
    apply ok_inj in M; subst b. unfold marshal_cbor. rewrite rsa_struct. unfold opt_field.
    cbn [cr_kty cr_alg cr_n cr_e cr_d cr_p cr_q cr_dp cr_dq cr_qinv].
    repeat (apply Forall_cons_iff in P; destruct P as [? P]).
    rewrite !NE by assumption. cbn [app cbytes].
    unfold to_be_i32. rewrite (to_i32_id e) by exact He.
    repeat (apply Forall_cons_iff in Hs; destruct Hs as [? Hs]).
    assert (G : forall m, N.size m <= 1000000 -> wfb (big_bytes m) /\ len (big_bytes m) < 256 ^ 8) by (intros; auto using big_bytes_wf, big_len64).
    repeat match goal with H : N.size ?m <= 1000000 |- _ => destruct (G m H); clear H end.
    assert (wfb (be 4 (Z.to_N (e mod 4294967296)))) by apply be_wf.
    assert (len (be 4 (Z.to_N (e mod 4294967296))) < 256 ^ 8) by (rewrite be_len; vm_compute; reflexivity).
    match goal with |- canonical ?v (cenc ?w) => change (canonical v (cenc v)) end.
    unfold cose_rsa_private. canon_doc.
Qed.
