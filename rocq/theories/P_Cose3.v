(* Signing and verifying with COSE keys. *)
From Verif Require Import Base M_Util M_Cbor P_Cbor S_Cbor P_Cbor2 M_Crypto S_Crypto P_Crypto M_Cose S_Cose P_Cose P_Cose2.

Lemma toy_pad_idem n b : length b = n -> wfb b -> toy_pad n b = b.
Proof.
  intros A W. unfold toy_pad.
  rewrite (map_ext_in _ (fun x => x)); [|intros x I; apply N.mod_small; now apply (proj1 (Forall_forall _ _) W)].
  rewrite map_id, firstn_app, A, Nat.sub_diag, <- A, firstn_all. cbn. apply app_nil_r.
Qed.

Lemma toy_sign_laws : sign_laws toy.
Proof.
  constructor; cbn [toy ed_verify ed_sign ed_of_seed rsa_verify rsa_sign]; intros.
  - apply bytes_eqb_eq. f_equal.
    assert (X : toy_pad 32 (seed ++ toy_pad 32 seed) = toy_pad 32 seed).
    { assert (LS : length seed = 32%nat) by (unfold len in H; lia).
      set (y := toy_pad 32 seed) at 1. clearbody y. unfold toy_pad. rewrite map_app, <- app_assoc.
      rewrite !firstn_app, !map_length, LS, Nat.sub_diag. reflexivity. }
    rewrite X. symmetry. apply toy_pad_idem; [|apply toy_pad_wf].
    assert (Z := toy_pad_len 32 seed). unfold len in Z. lia.
  - apply bytes_eqb_eq. reflexivity.
Qed.

Lemma read_rsa C b r : unmarshal_priv C b = Ok (Some (priv_rsa r)) ->
  exists p q pre, rs_primes r = [p; q] /\ rs_pre r = Some pre /\ rsa_precompute C (rs_d r) p q = Ok pre.
Proof.
  unfold unmarshal_priv. destruct (unmarshal dec_header_alg b) as [alg|]; [|discriminate].
  destruct (alg =? ALG_ES256)%Z. { destruct (decode_ecdsa_priv b); discriminate. }
  destruct (alg =? ALG_ED25519)%Z. { destruct (decode_ed_priv C b); discriminate. }
  destruct (alg =? ALG_PS256)%Z; [|discriminate].
  destruct (decode_rsa_priv C b) as [k|] eqn:D; [|discriminate]. cbn. intro H. injection H as ->.
  unfold decode_rsa_priv in D. destruct (unmarshal dec_rsa b) as [k|]; [|discriminate].
  destruct (from_be_i32 (or_nil (cr_e k))) as [e|]; [|discriminate]. cbn [rbind] in D.
  destruct (rsa_precompute C _ _ _) as [pre|] eqn:P; [|discriminate]. cbn [rbind] in D. injection D as <-.
  exists (big_set (or_nil (cr_p k))), (big_set (or_nil (cr_q k))), pre. auto.
Qed.

(* Every pair signs what its public half accepts. *)
Lemma sign_verify C k data rnd : laws C -> sign_laws C -> key_pair C k ->
  exists q sig, cose_public k = Ok q /\ cose_sign C k data rnd = Ok sig /\ cose_verify C q data sig = Ok true.
Proof.
  intros L S [d V|seed V|r V]; cbn [cose_public cose_sign kp_ec kp_ed kp_rsa priv_ec priv_ed priv_rsa].
  - eexists. eexists. split; [reflexivity|]. split; [reflexivity|]. cbn. f_equal.
    unfold verify_ecdsa, sign_ecdsa. cbn. rewrite <- surjective_pairing. now apply (l_ecdsa C L).
  - assert (E : len (seed ++ ed_of_seed C seed) = 64) by (rewrite len_app, V, (l_ed_len C L); reflexivity).
    assert (P : ed_public (seed ++ ed_of_seed C seed) = Ok (ed_of_seed C seed)).
    { unfold ed_public. rewrite E. change (64 <? 32) with false. cbv iota. f_equal.
      assert (LS : length seed = 32%nat) by (unfold len in V; lia).
      rewrite skipn_app, <- LS, skipn_all, Nat.sub_diag. cbn [skipn app]. rewrite LS.
      unfold pad. assert (LE := l_ed_len C L seed). unfold len in LE.
      rewrite firstn_app. replace (32 - length (ed_of_seed C seed))%nat with 0%nat by lia.
      rewrite firstn_all2 by lia. cbn. apply app_nil_r. }
    rewrite P, E. change (64 =? 64) with true. cbn. eexists. eexists. split; [reflexivity|]. split; [reflexivity|]. cbn.
    rewrite (l_ed_len C L). change (32 =? 32) with true. cbv iota. f_equal. now apply (sl_ed C S).
  - eexists. eexists. split; [reflexivity|]. split; [reflexivity|]. cbn. f_equal.
    now apply (sl_rsa C S).
Qed.

Lemma same_pair C k k' b : key_pair C k -> unmarshal_priv C b = Ok (Some k') -> same_priv k k' ->
  key_pair C k' /\ cose_public k' = cose_public k.
Proof.
  intros K U Q0. destruct Q0 as [e|e|r r' A B D]; [split; [exact K|reflexivity]..|].
  split; [|cbn; now rewrite A].
  inversion K as [| |r0 R]; subst. inversion R as [e d p q pre P Q M X Y]; subst. cbn in *.
  destruct (read_rsa C b r' U) as (p' & q' & pre' & E1 & E2 & E3).
  rewrite E1 in D. injection D as <- <-. rewrite <- B in E3. apply PairRsa.
  destruct r' as [pb d' ps pr]. cbn in *. subst. rewrite X in E3. injection E3 as <-. now constructor.
Qed.

(* And so does the key read back from its stored form. *)
Lemma stored_key_signs C k data rnd : laws C -> sign_laws C -> proper_priv C k -> key_pair C k ->
  exists q b k' sig, cose_public k = Ok q /\ marshal_priv k = Ok b /\ unmarshal_priv C b = Ok (Some k') /\
    cose_sign C k' data rnd = Ok sig /\ cose_verify C q data sig = Ok true.
Proof.
  intros L S P K. destruct (priv_round_trip C k L P) as (b & k' & M & U & E).
  destruct (same_pair C k k' b K U E) as [K' Q].
  destruct (sign_verify C k' data rnd L S K') as (q & sig & A & B & D).
  exists q, b, k', sig. rewrite <- Q. auto.
Qed.
