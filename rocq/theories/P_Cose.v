(* Proofs about cose/cose.go. *)
From Verif Require Import Base M_Util M_Cbor P_Cbor S_Cbor P_Cbor2 M_Crypto P_Crypto M_Cose P_Hid2.

Lemma big_len64 n : N.size n <= 1000000 -> len (big_bytes n) < 256 ^ 8.
Proof.
  intro H. rewrite big_bytes_len. change (256 ^ 8) with 18446744073709551616. lia.
Qed.

Lemma p256_len64 n : n < 2 ^ 256 -> len (big_bytes n) < 256 ^ 8.
Proof. intro H. apply big_bytes_32 in H. change (256 ^ 8) with 18446744073709551616. lia. Qed.

(* Byte strings short enough for a CBOR head. *)
Definition short (b : option bytes) : Prop := len (or_nil b) < 256 ^ 8.

Lemma short_none : short None.
Proof. unfold short, or_nil. change (len (@nil N)) with 0. lia. Qed.

Lemma cok_cbytes b : short b -> cok (cbytes b).
Proof. destruct b; cbn [cbytes short or_nil cok CNull]; unfold short; cbn; auto. Qed.

Lemma empty_or_nil b : empty_slice b = true -> or_nil b = [].
Proof. destruct b as [[|]|]; cbn; congruence. Qed.

(* ------------------------------------------------------------------ *)
(* The three key documents                                             *)

Lemma ec2_struct k :
  ec2_cbor k = CMap ([(CUint 1, CInt (e2_kty k)); (CUint 3, CInt (e2_alg k)); (CNint 0, CInt (e2_crv k));
     (CNint 1, cbytes (e2_x k)); (CNint 2, cbytes (e2_y k))] ++
     (if empty_slice (e2_d k) then [] else [(CNint 3, cbytes (e2_d k))])).
Proof. unfold ec2_cbor. destruct (empty_slice (e2_d k)); reflexivity. Qed.

Lemma okp_struct k :
  okp_cbor k = CMap ([(CUint 1, CInt (ok_kty k)); (CUint 3, CInt (ok_alg k)); (CNint 0, CInt (ok_crv k));
     (CNint 1, cbytes (ok_x k))] ++
     (if empty_slice (ok_d k) then [] else [(CNint 3, cbytes (ok_d k))])).
Proof. unfold okp_cbor. destruct (empty_slice (ok_d k)); reflexivity. Qed.

Definition small_int (z : Z) : Prop := (-128 <= z < 128)%Z.

Lemma cok_int z : small_int z -> cok (CInt z).
Proof.
  unfold small_int, CInt. intro H. change (256 ^ 8) with 18446744073709551616.
  destruct (Z.ltb_spec z 0); cbn [cok]; change (256 ^ 8) with 18446744073709551616; lia.
Qed.

Lemma depth_int z : cdepth (CInt z) = O.
Proof. unfold CInt. destruct (z <? 0)%Z; reflexivity. Qed.
Lemma depth_bytes b : cdepth (cbytes b) = O.
Proof. destruct b; reflexivity. Qed.

Lemma dec_int8_int z : small_int z -> dec_int8 (CInt z) = Some z.
Proof. intro H. apply dec_z_int. exact H. Qed.

Ltac cok_list := cbn [cok app fold_right fst snd];
  repeat match goal with
  | |- _ /\ _ => split
  | |- cok (CInt _) => apply cok_int; assumption
  | |- cok (cbytes _) => apply cok_cbytes; assumption
  | |- cok (CUint _) => cbn [cok]; change (256 ^ 8) with 18446744073709551616; lia
  | |- cok (CNint _) => cbn [cok]; change (256 ^ 8) with 18446744073709551616; lia
  | |- True => exact I
  end.

Ltac depth_list := cbn [cdepth app fold_right fst snd]; rewrite ?depth_int, ?depth_bytes;
  cbn; unfold max_nested; lia.

Lemma ec2_cok k :
  small_int (e2_kty k) -> small_int (e2_alg k) -> small_int (e2_crv k) ->
  short (e2_x k) -> short (e2_y k) -> short (e2_d k) ->
  cok (ec2_cbor k) /\ (cdepth (ec2_cbor k) <= max_nested)%nat.
Proof.
  intros. rewrite ec2_struct. destruct (empty_slice (e2_d k)); split.
  - cok_list; try (change (256 ^ 8) with 18446744073709551616; lia). vm_compute; congruence.
  - depth_list.
  - cok_list; try (change (256 ^ 8) with 18446744073709551616; lia). vm_compute; congruence.
  - depth_list.
Qed.

Lemma okp_cok k :
  small_int (ok_kty k) -> small_int (ok_alg k) -> small_int (ok_crv k) ->
  short (ok_x k) -> short (ok_d k) ->
  cok (okp_cbor k) /\ (cdepth (okp_cbor k) <= max_nested)%nat.
Proof.
  intros. rewrite okp_struct. destruct (empty_slice (ok_d k)); split.
  - cok_list; try (change (256 ^ 8) with 18446744073709551616; lia). vm_compute; congruence.
  - depth_list.
  - cok_list; try (change (256 ^ 8) with 18446744073709551616; lia). vm_compute; congruence.
  - depth_list.
Qed.

Definition norm_d (d : option bytes) : option bytes := if empty_slice d then None else d.

Lemma or_nil_norm d : or_nil (norm_d d) = or_nil d.
Proof. destruct d as [[|]|]; reflexivity. Qed.

Lemma dec_entries_map l : forallb (fun p => key_ok (fst p)) l = true -> dec_entries (CMap l) = Some l.
Proof. intro H. unfold dec_entries, dec_nullable. cbn [untag obind is_null]. now rewrite H. Qed.

Lemma lookup_hit m k v r : m k = true -> lookup m ((k, v) :: r) = v.
Proof. intro H. cbn [lookup]. now rewrite H. Qed.
Lemma lookup_miss m k v r : m k = false -> lookup m ((k, v) :: r) = lookup m r.
Proof. intro H. cbn [lookup]. now rewrite H. Qed.
Lemma lookup_nil m : lookup m [] = CNull.
Proof. reflexivity. Qed.

Ltac lookups := unfold get_int, get_text;
  repeat first [rewrite lookup_hit by reflexivity | rewrite lookup_miss by reflexivity | rewrite lookup_nil].

Lemma dec_ec2_ok k :
  small_int (e2_kty k) -> small_int (e2_alg k) -> small_int (e2_crv k) ->
  dec_ec2 (ec2_cbor k) = Some {| e2_kty := e2_kty k; e2_alg := e2_alg k; e2_crv := e2_crv k;
     e2_x := e2_x k; e2_y := e2_y k; e2_d := norm_d (e2_d k) |}.
Proof.
  intros. rewrite ec2_struct. unfold dec_ec2, norm_d.
  destruct (empty_slice (e2_d k)) eqn:Ed;
    cbn [app]; rewrite dec_entries_map by reflexivity; cbn [obind]; lookups;
    rewrite !dec_int8_int by assumption; rewrite ?dec_bytes_cbytes; reflexivity.
Qed.

Lemma dec_header_ec2 k :
  small_int (e2_kty k) -> small_int (e2_alg k) -> dec_header_alg (ec2_cbor k) = Some (e2_alg k).
Proof.
  intros. rewrite ec2_struct. unfold dec_header_alg.
  destruct (empty_slice (e2_d k)) eqn:Ed;
    cbn [app]; rewrite dec_entries_map by reflexivity; cbn [obind]; lookups;
    rewrite !dec_int8_int by assumption; reflexivity.
Qed.

Lemma dec_okp_ok k :
  small_int (ok_kty k) -> small_int (ok_alg k) -> small_int (ok_crv k) ->
  dec_okp (okp_cbor k) = Some {| ok_kty := ok_kty k; ok_alg := ok_alg k; ok_crv := ok_crv k;
     ok_x := ok_x k; ok_d := norm_d (ok_d k) |}.
Proof.
  intros. rewrite okp_struct. unfold dec_okp, norm_d.
  destruct (empty_slice (ok_d k)) eqn:Ed;
    cbn [app]; rewrite dec_entries_map by reflexivity; cbn [obind]; lookups;
    rewrite !dec_int8_int by assumption; rewrite ?dec_bytes_cbytes; reflexivity.
Qed.

Lemma dec_header_okp k :
  small_int (ok_kty k) -> small_int (ok_alg k) -> dec_header_alg (okp_cbor k) = Some (ok_alg k).
Proof.
  intros. rewrite okp_struct. unfold dec_header_alg.
  destruct (empty_slice (ok_d k)) eqn:Ed;
    cbn [app]; rewrite dec_entries_map by reflexivity; cbn [obind]; lookups;
    rewrite !dec_int8_int by assumption; reflexivity.
Qed.

(* ------------------------------------------------------------------ *)
(* ECDSA                                                               *)

Definition p256_key (k : ec_pub) : Prop :=
  eq_curve k = P256 /\ eq_x k < 2 ^ 256 /\ eq_y k < 2 ^ 256.

Ltac si := match goal with |- small_int _ => split; [vm_compute; discriminate | vm_compute; reflexivity] end.

Lemma marshal_ec_pub k : p256_key k ->
  exists b, marshal_pub (pub_ec k) = Ok b /\ unmarshal_pub b = Ok (Some (pub_ec k)).
Proof.
  destruct k as [c x y]. intros (Hc & Hx & Hy). cbn in *. subst c.
  eexists. split; [reflexivity|]. unfold unmarshal_pub, decode_ecdsa_pub, marshal_cbor.
  set (k := {| e2_kty := _ |}).
  assert (Hk : cok (ec2_cbor k) /\ (cdepth (ec2_cbor k) <= max_nested)%nat).
  { apply ec2_cok; try si; cbn [e2_x e2_y e2_d k]; unfold short; cbn [or_nil];
      try (now apply p256_len64). exact short_none. }
  rewrite !unmarshal_cenc' by apply Hk.
  rewrite dec_header_ec2 by si. cbn [e2_alg k]. change (ALG_ES256 =? ALG_ES256)%Z with true. cbn match.
  rewrite dec_ec2_ok by si. cbn [e2_crv e2_x e2_y k or_nil]. change (CRV_P256 =? CRV_P256)%Z with true.
  cbn match. cbn [rbind]. now rewrite !big_set_bytes.
Qed.

Lemma marshal_ec_priv C k : p256_key (ec_public k) -> ec_d k < 2 ^ 256 ->
  exists b, marshal_priv (priv_ec k) = Ok b /\ unmarshal_priv C b = Ok (Some (priv_ec k)).
Proof.
  destruct k as [[c x y] d]. intros (Hc & Hx & Hy) Hd. cbn in *. subst c.
  eexists. split; [reflexivity|]. unfold unmarshal_priv, decode_ecdsa_priv, marshal_cbor.
  set (k := {| e2_kty := _ |}).
  assert (Hk : cok (ec2_cbor k) /\ (cdepth (ec2_cbor k) <= max_nested)%nat).
  { apply ec2_cok; try si; cbn [e2_x e2_y e2_d k]; unfold short; cbn [or_nil]; now apply p256_len64. }
  rewrite !unmarshal_cenc' by apply Hk.
  rewrite dec_header_ec2 by si. cbn [e2_alg k]. change (ALG_ES256 =? ALG_ES256)%Z with true. cbn match.
  rewrite dec_ec2_ok by si. cbn [e2_crv e2_x e2_y e2_d k or_nil]. change (CRV_P256 =? CRV_P256)%Z with true.
  cbn match. cbn [rbind]. rewrite or_nil_norm. cbn [or_nil]. now rewrite !big_set_bytes.
Qed.

(* ------------------------------------------------------------------ *)
(* Ed25519                                                             *)

Lemma marshal_ed_pub k : len k = 32 ->
  exists b, marshal_pub (pub_ed k) = Ok b /\ unmarshal_pub b = Ok (Some (pub_ed k)).
Proof.
  intro Hl. eexists. split; [reflexivity|]. unfold unmarshal_pub, decode_ed_pub, encode_ed_pub, marshal_cbor.
  set (o := {| ok_kty := _ |}).
  assert (Hk : cok (okp_cbor o) /\ (cdepth (okp_cbor o) <= max_nested)%nat).
  { apply okp_cok; try si; cbn [ok_x ok_d o]; [|exact short_none]. unfold short. cbn [or_nil].
    change (256 ^ 8) with 18446744073709551616. lia. }
  rewrite !unmarshal_cenc' by apply Hk.
  rewrite dec_header_okp by si. cbn [ok_alg o].
  change (ALG_ED25519 =? ALG_ES256)%Z with false. change (ALG_ED25519 =? ALG_ED25519)%Z with true. cbn match.
  rewrite dec_okp_ok by si. reflexivity.
Qed.

Lemma marshal_ed_priv C seed : len seed = 32 -> len (ed_of_seed C seed) = 32 ->
  exists b, marshal_priv (priv_ed (seed ++ ed_of_seed C seed)) = Ok b /\
            unmarshal_priv C b = Ok (Some (priv_ed (seed ++ ed_of_seed C seed))).
Proof.
  intros Hl He. set (key := seed ++ ed_of_seed C seed).
  assert (E1 : ed_public key = Ok (ed_of_seed C seed)).
  { unfold ed_public, key. rewrite len_app.
    replace (len seed + len (ed_of_seed C seed) <? 32) with false by lia.
    f_equal. unfold pad. unfold len in *.
    rewrite skipn_app, skipn_all2 by lia. cbn [app].
    replace (32 - length seed)%nat with O by lia. cbn [skipn].
    rewrite firstn_app, firstn_all2 by lia.
    replace (32 - length (ed_of_seed C seed))%nat with O by lia. cbn [firstn]. apply app_nil_r. }
  assert (E2 : ed_seed key = Ok seed).
  { unfold ed_seed, key. rewrite len_app.
    replace (len seed + len (ed_of_seed C seed) <? 32) with false by lia.
    f_equal. unfold len in *. rewrite firstn_app, firstn_all2 by lia.
    replace (32 - length seed)%nat with O by lia. cbn. apply app_nil_r. }
  cbn [marshal_priv priv_ed kp_ec kp_ed kp_rsa]. unfold encode_ed_priv. rewrite E1, E2. cbn [rbind].
  eexists. split; [reflexivity|]. unfold unmarshal_priv, decode_ed_priv, marshal_cbor.
  set (o := {| ok_kty := _ |}).
  assert (Hk : cok (okp_cbor o) /\ (cdepth (okp_cbor o) <= max_nested)%nat).
  { apply okp_cok; try si; cbn [ok_x ok_d o]; unfold short; cbn [or_nil];
      change (256 ^ 8) with 18446744073709551616; lia. }
  rewrite !unmarshal_cenc' by apply Hk.
  rewrite dec_header_okp by si. cbn [ok_alg o].
  change (ALG_ED25519 =? ALG_ES256)%Z with false. change (ALG_ED25519 =? ALG_ED25519)%Z with true. cbn match.
  rewrite dec_okp_ok by si. cbn [ok_d o]. rewrite or_nil_norm. cbn [or_nil].
  rewrite Hl. cbn. reflexivity.
Qed.

(* ------------------------------------------------------------------ *)
(* RSA                                                                 *)

Definition opt_field (k : cbor) (b : option bytes) : list (cbor * cbor) :=
  if empty_slice b then [] else [(k, cbytes b)].

Lemma rsa_struct k :
  rsa_cbor k = CMap ([(CUint 1, CInt (cr_kty k)); (CUint 3, CInt (cr_alg k)); (CNint 0, cbytes (cr_n k));
     (CNint 1, cbytes (cr_e k))] ++ opt_field (CNint 2) (cr_d k) ++ opt_field (CNint 3) (cr_p k) ++
     opt_field (CNint 4) (cr_q k) ++ opt_field (CNint 5) (cr_dp k) ++ opt_field (CNint 6) (cr_dq k) ++
     opt_field (CNint 7) (cr_qinv k)).
Proof.
  unfold rsa_cbor, opt_field.
  destruct (empty_slice (cr_d k)), (empty_slice (cr_p k)), (empty_slice (cr_q k)),
    (empty_slice (cr_dp k)), (empty_slice (cr_dq k)), (empty_slice (cr_qinv k)); reflexivity.
Qed.

Lemma lookup_opt_miss m k b r : m k = false -> lookup m (opt_field k b ++ r) = lookup m r.
Proof. intro H. unfold opt_field. destruct (empty_slice b); cbn [app]; auto. now apply lookup_miss. Qed.

Lemma dec_opt_hit m k b r : m k = true -> lookup m r = CNull ->
  dec_bytes (lookup m (opt_field k b ++ r)) = Some (norm_d b).
Proof.
  intros H K. unfold opt_field, norm_d. destruct (empty_slice b); cbn [app].
  - rewrite K. reflexivity.
  - rewrite lookup_hit by exact H. apply dec_bytes_cbytes.
Qed.

Lemma opt_keys k b r :
  forallb (fun p => key_ok (fst p)) r = true -> key_ok k = true ->
  forallb (fun p => key_ok (fst p)) (opt_field k b ++ r) = true.
Proof. intros H K. unfold opt_field. destruct (empty_slice b); cbn [app forallb fst]; auto. now rewrite K. Qed.

Ltac misses := repeat first
  [rewrite lookup_hit by reflexivity | rewrite lookup_miss by reflexivity |
   rewrite lookup_opt_miss by reflexivity | rewrite lookup_nil].

Ltac dec_opt := match goal with |- obind (dec_bytes (lookup ?m ?l)) _ = _ =>
  let H := fresh in
  eassert (dec_bytes (lookup m l) = _) as H by (misses; apply dec_opt_hit; [reflexivity | misses; reflexivity]);
  rewrite H; clear H end.

Lemma dec_rsa_ok k :
  small_int (cr_kty k) -> small_int (cr_alg k) ->
  dec_rsa (rsa_cbor k) = Some {| cr_kty := cr_kty k; cr_alg := cr_alg k; cr_n := cr_n k; cr_e := cr_e k;
    cr_d := norm_d (cr_d k); cr_p := norm_d (cr_p k); cr_q := norm_d (cr_q k);
    cr_dp := norm_d (cr_dp k); cr_dq := norm_d (cr_dq k); cr_qinv := norm_d (cr_qinv k) |}.
Proof.
  intros H1 H2. rewrite rsa_struct. unfold dec_rsa.
  rewrite <- (app_nil_r (opt_field (CNint 7) (cr_qinv k))).
  rewrite dec_entries_map.
  2: { cbn [app forallb fst]. repeat (apply opt_keys; [|reflexivity]). reflexivity. }
  cbn [obind app]. unfold get_int. misses.
  rewrite !dec_int8_int by assumption. rewrite !dec_bytes_cbytes. cbn [obind].
  repeat (dec_opt; cbn [obind]). reflexivity.
Qed.

Lemma dec_header_rsa k :
  small_int (cr_kty k) -> small_int (cr_alg k) -> dec_header_alg (rsa_cbor k) = Some (cr_alg k).
Proof.
  intros H1 H2. rewrite rsa_struct. unfold dec_header_alg.
  rewrite <- (app_nil_r (opt_field (CNint 7) (cr_qinv k))).
  rewrite dec_entries_map.
  2: { cbn [app forallb fst]. repeat (apply opt_keys; [|reflexivity]). reflexivity. }
  cbn [obind app]. unfold get_int. misses.
  now rewrite !dec_int8_int by assumption.
Qed.

Definition coks (l : list (cbor * cbor)) : Prop := fold_right (fun p P => cok (fst p) /\ cok (snd p) /\ P) True l.
Definition depths (l : list (cbor * cbor)) : nat :=
  fold_right (fun p n => Nat.max (cdepth (fst p)) (Nat.max (cdepth (snd p)) n)) O l.

Lemma opt_coks k b r : cok k -> short b -> coks r -> coks (opt_field k b ++ r).
Proof.
  intros. unfold opt_field. destruct (empty_slice b); cbn [app coks fold_right fst snd]; auto.
  split; auto. split; auto. now apply cok_cbytes.
Qed.

Lemma opt_depths k b r : cdepth k = O -> depths (opt_field k b ++ r) = depths r.
Proof.
  intros. unfold opt_field. destruct (empty_slice b); cbn [app depths fold_right fst snd]; auto.
  now rewrite H, depth_bytes.
Qed.

Lemma opt_len k b r : len (opt_field k b ++ r) <= 1 + len r.
Proof. unfold opt_field. rewrite len_app. destruct (empty_slice b); rewrite ?len_cons; change (len (@nil (cbor*cbor))) with 0; lia. Qed.

Lemma rsa_cok k :
  small_int (cr_kty k) -> small_int (cr_alg k) -> short (cr_n k) -> short (cr_e k) ->
  short (cr_d k) -> short (cr_p k) -> short (cr_q k) -> short (cr_dp k) -> short (cr_dq k) -> short (cr_qinv k) ->
  cok (rsa_cbor k) /\ (cdepth (rsa_cbor k) <= max_nested)%nat.
Proof.
  intros. rewrite rsa_struct. rewrite <- (app_nil_r (opt_field (CNint 7) (cr_qinv k))).
  split.
  - cbn [cok]. split.
    + cbn [app]. rewrite !len_cons.
      assert (L : len (opt_field (CNint 2) (cr_d k) ++ opt_field (CNint 3) (cr_p k) ++
        opt_field (CNint 4) (cr_q k) ++ opt_field (CNint 5) (cr_dp k) ++ opt_field (CNint 6) (cr_dq k) ++
        opt_field (CNint 7) (cr_qinv k) ++ []) <= 1 + (1 + (1 + (1 + (1 + (1 + 0)))))).
      { repeat (eapply N.le_trans; [apply opt_len|]; apply N.add_le_mono_l). reflexivity. }
      unfold max_elems. lia.
    + change (fold_right _ True ?l) with (coks l). cbn [app]. 
      unfold coks at 1. cbn [fold_right fst snd]. fold (coks (opt_field (CNint 2) (cr_d k) ++ opt_field (CNint 3) (cr_p k) ++
     opt_field (CNint 4) (cr_q k) ++ opt_field (CNint 5) (cr_dp k) ++ opt_field (CNint 6) (cr_dq k) ++
     opt_field (CNint 7) (cr_qinv k) ++ [])).
      assert (K : forall n, n < 8 -> cok (CNint n)) by (intros; cbn [cok]; change (256 ^ 8) with 18446744073709551616; lia).
      assert (K2 : forall n, n < 8 -> cok (CUint n)) by (intros; cbn [cok]; change (256 ^ 8) with 18446744073709551616; lia).
      repeat match goal with
      | |- coks (opt_field _ _ ++ _) => apply opt_coks; [apply K; lia | assumption |]
      | |- _ /\ _ => split
      | |- cok (CInt _) => apply cok_int; assumption
      | |- cok (cbytes _) => apply cok_cbytes; assumption
      | |- cok (CNint _) => apply K; lia
      | |- cok (CUint _) => apply K2; lia
      end. exact I.
  - cbn [cdepth]. change (fold_right _ O ?l) with (depths l).
    unfold depths. cbn [app fold_right fst snd]. rewrite !depth_int, !depth_bytes.
    change (fold_right _ O ?l) with (depths l).
    rewrite !opt_depths by reflexivity. cbn. unfold max_nested. lia.
Qed.

Lemma to_i32_id z : (-2147483648 <= z < 2147483648)%Z -> to_i32 z = z.
Proof.
  unfold to_i32. intro H. destruct (Z.ltb_spec (z mod 4294967296) 2147483648) as [L|L].
  - pose proof (Z.mod_small (z + 4294967296) 4294967296). 
    destruct (Z.ltb_spec z 0).
    + exfalso. rewrite <- (Z.mod_add z 1) in L by lia. rewrite Z.mul_1_l in L. lia.
    + apply Z.mod_small. lia.
  - destruct (Z.ltb_spec z 0).
    + rewrite <- (Z.mod_add z 1) by lia. rewrite Z.mul_1_l. rewrite Z.mod_small; lia.
    + rewrite Z.mod_small in L by lia. lia.
Qed.

Lemma to_i32_range z : (-2147483648 <= to_i32 z < 2147483648)%Z.
Proof.
  unfold to_i32. pose proof (Z.mod_pos_bound z 4294967296).
  destruct (Z.ltb_spec (z mod 4294967296) 2147483648); lia.
Qed.

Lemma to_i32_mod z : to_i32 (z mod 4294967296) = to_i32 z.
Proof. unfold to_i32. now rewrite Z.mod_mod by lia. Qed.

Lemma from_be_i32_to z : from_be_i32 (to_be_i32 z) = Ok (to_i32 z).
Proof.
  unfold from_be_i32, to_be_i32, from_be. rewrite <- (app_nil_r (be 4 _)).
  rewrite read_be_app.
  - cbn [rbind]. rewrite Z2N.id by (pose proof (Z.mod_pos_bound z 4294967296); lia). now rewrite to_i32_mod.
  - change (256 ^ N.of_nat 4) with 4294967296. pose proof (Z.mod_pos_bound z 4294967296). lia.
Qed.

(* A usable RSA key: two primes, precomputed values, every number of reasonable size. *)
Definition rsa_ok (k : rsa_priv) : Prop :=
  exists p q pre, rs_primes k = [p; q] /\ rs_pre k = Some pre /\
  (-2147483648 <= rq_e (rs_public k) < 2147483648)%Z /\
  Forall (fun n => N.size n <= 1000000) [rq_n (rs_public k); rs_d k; p; q; rp_dp pre; rp_dq pre; rp_qinv pre].

Lemma marshal_rsa_priv C k : rsa_ok k ->
  (forall p q, rs_primes k = [p; q] -> rsa_precompute C (rs_d k) p q <> Panic) ->
  exists b k', marshal_priv (priv_rsa k) = Ok b /\ unmarshal_priv C b = Ok (Some (priv_rsa k')) /\
    rs_public k' = rs_public k /\ rs_d k' = rs_d k /\ rs_primes k' = rs_primes k /\
    (forall p q, rs_primes k = [p; q] -> exists pre, rs_pre k' = Some pre /\ rsa_precompute C (rs_d k) p q = Ok pre).
Proof.
  destruct k as [[n e] d ps pre0]. intros (p & q & pre & Hp & Hpre & He & Hs) Hpc. cbn [rs_public rs_d rs_primes rs_pre rq_n rq_e] in Hp, Hpre, He, Hs, Hpc. subst ps pre0.
  specialize (Hpc p q eq_refl).
  destruct (rsa_precompute C d p q) as [pr|] eqn:Epc; [|congruence].
  eexists _, _. split; [reflexivity|].
  unfold unmarshal_priv, decode_rsa_priv, marshal_cbor. cbn [rq_n rq_e rs_public rs_d].
  set (r := {| cr_kty := _ |}).
  assert (Hk : cok (rsa_cbor r) /\ (cdepth (rsa_cbor r) <= max_nested)%nat).
  { repeat match goal with H : Forall _ (_ :: _) |- _ => apply Forall_cons_iff in H; destruct H end.
    apply rsa_cok; try si; cbn [cr_n cr_e cr_d cr_p cr_q cr_dp cr_dq cr_qinv r]; unfold short; cbn [or_nil];
      try (now apply big_len64).
    unfold to_be_i32. rewrite be_len. change (256 ^ 8) with 18446744073709551616. lia. }
  rewrite !unmarshal_cenc' by apply Hk.
  rewrite dec_header_rsa by si. cbn [cr_alg r].
  change (ALG_PS256 =? ALG_ES256)%Z with false. change (ALG_PS256 =? ALG_ED25519)%Z with false.
  change (ALG_PS256 =? ALG_PS256)%Z with true. cbn match.
  rewrite dec_rsa_ok by si. cbn [cr_n cr_e cr_d cr_p cr_q r or_nil]. rewrite !or_nil_norm. cbn [or_nil].
  rewrite from_be_i32_to. cbn [rbind]. rewrite !big_set_bytes, Epc. cbn [rbind].
  rewrite (to_i32_id (to_i32 e)) by apply to_i32_range. rewrite to_i32_id by exact He.
  split; [reflexivity|]. cbn [rs_public rs_d rs_primes rs_pre].
  split; [reflexivity|]. split; [reflexivity|]. split; [reflexivity|].
  intros p' q' E. injection E as <- <-. eauto.
Qed.

(* Unmarshalling an RSA public key never succeeds. *)
Lemma marshal_rsa_pub k : N.size (rq_n k) <= 1000000 ->
  exists b, marshal_pub (pub_rsa k) = Ok b /\ unmarshal_pub b = Panic.
Proof.
  intro H. eexists. split; [reflexivity|].
  unfold unmarshal_pub, decode_rsa_pub, encode_rsa_pub, marshal_cbor.
  set (r := {| cr_kty := _ |}).
  assert (Hk : cok (rsa_cbor r) /\ (cdepth (rsa_cbor r) <= max_nested)%nat).
  { apply rsa_cok; try si; cbn [cr_n cr_e cr_d cr_p cr_q cr_dp cr_dq cr_qinv r]; try exact short_none.
    unfold short. cbn [or_nil]. now apply big_len64. }
  rewrite !unmarshal_cenc' by apply Hk.
  rewrite dec_header_rsa by si. cbn [cr_alg r].
  change (ALG_PS256 =? ALG_ES256)%Z with false. change (ALG_PS256 =? ALG_ED25519)%Z with false.
  change (ALG_PS256 =? ALG_PS256)%Z with true. cbn match.
  rewrite dec_rsa_ok by si. reflexivity.
Qed.

(* The encoded exponent of an RSA public key is null whatever the exponent. *)
Lemma rsa_pub_blind k k' : rq_n k = rq_n k' -> marshal_pub (pub_rsa k) = marshal_pub (pub_rsa k').
Proof. intro H. cbn. unfold encode_rsa_pub, to_be_int. now rewrite H. Qed.

(* ------------------------------------------------------------------ *)
(* Equality                                                            *)

Lemma curve_eqb_eq a b : curve_eqb a b = true <-> a = b.
Proof. destruct a, b; cbn; split; congruence. Qed.

Lemma ec_pub_eqb_eq a b : ec_pub_eqb a b = true <-> a = b.
Proof.
  unfold ec_pub_eqb. destruct a as [c x y], b as [c' x' y']. cbn.
  rewrite !andb_true_iff, !N.eqb_eq, curve_eqb_eq. split; [intuition congruence|]. intro H. injection H. intuition.
Qed.

Lemma ec_priv_eqb_eq a b : ec_priv_eqb a b = true <-> a = b.
Proof.
  unfold ec_priv_eqb. destruct a as [p d], b as [p' d']. cbn [ec_public ec_d].
  rewrite andb_true_iff, N.eqb_eq, ec_pub_eqb_eq. split; [intuition congruence|]. intro H. injection H. intuition.
Qed.

Lemma rsa_priv_eqb_eq a b :
  rsa_priv_eqb a b = true <-> rs_public a = rs_public b /\ rs_d a = rs_d b /\ rs_primes a = rs_primes b.
Proof.
  unfold rsa_priv_eqb, rsa_pub_eqb. destruct a as [[n e] d ps pre], b as [[n' e'] d' ps' pre']. cbn [rs_public rs_d rs_primes rq_n rq_e].
  rewrite !andb_true_iff, !N.eqb_eq, Z.eqb_eq, bytes_eqb_eq. split; [intuition congruence|]. intros (H & H1 & H2). injection H. intuition.
Qed.
