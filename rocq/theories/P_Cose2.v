(* The statements of C61..C63 and C65. *)
From Verif Require Import Base M_Util M_Cbor S_Cbor P_Cbor P_Cbor2 M_Crypto S_Crypto P_Crypto M_Cose S_Cose P_Cose P_Hid2.

Lemma priv_round_trip C k : laws C -> proper_priv C k ->
  exists b k', marshal_priv k = Ok b /\ unmarshal_priv C b = Ok (Some k') /\ same_priv k k'.
Proof.
  intros HC [x y d Hx Hy Hd | seed Hs | n e d p q pre He Hp Hq Hg Hs].
  - destruct (marshal_ec_priv C {| ec_public := {| eq_curve := P256; eq_x := x; eq_y := y |}; ec_d := d |})
      as (b & E1 & E2); [repeat split; auto|auto|]. exists b. eexists. split; [exact E1|]. split; [exact E2|]. constructor.
  - destruct (marshal_ed_priv C seed Hs (l_ed_len C HC seed)) as (b & E1 & E2).
    exists b. eexists. split; [exact E1|]. split; [exact E2|]. constructor.
  - set (kk := {| rs_public := _ |}).
    destruct (marshal_rsa_priv C kk) as (b & k' & E1 & E2 & E3 & E4 & E5 & _).
    + exists p, q, pre. cbn. auto.
    + cbn. intros p' q' E. injection E as <- <-. destruct (l_rsa_pre C HC d p q Hp Hq Hg) as [x ->]. discriminate.
    + exists b. eexists. split; [exact E1|]. split; [exact E2|]. apply SameRsa; auto.
Qed.

Lemma priv_equal_iff C k k' : proper_priv C k -> proper_priv C k' ->
  (cose_priv_equal k k' = true <-> same_priv k k').
Proof.
  intros [x y d _ _ _|s _|n e d p q pre _ _ _ _ _] [x' y' d' _ _ _|s' _|n' e' d' p' q' pre' _ _ _ _ _];
    unfold cose_priv_equal; cbn [kp_ec kp_ed kp_rsa opt_eqb andb];
    rewrite ?andb_true_r; try (split; [discriminate | intro H; inversion H]; fail).
  - rewrite ec_priv_eqb_eq. split; [intros ->; constructor|]. intro H. inversion H. reflexivity.
  - rewrite bytes_eqb_eq. split; [intros ->; constructor|]. intro H. inversion H. congruence.
  - rewrite rsa_priv_eqb_eq. cbn [rs_public rs_d rs_primes]. split.
    + intros (A & B & D). injection A as -> ->. injection D as -> ->. subst. now apply SameRsa.
    + intro H. inversion H; subst. auto.
Qed.

Lemma priv_stable C k b : laws C -> proper_priv C k -> kp_rsa k = None ->
  marshal_priv k = Ok b -> unmarshal_priv C b = Ok (Some k).
Proof.
  intros HC Hp Hr Hb. destruct (priv_round_trip C k HC Hp) as (b' & k' & E1 & E2 & E3).
  assert (b' = b) as -> by congruence. rewrite E2. f_equal. f_equal.
  inversion E3; subst; try reflexivity. cbn in Hr. discriminate.
Qed.

Lemma big_len_iff x : x < 2 ^ 256 -> (len (big_bytes x) = 32 <-> 2 ^ 248 <= x).
Proof.
  intro H. pose proof (big_bytes_32 x H) as H32. split.
  - intro E. destruct (N.lt_ge_cases x (2 ^ 248)) as [L|L]; auto.
    assert (len (big_bytes x) <= 31) by (apply big_bytes_le; exact L). lia.
  - intro L. assert (~ len (big_bytes x) <= 31); [|lia].
    intro K. pose proof (big_set_bound (big_bytes x) (big_bytes_wf x)) as B. rewrite big_set_bytes in B.
    assert (256 ^ len (big_bytes x) <= 256 ^ 31) by (apply N.pow_le_mono_r; lia).
    change (2 ^ 248) with (256 ^ 31) in L. lia.
Qed.

Lemma coordinate_len x : x < 2 ^ 256 ->
  (big_bytes x = be 32 x <-> 2 ^ 248 <= x) /\ len (big_bytes x) <= 32 /\ be_dec (big_bytes x) = x.
Proof.
  intro H. split; [|split; [now apply big_bytes_32 | apply big_set_bytes]].
  rewrite <- big_len_iff by exact H. split.
  - intros ->. apply be_len.
  - intro E. unfold big_bytes in *. rewrite be_len in E. now replace (nbytes x) with 32%nat by lia.
Qed.

Lemma marshal_ec_doc x y : 
  marshal_pub (pub_ec {| eq_curve := P256; eq_x := x; eq_y := y |}) =
  Ok (cenc (cose_es256 (big_bytes x) (big_bytes y))).
Proof.
  cbn [marshal_pub pub_ec kq_ec encode_ecdsa_pub eq_curve eq_x eq_y]. unfold encode_ecdsa_pub, marshal_cbor.
  cbn [eq_curve eq_x eq_y]. rewrite ec2_struct. reflexivity.
Qed.

Lemma cose_es256_good x y : wfb x -> wfb y -> len x < 256 ^ 8 -> len y < 256 ^ 8 -> cgood (cose_es256 x y).
Proof.
  intros. unfold cose_es256. cbn [cgood fold_right fst snd].
  split; [vm_compute; reflexivity|]. split.
  - repeat split; auto; try (vm_compute; reflexivity).
  - apply increasing_sorted. vm_compute. reflexivity.
Qed.

Lemma pub_ecdsa x y : x < 2 ^ 256 -> y < 2 ^ 256 ->
  let k := pub_ec {| eq_curve := P256; eq_x := x; eq_y := y |} in
  exists b, marshal_pub k = Ok b /\ unmarshal_pub b = Ok (Some k) /\ cose_pub_equal k k = true /\
    canonical (cose_es256 (big_bytes x) (big_bytes y)) b.
Proof.
  intros Hx Hy k. destruct (marshal_ec_pub {| eq_curve := P256; eq_x := x; eq_y := y |}) as (b & E1 & E2).
  { repeat split; auto. }
  exists b. split; [exact E1|]. split; [exact E2|]. split.
  - unfold k, cose_pub_equal. cbn [pub_ec kq_ec kq_ed kq_rsa opt_eqb]. rewrite (proj2 (ec_pub_eqb_eq _ _) eq_refl). reflexivity.
  - rewrite marshal_ec_doc in E1. injection E1 as <-. apply cenc_canonical.
    apply cose_es256_good; auto using big_bytes_wf, p256_len64.
Qed.

Lemma pub_rsa_lost n e : N.size n <= 1000000 ->
  exists b, marshal_pub (pub_rsa {| rq_n := n; rq_e := e |}) = Ok b /\ unmarshal_pub b = Panic /\
    forall e', marshal_pub (pub_rsa {| rq_n := n; rq_e := e' |}) = Ok b.
Proof.
  intro H. destruct (marshal_rsa_pub {| rq_n := n; rq_e := e |} H) as (b & E1 & E2).
  exists b. split; [exact E1|]. split; [exact E2|]. intro e'. rewrite <- E1. now apply rsa_pub_blind.
Qed.

Lemma pub_ec_short : exists x y b, on_p256 x y /\
  marshal_pub (pub_ec {| eq_curve := P256; eq_x := x; eq_y := y |}) = Ok b /\
  ~ canonical (cose_es256 (be 32 x) (be 32 y)) b.
Proof.
  exists 5, 31468013646237722594854082025316614106172411895747863909393730389177298123724. eexists.
  split; [repeat split; vm_compute; reflexivity|]. split; [reflexivity|].
  intro H. apply canonical_cenc in H. vm_compute in H. discriminate.
Qed.

Lemma cbc_panics C key data : ~ (aes_key key /\ len data mod 16 = 0) ->
  encrypt_cbc C key data = Panic /\ decrypt_cbc C key data = Panic.
Proof.
  intro H. unfold encrypt_cbc, decrypt_cbc.
  destruct (aes_key_ok key) eqn:E; cbn [andb]; auto.
  destruct (N.eqb_spec (len data mod 16) 0); auto.
  exfalso. apply H. split; auto. now apply aes_key_ok_iff.
Qed.

(* ------------------------------------------------------------------ *)
(* Integer codecs                                                      *)

Lemma le_nth n : forall v i, (i < n)%nat -> nth i (le n v) 0 = (v / 256 ^ N.of_nat i) mod 256.
Proof.
  induction n as [|n IH]; intros v i H; [lia|]. cbn [le]. destruct i as [|i].
  - cbn [nth]. change (256 ^ N.of_nat 0) with 1. now rewrite N.div_1_r.
  - cbn [nth]. rewrite IH by lia.
    replace (N.of_nat (S i)) with (1 + N.of_nat i) by lia.
    rewrite N.pow_add_r. change (256 ^ 1) with 256. f_equal. apply N.div_div; [lia|].
    apply N.pow_nonzero. lia.
Qed.

Lemma le_length' n : forall v, length (le n v) = n.
Proof. induction n; intro v; cbn [le length]; auto. Qed.

Lemma codec_digits n v i : (i < n)%nat ->
  nth i (le n v) 0 = (v / 256 ^ N.of_nat i) mod 256 /\
  nth i (be n v) 0 = (v / 256 ^ N.of_nat (n - 1 - i)) mod 256 /\
  length (le n v) = n /\ length (be n v) = n.
Proof.
  intro H. split; [now apply le_nth|]. split; [|split; [apply le_length' | apply be_length]].
  unfold be. rewrite rev_nth by (rewrite le_length'; lia). rewrite le_length'.
  replace (n - S i)%nat with (n - 1 - i)%nat by lia. apply le_nth. lia.
Qed.

Lemma codec_read_back n v rest : v < 256 ^ N.of_nat n ->
  read_le n (le n v ++ rest) = Ok (v, rest) /\ read_be n (be n v ++ rest) = Ok (v, rest) /\
  from_be n (be n v) = Ok v.
Proof.
  intro H. split; [now apply read_le_app|]. split; [now apply read_be_app|].
  unfold from_be. rewrite <- (app_nil_r (be n v)), read_be_app by exact H. reflexivity.
Qed.

Lemma codec_short n buf :
  (read_le n buf = Panic <-> len buf < N.of_nat n) /\ (read_be n buf = Panic <-> len buf < N.of_nat n).
Proof.
  unfold read_le, read_be. destruct (N.ltb_spec (len buf) (N.of_nat n)); split; split; intro; auto; try discriminate; lia.
Qed.

Lemma le_le_dec b : wfb b -> le (length b) (le_dec b) = b.
Proof.
  induction 1 as [|x b Hx Hb IH]; cbn [length le le_dec]; auto. unfold byte_ok in Hx.
  f_equal; [lia|]. replace ((x + 256 * le_dec b) / 256) with (le_dec b) by lia. exact IH.
Qed.

Lemma codec_read_write n buf v rest : wfb buf ->
  (read_le n buf = Ok (v, rest) -> buf = le n v ++ rest /\ v < 256 ^ N.of_nat n) /\
  (read_be n buf = Ok (v, rest) -> buf = be n v ++ rest /\ v < 256 ^ N.of_nat n).
Proof.
  intro Hw. unfold read_le, read_be. destruct (N.ltb_spec (len buf) (N.of_nat n)) as [L|L]; [split; discriminate|].
  assert (El : length (firstn n buf) = n) by (rewrite firstn_length; unfold len in L; lia).
  assert (Ew : wfb (firstn n buf)) by now apply wfb_firstn.
  assert (Ln : len (firstn n buf) = N.of_nat n) by (unfold len; lia).
  split; intro H; injection H as <- <-.
  - rewrite <- El at 1. rewrite le_le_dec by exact Ew. split; [symmetry; apply firstn_skipn|].
    rewrite <- Ln. rewrite <- (rev_involutive (firstn n buf)) at 1.
    change (le_dec (rev (rev (firstn n buf)))) with (be_dec (rev (firstn n buf))).
    assert (W : wfb (rev (firstn n buf))) by (apply Forall_rev; exact Ew).
    pose proof (big_set_bound _ W) as B. unfold len in *. rewrite rev_length in B. exact B.
  - rewrite <- El at 1. rewrite be_be_dec by exact Ew. split; [symmetry; apply firstn_skipn|].
    rewrite <- Ln. now apply big_set_bound.
Qed.

(* ------------------------------------------------------------------ *)
(* CBC                                                                 *)

Lemma skipn_add {A} a : forall b (l : list A), skipn a (skipn b l) = skipn (b + a) l.
Proof. induction b as [|b IH]; intro l; cbn [skipn Nat.add]; auto. destruct l; auto. apply skipn_nil. Qed.

Lemma cbc_blocks C key n : laws C -> aes_key key -> forall iv data i, (i < n)%nat ->
  len iv = 16 -> (length data = 16 * n)%nat ->
  block i (cbc_enc C n key iv data) =
  aes_enc C key (xor (block i data) (match i with O => iv | S j => block j (cbc_enc C n key iv data) end)).
Proof.
  intros HC Hk. induction n as [|n IH]; intros iv data i Hi Hiv Hd; [lia|].
  cbn [cbc_enc]. set (c := aes_enc C key (xor (firstn 16 data) iv)).
  assert (Lc : length c = 16%nat).
  { assert (len c = 16); [|unfold len in *; lia]. apply l_aes_len; auto.
    assert (len (firstn 16 data) = 16) by (unfold len; rewrite firstn_length; lia).
    rewrite xor_len; congruence. }
  assert (S1 : forall j m, block (S j) (c ++ m) = block j m).
  { intros j m. unfold block. rewrite skipn_app, skipn_all2 by lia. cbn [app].
    do 2 f_equal. lia. }
  assert (S0 : forall m, block 0 (c ++ m) = c).
  { intro m. unfold block. rewrite Nat.mul_0_r. cbn [skipn]. rewrite firstn_app, firstn_all2 by lia.
    replace (16 - length c)%nat with O by lia. cbn [firstn]. apply app_nil_r. }
  destruct i as [|i].
  - rewrite S0. unfold c, block. rewrite Nat.mul_0_r. reflexivity.
  - rewrite S1. rewrite IH; [|lia|unfold len; lia|rewrite skipn_length; lia].
    f_equal. f_equal.
    + unfold block. rewrite skipn_add. do 2 f_equal. lia.
    + destruct i; [now rewrite S0|]. now rewrite S1.
Qed.

Lemma encrypt_cbc_blocks C key data c i : laws C -> encrypt_cbc C key data = Ok c -> (16 * i < length data)%nat ->
  block i c = aes_enc C key (xor (block i data) (match i with O => zeros 16 | S j => block j c end)).
Proof.
  intros HC H Hi. unfold encrypt_cbc in H.
  destruct (aes_key_ok key && (len data mod 16 =? 0)) eqn:E; [|discriminate]. injection H as <-.
  apply andb_true_iff in E. destruct E as [E1 E2]. apply aes_key_ok_iff in E1. apply N.eqb_eq, mod16 in E2.
  apply cbc_blocks; [exact HC | exact E1 | | reflexivity | exact E2].
  change (i < length data / 16)%nat. clear -E2 Hi. set (n := (length data / 16)%nat) in *. clearbody n. lia.
Qed.
