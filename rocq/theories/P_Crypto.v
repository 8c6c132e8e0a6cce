(* Proofs about crypto/crypto.go and a toy instance of the primitives' laws. *)
From Verif Require Import Base M_Cbor M_Crypto S_Crypto.

(* ------------------------------------------------------------------ *)
(* big.Int Bytes                                                       *)

Lemma nbytes_bound n : n < 256 ^ N.of_nat (nbytes n).
Proof.
  unfold nbytes. rewrite N2Nat.id.
  pose proof (N.size_gt n) as H.
  assert (2 ^ N.size n <= 256 ^ ((N.size n + 7) / 8)); [|lia].
  change 256 with (2 ^ 8). rewrite <- N.pow_mul_r. apply N.pow_le_mono_r; lia.
Qed.

Lemma big_set_bytes n : big_set (big_bytes n) = n.
Proof. unfold big_set, big_bytes. apply be_dec_be_small, nbytes_bound. Qed.

Lemma big_bytes_wf n : wfb (big_bytes n).
Proof. apply be_wf. Qed.

Lemma big_bytes_len n : len (big_bytes n) = (N.size n + 7) / 8.
Proof. unfold big_bytes. rewrite be_len. unfold nbytes. apply N2Nat.id. Qed.

Lemma size_le n k : n < 2 ^ k -> N.size n <= k.
Proof.
  intro H. destruct n as [|p]; [cbn; lia|].
  rewrite N.size_log2 by lia.
  assert (N.log2 (N.pos p) < k); [|lia].
  apply N.log2_lt_pow2; lia.
Qed.

Lemma big_bytes_le k n : n < 256 ^ k -> len (big_bytes n) <= k.
Proof.
  intro H. rewrite big_bytes_len.
  assert (N.size n <= 8 * k); [|lia].
  apply size_le. rewrite N.pow_mul_r. exact H.
Qed.

Lemma big_bytes_32 n : n < 2 ^ 256 -> len (big_bytes n) <= 32.
Proof. intro H. apply big_bytes_le. exact H. Qed.

Lemma big_set_bound b : wfb b -> big_set b < 256 ^ len b.
Proof. apply be_dec_bound. Qed.

(* ------------------------------------------------------------------ *)
(* xor                                                                 *)

Lemma xor_len a b : len a = len b -> len (xor a b) = len a.
Proof.
  revert b; induction a as [|x a IH]; intros [|y b] H; auto; rewrite ?len_cons in *; try (change (len (@nil N)) with 0 in *; lia).
  cbn [xor]. rewrite len_cons, IH; lia.
Qed.

Lemma lxor_byte x y : x < 256 -> y < 256 -> N.lxor x y < 256.
Proof.
  intros Hx Hy. destruct (N.eq_dec (N.lxor x y) 0) as [->|Hn]; [lia|].
  apply N.log2_lt_cancel. change (N.log2 256) with 8.
  pose proof (N.log2_lxor x y).
  assert (forall z, z < 256 -> N.log2 z < 8).
  { intros z Hz. destruct (N.eq_dec z 0) as [->|]; [cbn; lia|]. apply N.log2_lt_pow2; [lia|exact Hz]. }
  specialize (H0 x Hx) as A. specialize (H0 y Hy) as B. lia.
Qed.

Lemma xor_wf a b : wfb a -> wfb b -> wfb (xor a b).
Proof.
  intro Ha. revert b. induction Ha as [|x a Hx Ha IH]; intros [|y b] Hb; cbn [xor]; auto with wf.
  apply wfb_cons in Hb as [Hy Hb]. apply wfb_cons. split; [apply lxor_byte; auto|auto].
Qed.

Lemma xor_xor a b : len a = len b -> xor (xor a b) b = a.
Proof.
  revert b; induction a as [|x a IH]; intros [|y b] H; auto; rewrite ?len_cons in *; try (change (len (@nil N)) with 0 in *; lia).
  cbn [xor]. rewrite IH by lia. f_equal. rewrite N.lxor_assoc, N.lxor_nilpotent. apply N.lxor_0_r.
Qed.

(* ------------------------------------------------------------------ *)
(* CBC                                                                 *)

Lemma aes_key_ok_iff k : aes_key_ok k = true <-> aes_key k.
Proof. unfold aes_key_ok, aes_key. lia. Qed.

Lemma firstn_len {A} n (l : list A) : (n <= length l)%nat -> len (firstn n l) = N.of_nat n.
Proof. intro. unfold len. rewrite firstn_length. lia. Qed.

Lemma wfb_firstn n l : wfb l -> wfb (firstn n l).
Proof. intro H. rewrite <- (firstn_skipn n l) in H. apply wfb_app in H. tauto. Qed.

Lemma wfb_skipn n l : wfb l -> wfb (skipn n l).
Proof. intro H. rewrite <- (firstn_skipn n l) in H. apply wfb_app in H. tauto. Qed.

Lemma len_length {A} (l : list A) k : len l = N.of_nat k <-> length l = k.
Proof. unfold len. lia. Qed.

Lemma cbc_enc_len C n key iv data :
  laws C -> aes_key key -> (length data = 16 * n)%nat -> len iv = 16 ->
  length (cbc_enc C n key iv data) = (16 * n)%nat.
Proof.
  intros L K. revert iv data. induction n as [|n IH]; intros iv data Hd Hi; [reflexivity|].
  cbn [cbc_enc]. rewrite app_length.
  assert (Hc : len (aes_enc C key (xor (firstn 16 data) iv)) = 16).
  { apply (l_aes_len C L); auto. rewrite xor_len; rewrite firstn_len; lia. }
  rewrite IH; [|rewrite skipn_length; lia|auto]. unfold len in Hc. lia.
Qed.

Lemma cbc_dec_len C n key iv data :
  laws C -> aes_key key -> (length data = 16 * n)%nat -> len iv = 16 ->
  length (cbc_dec C n key iv data) = (16 * n)%nat.
Proof.
  intros L K. revert iv data. induction n as [|n IH]; intros iv data Hd Hi; [reflexivity|].
  cbn [cbc_dec]. rewrite app_length.
  assert (Hc : len (xor (aes_dec C key (firstn 16 data)) iv) = 16).
  { rewrite xor_len; rewrite (l_aes_dec_len C L); auto; rewrite firstn_len; lia. }
  rewrite IH; [|rewrite skipn_length; lia|rewrite firstn_len; lia]. unfold len in Hc. lia.
Qed.

Lemma cbc_enc_wf C n key iv data : laws C -> wfb (cbc_enc C n key iv data).
Proof.
  intro L. revert iv data. induction n as [|n IH]; intros iv data; cbn [cbc_enc]; [apply wfb_nil|].
  apply wfb_app. split; [apply (l_aes_wf C L)|apply IH].
Qed.

Lemma cbc_dec_wf C n key iv data : laws C -> wfb iv -> wfb data -> wfb (cbc_dec C n key iv data).
Proof.
  intro L. revert iv data. induction n as [|n IH]; intros iv data Hi Hd; cbn [cbc_dec]; [apply wfb_nil|].
  apply wfb_app. split; [apply xor_wf; auto; apply (l_aes_dec_wf C L)|].
  apply IH; auto using wfb_firstn, wfb_skipn.
Qed.

Lemma cbc_inverse C n key iv data :
  laws C -> aes_key key -> (length data = 16 * n)%nat -> len iv = 16 -> wfb iv -> wfb data ->
  cbc_dec C n key iv (cbc_enc C n key iv data) = data.
Proof.
  intros L K. revert iv data. induction n as [|n IH]; intros iv data Hd Hi Wi Wd.
  - destruct data; [reflexivity|cbn in Hd; lia].
  - cbn [cbc_enc cbc_dec].
    set (blk := firstn 16 data).
    assert (Hb : len blk = 16) by (apply firstn_len; lia).
    assert (Hx : len (xor blk iv) = 16) by (rewrite xor_len; lia).
    set (c := aes_enc C key (xor blk iv)).
    assert (Hc : len c = 16) by (apply (l_aes_len C L); auto).
    assert (E1 : firstn 16 (c ++ cbc_enc C n key c (skipn 16 data)) = c).
    { apply (takeN_exact c _ 16 Hc). }
    assert (E2 : skipn 16 (c ++ cbc_enc C n key c (skipn 16 data)) = cbc_enc C n key c (skipn 16 data)).
    { apply (dropN_exact c _ 16 Hc). }
    rewrite E1, E2. unfold c at 1.
    rewrite (l_aes_inv C L); auto; [|apply xor_wf; auto; now apply wfb_firstn].
    rewrite xor_xor by lia.
    rewrite IH; [unfold blk; apply firstn_skipn| | | |now apply wfb_skipn].
    + rewrite skipn_length. lia.
    + exact Hc.
    + apply (l_aes_wf C L).
Qed.

Lemma mod16 {A} (l : list A) : len l mod 16 = 0 -> (length l = 16 * (length l / 16))%nat.
Proof. unfold len. intro H. lia. Qed.

Lemma decrypt_encrypt_cbc C key data :
  laws C -> aes_key key -> len data mod 16 = 0 -> wfb data ->
  exists c, encrypt_cbc C key data = Ok c /\ len c = len data /\ wfb c /\ decrypt_cbc C key c = Ok data.
Proof.
  intros L K Hm Hw. unfold encrypt_cbc.
  rewrite (proj2 (aes_key_ok_iff key) K), (proj2 (N.eqb_eq _ _) Hm). cbn [andb].
  eexists. split; [reflexivity|].
  assert (Hl : length (cbc_enc C (length data / 16) key (zeros 16) data) = length data).
  { rewrite cbc_enc_len; auto; [symmetry|]; now apply mod16. }
  assert (HL : len (cbc_enc C (length data / 16) key (zeros 16) data) = len data) by (unfold len; lia).
  split; [exact HL|]. split; [now apply cbc_enc_wf|].
  unfold decrypt_cbc. rewrite (proj2 (aes_key_ok_iff key) K), HL, (proj2 (N.eqb_eq _ _) Hm). cbn [andb].
  f_equal. rewrite Hl. apply cbc_inverse; auto; [now apply mod16|apply wfb_zeros].
Qed.

(* ------------------------------------------------------------------ *)
(* A toy instance: the laws are satisfiable                             *)

Definition toy_pad (n : nat) (b : bytes) : bytes := firstn n (map (fun x => x mod 256) b ++ zeros n).

Lemma toy_pad_len n b : len (toy_pad n b) = N.of_nat n.
Proof.
  unfold toy_pad. unfold len. rewrite firstn_length, app_length, map_length.
  unfold zeros. rewrite repeat_length. lia.
Qed.

Lemma toy_pad_wf n b : wfb (toy_pad n b).
Proof.
  unfold toy_pad. apply wfb_firstn, wfb_app. split; [|apply wfb_zeros].
  induction b as [|x b IH]; cbn [map]; auto with wf. apply wfb_cons. split; [lia|auto].
Qed.

(* A checksum, so that different inputs usually give different toy digests. *)
Fixpoint toy_sum (b : bytes) : N :=
  match b with [] => 7 | x :: r => (x + 31 * toy_sum r) mod 18446744073709551557 end.

Definition toy_hash (b : bytes) : bytes := be 16 (toy_sum b) ++ toy_pad 16 b.

Lemma toy_hash_len b : len (toy_hash b) = 32.
Proof. unfold toy_hash. now rewrite len_app, be_len, toy_pad_len. Qed.

Lemma toy_hash_wf b : wfb (toy_hash b).
Proof. unfold toy_hash. apply wfb_app. split; auto using be_wf, toy_pad_wf. Qed.

Definition toy_tag (k n : bytes) : bytes := be 16 (toy_sum (k ++ n)).

Definition toy : Crypto := {|
  sha256 := toy_hash;
  hmac256 := fun k b => toy_hash (k ++ b);
  aes_enc := fun _ b => map (fun x => x mod 256) b;
  aes_dec := fun _ b => map (fun x => x mod 256) b;
  gcm_seal := fun k n p => p ++ toy_tag k n;
  gcm_open := fun k n c =>
    let p := firstn (length c - 16) c in
    if bytes_eqb c (p ++ toy_tag k n) then Some p else None;
  scrypt_key := fun p s => toy_hash (p ++ s);
  p256_pub := fun d => (d, d + 1);
  p256_mul := fun a q => if snd q =? fst q + 1 then Some ((a * fst q) mod 2 ^ 256) else None;
  ecdsa_sign := fun d h r => be 32 d ++ toy_pad 32 h ++ r;
  ecdsa_verify := fun q h s => bytes_eqb (firstn 64 s) (be 32 (fst q) ++ toy_pad 32 h);
  ed_of_seed := fun s => toy_pad 32 s;
  ed_sign := fun k m => toy_pad 32 k ++ toy_hash m;
  ed_verify := fun k m s => bytes_eqb s (toy_pad 32 k ++ toy_hash m);
  rsa_sign := fun k h r => big_bytes (rq_n (rs_public k)) ++ h;
  rsa_verify := fun k h s => bytes_eqb s (big_bytes (rq_n k) ++ h);
  rsa_precompute := fun d p q => Ok {| rp_dp := d mod p; rp_dq := d mod q; rp_qinv := q mod p |};
  ec_parse := fun b =>
    let d := be_dec (firstn 32 (skipn 7 b)) in
    if bytes_eqb b (sec1 d (d, d + 1)) && (0 <? d) && (d <? p256_order)
    then Some {| ec_public := {| eq_curve := P256; eq_x := d; eq_y := d + 1 |}; ec_d := d |}
    else None
|}.

Lemma map_mod_wf b : wfb (map (fun x => x mod 256) b).
Proof. induction b as [|x b IH]; cbn [map]; auto with wf. apply wfb_cons. split; [lia|auto]. Qed.

Lemma map_mod_id b : wfb b -> map (fun x => x mod 256) b = b.
Proof.
  induction 1 as [|x b Hx Hb IH]; cbn [map]; auto. unfold byte_ok in Hx.
  rewrite IH. f_equal. lia.
Qed.

Lemma toy_laws : laws toy.
Proof.
  constructor; cbn [sha256 hmac256 aes_enc aes_dec gcm_seal gcm_open scrypt_key p256_pub p256_mul
    ecdsa_sign ecdsa_verify ec_parse toy]; intros.
  - apply toy_hash_len.
  - apply toy_hash_wf.
  - apply toy_hash_len.
  - apply toy_hash_wf.
  - unfold len. rewrite map_length. exact H0.
  - apply map_mod_wf.
  - unfold len. rewrite map_length. exact H0.
  - apply map_mod_wf.
  - rewrite map_mod_id; [|apply map_mod_wf]. now apply map_mod_id.
  - assert (E : firstn (length (p ++ toy_tag k n) - 16) (p ++ toy_tag k n) = p).
    { unfold toy_tag. rewrite app_length, be_length.
      replace (length p + 16 - 16)%nat with (length p) by lia.
      rewrite firstn_app, Nat.sub_diag. cbn [firstn]. rewrite app_nil_r. apply firstn_all. }
    cbv zeta. rewrite E, bytes_eqb_refl. reflexivity.
  - destruct (bytes_eqb c (firstn (length c - 16) c ++ toy_tag k n)) eqn:E; [|discriminate].
    injection H as <-. now apply bytes_eqb_eq.
  - unfold toy_tag. now rewrite len_app, be_len.
  - rewrite wfb_app. split; [intro W; split; [exact W|apply be_wf]|tauto].
  - apply toy_hash_len.
  - apply toy_hash_wf.
  - cbn [fst]. destruct H as [_ H]. unfold p256_order in H.
    change (2 ^ 256) with 115792089237316195423570985008687907853269984665640564039457584007913129639936. lia.
  - cbn [snd]. destruct H as [_ H]. unfold p256_order in H.
    change (2 ^ 256) with 115792089237316195423570985008687907853269984665640564039457584007913129639936. lia.
  - cbn [fst].
    assert (E : firstn 64 ((be 32 d ++ toy_pad 32 h) ++ r) = be 32 d ++ toy_pad 32 h).
    { apply (takeN_exact _ _ 64). rewrite len_app, be_len, toy_pad_len. reflexivity. }
    rewrite app_assoc, E. apply bytes_eqb_refl.
  - apply wfb_app. split; [apply be_wf|]. apply wfb_app. split; [apply toy_pad_wf|auto].
  - rewrite !len_app, be_len, toy_pad_len. lia.
  - cbn [fst snd]. rewrite !N.eqb_refl. exists ((a * b) mod 2 ^ 256). split; [|split].
    + apply N.mod_lt. discriminate.
    + reflexivity.
    + now rewrite N.mul_comm.
  - cbn [ed_of_seed toy]. apply toy_pad_len.
  - cbn [rsa_precompute toy]. eauto.
  - assert (E : be_dec (firstn 32 (skipn 7 (sec1 d (d, d + 1)))) = d).
    { unfold sec1. cbn [skipn app].
      replace (firstn 32 _) with (be 32 d).
      - apply be_dec_be_small. destruct H as [_ H]. unfold p256_order in H.
        change (256 ^ N.of_nat 32) with 115792089237316195423570985008687907853269984665640564039457584007913129639936. lia.
      - symmetry. apply (takeN_exact _ _ 32). apply be_len. }
    cbv zeta. rewrite E, bytes_eqb_refl. destruct H as [H1 H2].
    rewrite (proj2 (N.ltb_lt _ _) H1), (proj2 (N.ltb_lt _ _) H2). reflexivity.
Qed.
