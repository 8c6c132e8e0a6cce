(* What happens to a saved state that is read with another passphrase, or with bytes after it. *)
From Verif Require Import Base M_Str M_Utf8 M_Cbor M_Json M_Crypto M_State S_Cbor S_Crypto S_State.
From Verif Require Import P_Cbor P_Cbor2 P_Crypto P_Json P_State.
From Coq Require Import Lia.

Lemma parse_object l r : jok (JObj l) -> forall f, (jsize (JObj l) <= f)%nat ->
  parse_val f (jenc (JObj l) ++ r) = POk (JObj l) r.
Proof.
  intros Hok [|f] Hf; [cbn in Hf; lia|]. apply jok_obj in Hok. cbn [jenc]. rewrite <- app_comm_cons, <- app_assoc.
  change ([125] ++ r) with (125 :: r).
  cbn [parse_val skip_ws]. change (is_ws 123) with false. cbv iota.
  change (123 =? 123) with true. cbv iota.
  destruct l as [|p l]; [reflexivity|].
  assert (P := proj1 (proj2 (parse_jenc f)) (p :: l) r ltac:(discriminate) ltac:(cbn in Hf |- *; lia) Hok).
  change (map (fun p0 => enc_string (fst p0) ++ 58 :: jenc (snd p0)) (p :: l)) with (map member (p :: l)).
  assert (Q : exists u, sep (map member (p :: l)) ++ 125 :: r = 34 :: u).
  { cbn [map]. destruct l as [|w l]; [cbn; eexists; reflexivity|].
    rewrite sep_cons by discriminate. eexists; reflexivity. }
  destruct Q as (u & Q). rewrite Q in *. rewrite skip_ws_hd by reflexivity.
  rewrite eat_not by discriminate. rewrite P. reflexivity.
Qed.

Lemma is_ws_blank b : is_ws b = true <-> json_space b.
Proof. unfold is_ws, json_space. rewrite !orb_true_iff, !N.eqb_eq. tauto. Qed.

Lemma skip_ws_nil s : skip_ws s = [] <-> Forall json_space s.
Proof.
  induction s as [|b s IH]; cbn [skip_ws]; [split; constructor|].
  rewrite Forall_cons_iff, <- is_ws_blank. destruct (is_ws b); [tauto|]. split; [discriminate|intros [A _]; discriminate A].
Qed.

Lemma parse_json_tail l rest : jok (JObj l) ->
  (Forall json_space rest -> parse_json (jenc (JObj l) ++ rest) = Some (JObj l)) /\
  (~ Forall json_space rest -> parse_json (jenc (JObj l) ++ rest) = None).
Proof.
  intro H. unfold parse_json. rewrite parse_object; [|exact H|].
  - rewrite <- skip_ws_nil. split; intro A; [now rewrite A|]. destruct (skip_ws rest); [contradiction|reflexivity].
  - pose proof (jsize_len _ H). rewrite app_length. lia.
Qed.

Lemma state_tail C (L : laws C) passphrase passphrase' data d out rest : proper_draws d -> wfb data ->
  encrypt_with_passphrase C passphrase data d = Some out ->
  (Forall json_space rest -> decrypt_with_passphrase C passphrase' (out ++ rest) = decrypt_with_passphrase C passphrase' out) /\
  (~ Forall json_space rest -> decrypt_with_passphrase C passphrase' (out ++ rest) = Ok None).
Proof.
  intros Hd W E. rewrite encrypt_with_passphrase_eq in E by assumption. assert (Eo : out = jenc (jblob (sealed_blob C passphrase data d))) by congruence. subst out. clear E.
  assert (J : jok (jblob (sealed_blob C passphrase data d))).
  { destruct Hd as (A & B & D & E & F & G & H). apply jok_blob; try assumption; now apply (l_gcm_wf C L). }
  unfold decrypt_with_passphrase, junmarshal. rewrite (parse_json_jenc _ J).
  unfold jblob in *. destruct (parse_json_tail _ rest J) as [A B].
  split; intro Q; [now rewrite (A Q)|now rewrite (B Q)].
Qed.

Lemma state_other_passphrase C (L : laws C) passphrase passphrase' data d out : proper_draws d -> wfb data ->
  encrypt_with_passphrase C passphrase data d = Some out ->
  decrypt_with_passphrase C passphrase' out <> Panic /\
  (decrypt_with_passphrase C passphrase' out = Ok None \/
   exists key, gcm_seal C (scrypt_key C passphrase' (dr_salt d)) (dr_key_nonce d) key =
               gcm_seal C (scrypt_key C passphrase (dr_salt d)) (dr_key_nonce d) (dr_key d)).
Proof.
  intros Hd W E. rewrite encrypt_with_passphrase_eq in E by assumption. assert (Eo : out = jenc (jblob (sealed_blob C passphrase data d))) by congruence. subst out. clear E.
  destruct Hd as (A & B & D & E & F & G & H).
  assert (S1 : wfb (gcm_seal C (scrypt_key C passphrase (dr_salt d)) (dr_key_nonce d) (dr_key d))) by now apply (l_gcm_wf C L).
  assert (S2 : wfb (gcm_seal C (dr_key d) (dr_data_nonce d) data)) by now apply (l_gcm_wf C L).
  unfold decrypt_with_passphrase, junmarshal.
  rewrite parse_json_jenc by (apply jok_blob; assumption). cbn [obind].
  rewrite jdec_blob_ok by assumption. unfold sealed_blob. cbn [bl_salt bl_key bl_key_nonce bl_data bl_data_nonce or_nil].
  unfold decrypt at 1 3. rewrite (aes_key_ok_32 (scrypt_key _ _ _)) by apply (l_scrypt_len C L). rewrite E.
  change (12 =? 12) with true. cbn [rbind]. cbv iota.
  destruct (gcm_open C (scrypt_key C passphrase' (dr_salt d)) (dr_key_nonce d) _) as [key|] eqn:O.
  2:{ split; [discriminate|now left]. }
  apply (l_gcm_only C L) in O. split; [|right; exists key; now symmetry].
  assert (K : len key = 32).
  { pose proof (l_gcm_len C L (scrypt_key C passphrase' (dr_salt d)) (dr_key_nonce d) key) as X. rewrite <- O in X.
    rewrite (l_gcm_len C L) in X. lia. }
  unfold decrypt. rewrite (aes_key_ok_32 key) by exact K. rewrite G. discriminate.
Qed.

(* The outcome for every blob. *)
Lemma state_refused C (L : laws C) passphrase data :
  (junmarshal jdec_blob data = None -> decrypt_with_passphrase C passphrase data = Ok None) /\
  (forall b, junmarshal jdec_blob data = Some b -> len (or_nil (bl_key_nonce b)) = 12 ->
     gcm_open C (scrypt_key C passphrase (or_nil (bl_salt b))) (or_nil (bl_key_nonce b)) (or_nil (bl_key b)) = None ->
     decrypt_with_passphrase C passphrase data = Ok None) /\
  (forall b key, junmarshal jdec_blob data = Some b -> len (or_nil (bl_key_nonce b)) = 12 ->
     gcm_open C (scrypt_key C passphrase (or_nil (bl_salt b))) (or_nil (bl_key_nonce b)) (or_nil (bl_key b)) = Some key ->
     aes_key key -> len (or_nil (bl_data_nonce b)) = 12 ->
     gcm_open C key (or_nil (bl_data_nonce b)) (or_nil (bl_data b)) = None ->
     decrypt_with_passphrase C passphrase data = Ok None).
Proof.
  unfold decrypt_with_passphrase. split; [now intros ->|]. split.
  - intros b -> N O. unfold decrypt at 1. rewrite (aes_key_ok_32 (scrypt_key _ _ _)) by apply (l_scrypt_len C L).
    rewrite N. change (12 =? 12) with true. now rewrite O.
  - intros b key -> N O K M P. unfold decrypt at 1. rewrite (aes_key_ok_32 (scrypt_key _ _ _)) by apply (l_scrypt_len C L).
    rewrite N. change (12 =? 12) with true. rewrite O. cbn [rbind]. unfold decrypt.
    rewrite (proj2 (aes_key_ok_iff key) K), M. now rewrite P.
Qed.
