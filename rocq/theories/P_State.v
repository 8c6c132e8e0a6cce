(* Proofs about the saved state. *)
From Verif Require Import Base M_Str M_Utf8 M_Cbor M_Json M_Crypto M_State S_Cbor S_Crypto S_State.
From Verif Require Import P_Cbor P_Cbor2 P_Crypto P_Json.

Ltac folds :=
  repeat match goal with
  | |- context [equal_fold ?a ?b] =>
    let v := eval vm_compute in (equal_fold a b) in change (equal_fold a b) with v
  end; cbv iota.

Ltac fields := unfold jfield; cbn [app fold_left fst snd]; folds.

Lemma jdec_bytes_ok b : wfo b -> jdec_bytes (jbytes b) = Some b.
Proof.
  destruct b as [b|]; cbn; intro H; [|reflexivity]. rewrite b64_round_trip by assumption. reflexivity.
Qed.

Lemma jdec_int_ok lo hi z : (lo <= z < hi)%Z -> jdec_int lo hi (JInt z) = Some z.
Proof.
  intro H. cbn. replace ((lo <=? z) && (z <? hi))%Z with true; [reflexivity|].
  symmetry. apply andb_true_intro. split; [apply Z.leb_le|apply Z.ltb_lt]; lia.
Qed.

Lemma jok_bytes b : wfo b -> jok (jbytes b).
Proof. destruct b; cbn; [apply b64_text|auto]. Qed.

Ltac txt := apply utf8_valid_iff; vm_compute; reflexivity.
Ltac joks := apply jok_obj;
  repeat (apply Forall_cons; [cbn [fst snd]; split; [txt|]|]); try apply Forall_nil.

Lemma jok_rp r : proper_rp r -> jok (jrp r).
Proof. intros (A & B). unfold jrp. joks; assumption. Qed.

Lemma jok_user u : proper_user u -> jok (juser u).
Proof. intros (A & B & D). unfold juser. joks; try assumption. now apply jok_bytes. Qed.

Lemma jok_source s : proper_source s -> jok (jsource s).
Proof.
  intros (A & B & D & E & F & G). unfold jsource. joks; try assumption; try exact I;
    try (now apply jok_bytes); [now apply jok_rp|now apply jok_user].
Qed.

Lemma jok_config c : proper_config c -> jok (jconfig c).
Proof.
  intros (A & B & D & E & F & G & H). unfold jconfig. apply jok_obj.
  repeat (apply Forall_app; split).
  - repeat (apply Forall_cons; [cbn [fst snd]; split; [txt|]|]); try apply Forall_nil;
      try (now apply jok_bytes). exact I.
  - destruct (cf_pin c); [|constructor]. constructor; [split; [txt|exact I]|constructor].
  - destruct (some_bytes (cf_pin_hash c)); [|constructor].
    constructor; [split; [txt|now apply jok_bytes]|constructor].
  - constructor; [|constructor]. split; [txt|]. cbn [snd]. apply jok_arr. apply Forall_map.
    eapply Forall_impl; [|exact H]. apply jok_source.
Qed.

Lemma jok_blob b : wfo (bl_salt b) -> wfo (bl_key b) -> wfo (bl_key_nonce b) -> wfo (bl_data b) ->
  wfo (bl_data_nonce b) -> jok (jblob b).
Proof. intros. unfold jblob. joks; now apply jok_bytes. Qed.

Lemma jdec_rp_ok r : jdec_rp (jrp r) = Some r.
Proof. unfold jdec_rp, jrp. cbn [jdec_fields obind]. fields. now destruct r. Qed.

Lemma jdec_user_ok u : proper_user u -> jdec_user (juser u) = Some u.
Proof.
  intros (A & _). unfold jdec_user, juser. cbn [jdec_fields obind]. fields.
  rewrite jdec_bytes_ok by assumption. now destruct u.
Qed.

Lemma jdec_source_ok s : proper_source s -> jdec_source (jsource s) = Some s.
Proof.
  intros (A & B & D & E & F & G). unfold jdec_source, jsource. cbn [jdec_fields obind]. fields.
  rewrite !jdec_bytes_ok, jdec_rp_ok, jdec_user_ok, jdec_int_ok by assumption. now destruct s.
Qed.

Lemma mapo_map {A B} (f : B -> option A) (g : A -> B) l :
  Forall (fun x => f (g x) = Some x) l -> mapo f (map g l) = Some l.
Proof. induction 1 as [|x l E _ IH]; cbn; [reflexivity|]. rewrite E, IH. reflexivity. Qed.

Lemma jdec_config_ok c : proper_config c -> jdec_config (jconfig c) = Some c.
Proof.
  intros (A & B & D & E & F & G & H). unfold jdec_config, jconfig. cbn [jdec_fields obind].
  assert (S : jdec_list jdec_source (JArr (map jsource (cf_sources c))) = Some (cf_sources c)).
  { cbn [jdec_list]. apply mapo_map. eapply Forall_impl; [|exact H]. apply jdec_source_ok. }
  assert (P : match cf_pin_hash c with Some (_ :: _) => True | Some [] => False | None => True end).
  { destruct (cf_pin_hash c) as [[|]|]; try exact I. now apply G. }
  destruct (cf_pin c) eqn:Ep; destruct (some_bytes (cf_pin_hash c)) eqn:Eh; fields;
    rewrite !jdec_bytes_ok, jdec_int_ok, S by (assumption || lia); cbn [jdec_bool jdec_bytes obind];
    rewrite N2Z.id; destruct c; cbn in *; subst; try reflexivity;
    destruct cf_pin_hash as [[|]|]; try discriminate; try contradiction; reflexivity.
Qed.

Lemma jdec_blob_ok b : wfo (bl_salt b) -> wfo (bl_key b) -> wfo (bl_key_nonce b) -> wfo (bl_data b) ->
  wfo (bl_data_nonce b) -> jdec_blob (jblob b) = Some b.
Proof.
  intros. unfold jdec_blob, jblob. cbn [jdec_fields obind]. fields.
  rewrite !jdec_bytes_ok by assumption. now destruct b.
Qed.

Lemma aes_key_ok_32 k : len k = 32 -> aes_key_ok k = true.
Proof. intro H. unfold aes_key_ok. now rewrite H. Qed.

Lemma decrypt_encrypt C (L : laws C) k p n : len k = 32 -> len n = 12 -> wfb p ->
  decrypt C k (gcm_seal C k n p) n = Ok (Some p).
Proof.
  intros Hk Hn Hp. unfold decrypt. rewrite aes_key_ok_32 by assumption. rewrite Hn. cbn [N.eqb].
  change (12 =? 12) with true. cbv iota. rewrite (l_gcm_open C L); [reflexivity| |assumption|assumption].
  right; right; assumption.
Qed.

Definition sealed_blob (C : Crypto) (passphrase data : bytes) (d : draws) : blob :=
  {| bl_salt := Some (dr_salt d);
     bl_key := Some (gcm_seal C (scrypt_key C passphrase (dr_salt d)) (dr_key_nonce d) (dr_key d));
     bl_key_nonce := Some (dr_key_nonce d);
     bl_data := Some (gcm_seal C (dr_key d) (dr_data_nonce d) data);
     bl_data_nonce := Some (dr_data_nonce d) |}.

Lemma encrypt_with_passphrase_eq C (L : laws C) passphrase data d : proper_draws d ->
  encrypt_with_passphrase C passphrase data d = Some (jenc (jblob (sealed_blob C passphrase data d))).
Proof.
  intros (A & B & D & E & F & G & H). unfold encrypt_with_passphrase, encrypt.
  rewrite (aes_key_ok_32 (scrypt_key C passphrase (dr_salt d))) by apply (l_scrypt_len C L). cbn [obind].
  rewrite aes_key_ok_32 by assumption. reflexivity.
Qed.

(* The blob has braces at its ends only. *)
Lemma esc_low b : b < 123 -> Forall (fun c => c < 123) (esc_rune (Some b)).
Proof.
  intro H. unfold esc_rune, uesc, encode_rune.
  assert (X : forall n, n < 16 -> hex_digit n < 123) by (intros n Hn; unfold hex_digit; destruct (n <? 10); lia).
  assert (Y : forall n, n mod 16 < 16) by (intro; apply N.mod_lt; lia).
  destruct (b =? 34), (b =? 92), (b =? 10), (b =? 13), (b =? 9); cbn [orb]; try (repeat (constructor; [lia|]); constructor).
  destruct ((b <? 32) || (b =? 60) || (b =? 62) || (b =? 38))%bool; [repeat (constructor; [auto; lia|]); constructor|].
  destruct ((b =? 8232) || (b =? 8233))%bool; [repeat (constructor; [auto; lia|]); constructor|].
  replace (b <? 128) with true by (symmetry; apply N.ltb_lt; lia). repeat constructor. lia.
Qed.
Lemma enc_string_low s : Forall (fun c => c < 123) s -> Forall (fun c => c < 123) (enc_string s).
Proof.
  intro H. unfold enc_string. constructor; [lia|]. apply Forall_app. split; [|repeat constructor].
  assert (X : runes (length s) s = map Some s).
  { clear -H. induction H as [|b s Hb _ IH]; [reflexivity|]. cbn [length runes map].
    unfold decode_rune. replace (b <? 128) with true by (symmetry; apply N.ltb_lt; lia). now rewrite IH. }
  rewrite X. clear X. induction H as [|b s Hb _ IH]; [constructor|]. cbn [map flat_map]. apply Forall_app. auto using esc_low.
Qed.
Lemma jenc_blob_closed a b c d e : wfb a -> wfb b -> wfb c -> wfb d -> wfb e ->
  closed_text (jenc (jblob {| bl_salt := Some a; bl_key := Some b; bl_key_nonce := Some c; bl_data := Some d; bl_data_nonce := Some e |})).
Proof.
  intros A B D E F.
  assert (X : forall x, wfb x -> Forall (fun c => c < 123) (enc_string (b64_enc x))).
  { intros x Hx. apply enc_string_low. eapply Forall_impl; [|apply b64_chars, Hx]. cbn. intros; lia. }
  unfold jblob. cbn [jenc map fst snd bl_salt bl_key bl_key_nonce bl_data bl_data_nonce jbytes].
  eexists. split; [reflexivity|]. cbn [sep].
  repeat (apply Forall_app; split); repeat match goal with
    | |- Forall _ (_ :: _) => constructor; [lia|]
    | |- Forall _ (_ ++ _) => apply Forall_app; split
    | |- Forall _ (enc_string (str _)) => apply enc_string_low, Forall_forall; cbv [str]; cbn;
        let x := fresh in let I := fresh in intros x I; repeat (destruct I as [<-|I]; [lia|]); destruct I
    | |- Forall _ (enc_string (b64_enc _)) => now apply X
    end.
Qed.
Lemma sealed_closed C (L : laws C) passphrase data d : proper_draws d -> wfb data ->
  closed_text (jenc (jblob (sealed_blob C passphrase data d))).
Proof.
  intros (A & B & D & E & F & G & H) W. apply jenc_blob_closed; auto; now apply (l_gcm_wf C L).
Qed.

Lemma passphrase_round_trip C (L : laws C) passphrase data d : proper_draws d -> wfb data ->
  exists out, encrypt_with_passphrase C passphrase data d = Some out /\
    decrypt_with_passphrase C passphrase out = Ok (Some data).
Proof.
  intros Hd Hw. rewrite encrypt_with_passphrase_eq by assumption. eexists. split; [reflexivity|].
  destruct Hd as (A & B & D & E & F & G & H).
  assert (W : wfb (gcm_seal C (scrypt_key C passphrase (dr_salt d)) (dr_key_nonce d) (dr_key d))) by now apply (l_gcm_wf C L).
  assert (W2 : wfb (gcm_seal C (dr_key d) (dr_data_nonce d) data)) by now apply (l_gcm_wf C L).
  unfold decrypt_with_passphrase, junmarshal.
  rewrite parse_json_jenc by (apply jok_blob; assumption). cbn [obind].
  rewrite jdec_blob_ok by assumption. unfold sealed_blob. cbn [bl_salt bl_key bl_key_nonce bl_data bl_data_nonce or_nil].
  rewrite decrypt_encrypt by (assumption || apply (l_scrypt_len C L)). cbn [rbind].
  now rewrite decrypt_encrypt by assumption.
Qed.

(* Encoded JSON consists of bytes. *)
Lemma digit_wf b : is_digit b = true -> b < 256.
Proof. intro H. apply is_digit_range in H. lia. Qed.

Lemma enc_nat_wf n : wfb (enc_nat n).
Proof.
  unfold enc_nat. destruct (digits_ok (N.to_nat (N.size n)) n) as (A & _).
  { rewrite N2Nat.id. apply size_bound. }
  eapply Forall_impl; [|exact A]. exact digit_wf.
Qed.

Lemma hex_digit_wf n : n < 16 -> hex_digit n < 256.
Proof. intro H. unfold hex_digit. destruct (n <? 10); lia. Qed.

Lemma uesc_wf c : wfb (uesc c).
Proof. unfold uesc. repeat (constructor; [first [apply hex_digit_wf; lia | unfold byte_ok; lia]|]). constructor. Qed.

Lemma esc_wf c : scalar c -> wfb (esc_rune (Some c)).
Proof.
  intro H. unfold esc_rune.
  destruct ((c =? 34) || (c =? 92)) eqn:E.
  { rewrite orb_true_iff, !N.eqb_eq in E. apply wfbb_iff. destruct E as [-> | ->]; reflexivity. }
  destruct (c =? 10); [apply wfbb_iff; reflexivity|].
  destruct (c =? 13); [apply wfbb_iff; reflexivity|].
  destruct (c =? 9); [apply wfbb_iff; reflexivity|].
  destruct ((c <? 32) || (c =? 60) || (c =? 62) || (c =? 38)); [apply uesc_wf|].
  destruct ((c =? 8232) || (c =? 8233)); [apply uesc_wf|].
  rewrite encode_rune_utf8 by assumption. now apply utf8_enc_wf.
Qed.

Lemma enc_string_wf s : utf8_text s -> wfb (enc_string s).
Proof.
  intros (cs & H & ->). unfold enc_string. rewrite runes_utf8 by (assumption || lia).
  constructor; [unfold byte_ok; lia|]. apply wfb_app. split; [|apply wfbb_iff; reflexivity].
  induction H as [|c cs Hc _ IH]; cbn [map flat_map]; [apply wfb_nil|]. apply wfb_app. split; [now apply esc_wf|exact IH].
Qed.

Lemma sep_wf l : Forall wfb l -> wfb (sep l).
Proof.
  induction 1 as [|a l Ha Hl IH]; [apply wfb_nil|]. destruct l as [|b l]; [exact Ha|].
  rewrite sep_cons by discriminate. apply wfb_app. split; [assumption|]. constructor; [unfold byte_ok; lia|exact IH].
Qed.

Fixpoint jenc_wf (v : json) : jok v -> wfb (jenc v).
Proof.
  destruct v as [|b|z| |s|l|l]; intro H; cbn [jenc].
  - apply wfbb_iff; reflexivity.
  - destruct b; apply wfbb_iff; reflexivity.
  - unfold enc_int. destruct (z <? 0)%Z; [constructor; [unfold byte_ok; lia|]|]; apply enc_nat_wf.
  - apply wfb_nil.
  - now apply enc_string_wf.
  - apply jok_arr in H. constructor; [unfold byte_ok; lia|]. apply wfb_app.
    split; [|apply wfbb_iff; reflexivity]. apply sep_wf.
    induction l as [|v l IH]; [constructor|]. inversion H; subst. constructor; [now apply jenc_wf|now apply IH].
  - apply jok_obj in H. constructor; [unfold byte_ok; lia|]. apply wfb_app.
    split; [|apply wfbb_iff; reflexivity]. apply sep_wf.
    induction l as [|(k, v) l IH]; [constructor|]. inversion H as [|? ? [Hk Hv] Hl]; subst. cbn [fst snd] in *.
    constructor; [|now apply IH]. cbn [fst snd]. apply wfb_app. split; [now apply enc_string_wf|].
    constructor; [unfold byte_ok; lia|now apply jenc_wf].
Qed.

Theorem state_round_trip C (L : laws C) c passphrase d : proper_config c -> proper_draws d ->
  exists out, encrypt_fido_state C c passphrase d = Some out /\
    decrypt_fido_state C out passphrase = Ok (Some c).
Proof.
  intros Hc Hd. unfold encrypt_fido_state, decrypt_fido_state.
  destruct (passphrase_round_trip C L passphrase (jenc (jconfig c)) d Hd) as (out & E & D).
  { now apply jenc_wf, jok_config. }
  exists out. split; [exact E|]. rewrite D. cbn [rbind].
  unfold junmarshal. rewrite parse_json_jenc by now apply jok_config. cbn [obind]. now rewrite jdec_config_ok.
Qed.

Lemma state_closed C (L : laws C) c passphrase d out : proper_config c -> proper_draws d ->
  encrypt_fido_state C c passphrase d = Some out -> closed_text out.
Proof.
  intros Hc Hd H. unfold encrypt_fido_state in H. rewrite encrypt_with_passphrase_eq in H by assumption.
  injection H as <-. apply (sealed_closed C L); [assumption|]. apply (jenc_wf (jconfig c)). now apply jok_config.
Qed.

Theorem state_authentic C (L : laws C) passphrase data p :
  decrypt_with_passphrase C passphrase data = Ok (Some p) ->
  exists b, junmarshal jdec_blob data = Some b /\
    encrypts C passphrase p (or_nil (bl_salt b)) (or_nil (bl_key b)) (or_nil (bl_key_nonce b))
      (or_nil (bl_data b)) (or_nil (bl_data_nonce b)).
Proof.
  unfold decrypt_with_passphrase. destruct (junmarshal jdec_blob data) as [b|] eqn:E; [|discriminate].
  unfold decrypt. rewrite (aes_key_ok_32 (scrypt_key _ _ _)) by apply (l_scrypt_len C L).
  destruct (len (or_nil (bl_key_nonce b)) =? 12); [|discriminate]. cbn [rbind].
  destruct (gcm_open C _ _ (or_nil (bl_key b))) as [key|] eqn:E1; [|discriminate].
  destruct (aes_key_ok key) eqn:Ek; [|discriminate].
  destruct (len (or_nil (bl_data_nonce b)) =? 12); [|discriminate].
  intro H. injection H as H. exists b. split; [reflexivity|]. exists key. split; [assumption|].
  split; [now apply (l_gcm_only C L)|now apply (l_gcm_only C L)].
Qed.

(* A blob which differs from a saved one in the data ciphertext only, and is accepted,
   gives other data. *)
Theorem state_tampered C (L : laws C) passphrase data d out out' b b' p' :
  proper_draws d -> wfb data -> encrypt_with_passphrase C passphrase data d = Some out ->
  junmarshal jdec_blob out = Some b -> junmarshal jdec_blob out' = Some b' ->
  bl_salt b' = bl_salt b -> bl_key b' = bl_key b -> bl_key_nonce b' = bl_key_nonce b ->
  bl_data_nonce b' = bl_data_nonce b ->
  decrypt_with_passphrase C passphrase out' = Ok (Some p') ->
  (p' = data <-> or_nil (bl_data b') = or_nil (bl_data b)).
Proof.
  intros Hd Hw E P P' E1 E2 E3 E4 D.
  rewrite encrypt_with_passphrase_eq in E by assumption.
  assert (Eo : out = jenc (jblob (sealed_blob C passphrase data d))) by congruence. subst out. clear E.
  destruct Hd as (A & B & W & F & G & H & I).
  unfold junmarshal in P. rewrite parse_json_jenc in P.
  2:{ apply jok_blob; try assumption; now apply (l_gcm_wf C L). }
  cbn [obind] in P. rewrite jdec_blob_ok in P; try assumption; try (now apply (l_gcm_wf C L)).
  assert (Eb : b = sealed_blob C passphrase data d) by congruence. subst b. clear P. unfold sealed_blob in *. cbn [bl_salt bl_key bl_key_nonce bl_data bl_data_nonce] in *.
  unfold decrypt_with_passphrase in D. rewrite P', E1, E2, E3, E4 in D. cbn [or_nil] in D |- *.
  rewrite decrypt_encrypt in D by (assumption || apply (l_scrypt_len C L)). cbn [rbind] in D.
  unfold decrypt in D. rewrite aes_key_ok_32 in D by assumption. rewrite H in D.
  change (12 =? 12) with true in D. cbv iota in D.
  injection D as D. split.
  - intros ->. now apply (l_gcm_only C L).
  - intro Q. rewrite Q in D. rewrite (l_gcm_open C L) in D; [congruence|now right; right|assumption|assumption].
Qed.

(* A blob that names a nonce which is not 12 bytes long is not rejected but crashes. *)
Theorem state_bad_nonce C (L : laws C) passphrase data b :
  junmarshal jdec_blob data = Some b -> len (or_nil (bl_key_nonce b)) <> 12 ->
  decrypt_with_passphrase C passphrase data = Panic.
Proof.
  intros E H. unfold decrypt_with_passphrase, decrypt. rewrite E.
  rewrite aes_key_ok_32 by apply (l_scrypt_len C L).
  now replace (len (or_nil (bl_key_nonce b)) =? 12) with false by (symmetry; now apply N.eqb_neq).
Qed.
