(* Properties C57 and C58: the encrypted saved state. *)
From Verif Require Import Base M_Str M_Json M_Crypto M_State S_Cbor S_Crypto S_State P_Cbor2 P_Crypto P_Json P_State P_State2.

(* ---------------------------------------------------------------- C57 *)
Theorem C57_state_round_trip : forall C c passphrase d, laws C -> proper_config c -> proper_draws d ->
  exists out, encrypt_fido_state C c passphrase d = Some out /\
    decrypt_fido_state C out passphrase = Ok (Some c).
Proof. intros C c p d L. exact (state_round_trip C L c p d). Qed.
Print Assumptions C57_state_round_trip.

Definition ex_source : saved_source :=
  {| ss_type := str "public-key"; ss_id := Some [0; 255; 7]; ss_key := Some [165; 1];
     ss_rp := {| rp_id := str "<a>&b"; rp_name := [195; 169; 10; 34; 226; 128; 168] |};
     ss_user := {| us_id := None; us_display := []; us_name := [240; 159; 152; 128] |};
     ss_ctr := -2147483648 |}.
Definition ex_config : config :=
  {| cf_key := Some (zeros 32); cf_cert := Some [48; 130]; cf_certkey := None; cf_ctr := 4294967295;
     cf_pin := true; cf_pin_hash := Some [1; 2; 3; 4; 5; 6; 7; 8; 9; 10; 11; 12; 13; 14; 15; 16];
     cf_sources := [ex_source; ex_source] |}.
Definition ex_draws : draws :=
  {| dr_salt := zeros 16; dr_key := zeros 32; dr_key_nonce := zeros 12; dr_data_nonce := zeros 12 |}.

Example C57_example : laws toy /\ proper_config ex_config /\ proper_draws ex_draws.
Proof.
  split; [exact toy_laws|]. split.
  - assert (S : proper_source ex_source).
    { unfold proper_source, proper_rp, proper_user, ex_source, wfo.
      cbn [ss_type ss_id ss_key ss_rp ss_user ss_ctr rp_id rp_name us_id us_display us_name].
      split; [txt|]. split; [apply wfbb_iff; reflexivity|]. split; [apply wfbb_iff; reflexivity|].
      split; [split; txt|]. split; [split; [exact I|split; txt]|]. lia. }
    unfold proper_config, ex_config, wfo.
    cbn [cf_key cf_cert cf_certkey cf_ctr cf_pin_hash cf_sources].
    split; [apply wfbb_iff; reflexivity|]. split; [apply wfbb_iff; reflexivity|]. split; [exact I|].
    split; [reflexivity|]. split; [apply wfbb_iff; reflexivity|]. split; [discriminate|].
    constructor; [exact S|constructor; [exact S|constructor]].
  - unfold proper_draws, ex_draws. cbn [dr_salt dr_key dr_key_nonce dr_data_nonce].
    split; [apply wfb_zeros|]. split; [reflexivity|]. split; [apply wfb_zeros|].
    split; [reflexivity|]. split; [apply wfb_zeros|]. split; [reflexivity|apply wfb_zeros].
Qed.

(* ---------------------------------------------------------------- C58 *)
Theorem C58_state_authentic : forall C passphrase data p, laws C ->
  decrypt_with_passphrase C passphrase data = Ok (Some p) ->
  exists b, junmarshal jdec_blob data = Some b /\
    encrypts C passphrase p (or_nil (bl_salt b)) (or_nil (bl_key b)) (or_nil (bl_key_nonce b))
      (or_nil (bl_data b)) (or_nil (bl_data_nonce b)).
Proof. intros C pp data p L. exact (state_authentic C L pp data p). Qed.
Print Assumptions C58_state_authentic.

(* A changed data ciphertext never gives the old data. *)
Theorem C58_tampered : forall C passphrase data d out out' b b' p', laws C ->
  proper_draws d -> wfb data -> encrypt_with_passphrase C passphrase data d = Some out ->
  junmarshal jdec_blob out = Some b -> junmarshal jdec_blob out' = Some b' ->
  bl_salt b' = bl_salt b -> bl_key b' = bl_key b -> bl_key_nonce b' = bl_key_nonce b ->
  bl_data_nonce b' = bl_data_nonce b ->
  decrypt_with_passphrase C passphrase out' = Ok (Some p') ->
  (p' = data <-> or_nil (bl_data b') = or_nil (bl_data b)).
Proof. intros C pp data d out out' b b' p' L. exact (state_tampered C L pp data d out out' b b' p'). Qed.
Print Assumptions C58_tampered.

(* Rejection is not always an error value: a key nonce of another length crashes. *)
Theorem C58_bad_nonce_panics : forall C passphrase data b, laws C ->
  junmarshal jdec_blob data = Some b -> len (or_nil (bl_key_nonce b)) <> 12 ->
  decrypt_with_passphrase C passphrase data = Panic.
Proof. intros C pp data b L. exact (state_bad_nonce C L pp data b). Qed.
Print Assumptions C58_bad_nonce_panics.

(* Everything else that is refused is refused with an error. *)
Theorem C58_refused : forall C passphrase data, laws C ->
  (junmarshal jdec_blob data = None -> decrypt_with_passphrase C passphrase data = Ok None) /\
  (forall b, junmarshal jdec_blob data = Some b -> len (or_nil (bl_key_nonce b)) = 12 ->
     gcm_open C (scrypt_key C passphrase (or_nil (bl_salt b))) (or_nil (bl_key_nonce b)) (or_nil (bl_key b)) = None ->
     decrypt_with_passphrase C passphrase data = Ok None) /\
  (forall b key, junmarshal jdec_blob data = Some b -> len (or_nil (bl_key_nonce b)) = 12 ->
     gcm_open C (scrypt_key C passphrase (or_nil (bl_salt b))) (or_nil (bl_key_nonce b)) (or_nil (bl_key b)) = Some key ->
     aes_key key -> len (or_nil (bl_data_nonce b)) = 12 ->
     gcm_open C key (or_nil (bl_data_nonce b)) (or_nil (bl_data b)) = None ->
     decrypt_with_passphrase C passphrase data = Ok None).
Proof. intros C pp data L. exact (state_refused C L pp data). Qed.
Print Assumptions C58_refused.

(* A saved state read with another passphrase never crashes, and is refused unless the sealed
   key also opens under the other derived key. *)
Theorem C58_other_passphrase : forall C passphrase passphrase' data d out, laws C -> proper_draws d -> wfb data ->
  encrypt_with_passphrase C passphrase data d = Some out ->
  decrypt_with_passphrase C passphrase' out <> Panic /\
  (decrypt_with_passphrase C passphrase' out = Ok None \/
   exists key, gcm_seal C (scrypt_key C passphrase' (dr_salt d)) (dr_key_nonce d) key =
               gcm_seal C (scrypt_key C passphrase (dr_salt d)) (dr_key_nonce d) (dr_key d)).
Proof. intros C pp pp' data d out L. exact (state_other_passphrase C L pp pp' data d out). Qed.
Print Assumptions C58_other_passphrase.

(* Only white space may follow a saved state. *)
Theorem C58_trailing_data : forall C passphrase passphrase' data d out rest, laws C -> proper_draws d -> wfb data ->
  encrypt_with_passphrase C passphrase data d = Some out ->
  (Forall json_space rest -> decrypt_with_passphrase C passphrase' (out ++ rest) = decrypt_with_passphrase C passphrase' out) /\
  (~ Forall json_space rest -> decrypt_with_passphrase C passphrase' (out ++ rest) = Ok None).
Proof. intros C pp pp' data d out rest L. exact (state_tail C L pp pp' data d out rest). Qed.
Print Assumptions C58_trailing_data.

Example C58_example_trailing : Forall json_space [10; 32] /\ ~ Forall json_space [10; 125].
Proof.
  unfold json_space. split; [constructor; [|constructor; [|constructor]]; tauto|]. intro H. apply Forall_inv_tail, Forall_inv in H. lia.
Qed.
Example C58_example_other : exists out,
  encrypt_with_passphrase toy (str "secret") (str "{}") ex_draws = Some out /\
  decrypt_with_passphrase toy (str "guess") out = Ok None.
Proof. eexists. split; [vm_compute; reflexivity|]. vm_compute. reflexivity. Qed.
Example C58_example : exists out,
  encrypt_with_passphrase toy (str "secret") (str "{}") ex_draws = Some out /\
  decrypt_with_passphrase toy (str "secret") out = Ok (Some (str "{}")).
Proof. apply passphrase_round_trip; [exact toy_laws|apply C57_example|apply wfbb_iff; reflexivity]. Qed.
Example C58_example_bad : exists b, junmarshal jdec_blob (str "{""key_nonce"":""AAAA""}") = Some b /\
  len (or_nil (bl_key_nonce b)) <> 12.
Proof. eexists. split; [vm_compute; reflexivity|]. vm_compute. discriminate. Qed.
