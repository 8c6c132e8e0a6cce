(* A request that runs alone does to the counter what the model of the server says. *)
From Verif Require Import Base M_Cbor M_Crypto M_Cose M_State M_Client M_Ctap M_HidConc M_PinRace.

Lemma token_alone E a w w' r enc k x secret h :
  pn_hash a = Some enc -> pn_key a = Some k -> e2_x k = Some x ->
  shared_secret E (w_client w) k = Ok secret -> decrypt_cbc (e_C E) secret enc = Ok h ->
  (0 <= cl_retries (w_client w) <= 8)%Z -> get_pin_token E a w = (w', r) ->
  exists n s,
    pin_run (PArrive (bytes_eqb h (or_nil (cl_hash (w_client w)))) :: repeat (PStep 0) n)
      (mk_pins (Z.to_nat (cl_retries (w_client w))) [] false) = Some s /\
    Z.of_nat (pn_retries s) = cl_retries (w_client w') /\
    (pn_dead s = true \/ exists hit, pn_threads s = [(hit, G_done hit)]) /\
    (pn_dead s = true <-> cl_retries (w_client w) = 0%Z).
Proof.
  intros Ha Hk Hx Hs Hd R T. unfold get_pin_token in T. rewrite Ha, Hk, Hx in T.
  cbv beta iota delta [bind pin_retries get ret fail lift set_pin_retries put status] in T.
  destruct (Z.eq_dec (cl_retries (w_client w)) 0) as [Z0|Z0].
  - rewrite Z0 in T. cbn in T. injection T as <- _.
    exists 1%nat. eexists. rewrite Z0. cbn. split; [reflexivity|]. cbn. split; [reflexivity|]. split; [now left|]. split; auto.
  - assert (((0 <? cl_retries (w_client w)) && (cl_retries (w_client w) <=? 8))%Z = true) as Q.
    { apply andb_true_iff. split; [apply Z.ltb_lt|apply Z.leb_le]; lia. }
    assert (retries_ok (Z.to_nat (cl_retries (w_client w))) = true) as Q'.
    { unfold retries_ok. apply andb_true_iff. split; [apply Nat.ltb_lt|apply Nat.leb_le]; lia. }
    rewrite Q in T. destruct (Z.leb_spec (cl_retries (w_client w)) 0) as [L|L]; [lia|].
    rewrite Hs in T. rewrite Q in T. cbn [w_client] in T. rewrite Hd in T.
    destruct (bytes_eqb h (or_nil (cl_hash (w_client w)))) eqn:B.
    + exists 5%nat. eexists. cbn [repeat pin_run pin_step pn_dead pn_threads app nth_error pn_retries]. rewrite Q'.
      cbn [pin_goes pin_step pn_dead pn_threads nth_error pn_retries list_set]. rewrite Q'. cbn. split; [reflexivity|].
      cbn [pn_retries pn_dead pn_threads]. split; [|split; [right; eexists; reflexivity|split; [discriminate|congruence]]].
      destruct (encrypt_cbc (e_C E) secret (cl_token (w_client w))); injection T as <- _; reflexivity.
    + exists 4%nat. eexists. cbn [repeat pin_run pin_step pn_dead pn_threads app nth_error pn_retries]. rewrite Q'.
      cbn [pin_goes pin_step pn_dead pn_threads nth_error pn_retries list_set]. rewrite Q'. cbn. split; [reflexivity|].
      cbn [pn_retries pn_dead pn_threads]. split; [|split; [right; eexists; reflexivity|split; [discriminate|congruence]]].
      injection T as <- _. cbn. lia.
Qed.
