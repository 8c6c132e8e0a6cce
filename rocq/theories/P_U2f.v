From Verif Require Import Base M_Str M_Util M_Cbor M_Crypto M_Cose M_State M_Client M_Ctap M_U2f.
From Verif Require Import S_Crypto S_Cbor S_Cose S_State S_Client S_Ctap S_CtapReq S_U2f.
From Verif Require Import P_Crypto P_Cbor P_Cbor2 P_Cbor3 P_Cose P_Cose2 P_Json P_State P_Client P_Ctap P_Ctap2 P_CtapReq P_Pin.

(* ------------------------------------------------------------------ *)
(* APDUs                                                               *)

Lemma be2 n : n < 65536 -> be 2 n = [n / 256; n mod 256].
Proof.
  intro H. change (be 2 n) with [n / 256 mod 256; n mod 256]. f_equal. lia.
Qed.

Lemma read_be2 n r : n < 65536 -> read_be 2 (be 2 n ++ r) = Ok (n, r).
Proof.
  intro H. unfold read_be. rewrite len_app, be_len.
  destruct (N.of_nat 2 + len r <? N.of_nat 2) eqn:L; [lia|].
  assert (Z : length (be 2 n) = 2%nat) by apply be_length. revert Z. generalize (be_dec_be_small 2 n).
  generalize (be 2 n). intros l D Z. rewrite firstn_app, skipn_app, Z, Nat.sub_diag.
  rewrite firstn_all2, skipn_all2 by lia. cbn [firstn skipn app].
  rewrite app_nil_r, D by (change (256 ^ N.of_nat 2) with 65536; exact H). reflexivity.
Qed.

Lemma read_exact d r : 0 < len d -> read_buf (len d) (d ++ r) = Ok (d, r).
Proof.
  intro H. unfold read_buf. destruct (d ++ r) as [|x y] eqn:X.
  { destruct d; [unfold len in H; cbn in H; lia|discriminate]. }
  rewrite <- X. rewrite len_app. replace (len d - (len d + len r)) with 0 by lia. cbn [zeros repeat N.to_nat].
  unfold takeN, dropN, len. rewrite Nnat.Nat2N.id.
  rewrite firstn_app, skipn_app, Nat.sub_diag, firstn_all, skipn_all. cbn. now rewrite !app_nil_r.
Qed.

Lemma apdu_decoded cla ins p1 p2 data le msg : apdu cla ins p1 p2 data le msg ->
  decode_u2f msg = Ok ({| uh_cla := cla; uh_cmd := ins; uh_p1 := p1; uh_p2 := p2 |}, data, le).
Proof.
  intros [|l L|d D|d l D L]; cbn [app decode_u2f]; auto.
  - replace (read_buf 1 (0 :: be 2 l)) with (Ok ([0], be 2 l))
      by (change (0 :: be 2 l) with ([0] ++ be 2 l); symmetry; apply (read_exact [0]); reflexivity).
    cbn [rbind fst snd]. rewrite <- (app_nil_r (be 2 l)), read_be2 by assumption. reflexivity.
  - replace (read_buf 1 (0 :: be 2 (len d) ++ d)) with (Ok ([0], be 2 (len d) ++ d))
      by (symmetry; apply (read_exact [0]); reflexivity).
    cbn [rbind fst snd]. rewrite read_be2 by lia. cbn [rbind fst snd].
    destruct d as [|x y] eqn:X; [unfold len in D; cbn in D; lia|].
    rewrite <- X in *. rewrite <- (app_nil_r d) at 2. rewrite read_exact by lia. reflexivity.
  - replace (read_buf 1 (0 :: be 2 (len d) ++ d ++ be 2 l)) with (Ok ([0], be 2 (len d) ++ d ++ be 2 l))
      by (symmetry; apply (read_exact [0]); reflexivity).
    cbn [rbind fst snd]. rewrite read_be2 by lia. cbn [rbind fst snd].
    destruct (d ++ be 2 l) as [|x y] eqn:X; [destruct d; [unfold len in D; cbn in D; lia|discriminate]|].
    rewrite <- X in *. rewrite read_exact by lia. cbn [rbind fst snd].
    rewrite (be2 l) by assumption. cbv iota. rewrite <- be2 by assumption.
    rewrite <- (app_nil_r (be 2 l)), read_be2 by assumption. reflexivity.
Qed.

Lemma decoded_reads msg h req le : decode_u2f msg = Ok (h, req, le) -> reads msg (uh_cmd h) (uh_p1 h) req.
Proof.
  intros D cla i q p2 d l A. apply apdu_decoded in A. rewrite D in A. injection A as -> -> ->. auto.
Qed.

(* ------------------------------------------------------------------ *)
(* Key handles                                                         *)

Definition handle_bytes (C : Crypto) (key nonce kb app : bytes) : bytes :=
  cenc (box_doc (gcm_seal C key nonce (cenc (handle_doc kb app))) nonce).

Lemma handle_cbor kb app : marshal_cbor (key_handle_cbor {| kh_key := Some kb; kh_app := Some app |}) = cenc (handle_doc kb app).
Proof. reflexivity. Qed.
Lemma box_cbor_doc d iv : marshal_cbor (box_cbor {| bx_data := Some d; bx_iv := Some iv |}) = cenc (box_doc d iv).
Proof. reflexivity. Qed.

Lemma seal_run E w kb app : client_ok E (w_client w) ->
  seal_handle E {| kh_key := Some kb; kh_app := Some app |} w =
  (mkw (w_client w) (w_tick w + 1) (w_trace w),
   Ok (handle_bytes (e_C E) (cl_key (w_client w)) (e_rand E (w_tick w) 12) kb app)).
Proof.
  intro K. unfold seal_handle, bind, get, random, tick, lift, ret. wcbn.
  unfold seal, encrypt. rewrite (proj2 (aes_key_ok_iff _)) by apply (co_key E _ K). reflexivity.
Qed.

Lemma two_good a b : wfb a -> len a < 4294967296 -> wfb b -> len b < 4294967296 ->
  canonical (CMap [(CUint 1, CBytes a); (CUint 2, CBytes b)]) (cenc (CMap [(CUint 1, CBytes a); (CUint 2, CBytes b)])).
Proof. intros. apply cenc_canonical. doc_good. Qed.

Lemma cenc_two a b : cenc (CMap [(CUint 1, CBytes a); (CUint 2, CBytes b)]) =
  [0xA2; 1] ++ chead 2 (len a) ++ a ++ [2] ++ chead 2 (len b) ++ b.
Proof. cbn. now rewrite <- !app_assoc, ?app_nil_r. Qed.

Lemma chead_short mt n : 24 <= n -> n < 256 -> len (chead mt n) = 2.
Proof.
  intros A B. unfold chead. destruct (n <? 24) eqn:X; [lia|]. destruct (n <? 256) eqn:Y; [|lia]. reflexivity.
Qed.
Lemma chead_tiny mt n : n < 24 -> len (chead mt n) = 1.
Proof. intros A. unfold chead. destruct (n <? 24) eqn:X; [|lia]. reflexivity. Qed.

Lemma sec1_len d q : len (sec1 d q) = 121.
Proof. unfold sec1, point_bytes. repeat rewrite ?len_app, ?len_cons, ?be_len. reflexivity. Qed.
Lemma sec1_wf d q : wfb (sec1 d q).
Proof.
  unfold sec1, point_bytes. change (4 :: be 32 (fst q) ++ be 32 (snd q)) with ([4] ++ be 32 (fst q) ++ be 32 (snd q)).
  rewrite !wfb_app. repeat match goal with |- _ /\ _ => split end; try apply be_wf; apply wfbb_iff; reflexivity.
Qed.

Lemma plain_len kb app : len kb = 121 -> len app = 32 -> len (cenc (handle_doc kb app)) = 160.
Proof.
  intros A B. unfold handle_doc. rewrite cenc_two, !len_app, A, B, !chead_short by lia. reflexivity.
Qed.

Lemma handle_len C key nonce kb app : laws C -> len nonce = 12 -> len kb = 121 -> len app = 32 ->
  len (handle_bytes C key nonce kb app) = 194.
Proof.
  intros L N A B. unfold handle_bytes, box_doc. rewrite cenc_two, !len_app, (l_gcm_len C L), N, plain_len by assumption.
  rewrite chead_short, chead_tiny by lia. reflexivity.
Qed.

Lemma plain_wf kb app : wfb kb -> len kb = 121 -> wfb app -> len app = 32 -> wfb (cenc (handle_doc kb app)).
Proof.
  intros A B D F. unfold handle_doc. eapply canonical_wf. apply two_good; auto; lia.
Qed.

Lemma unmarshal_two {A} (f : cbor -> option A) a b : wfb a -> len a < 4294967296 -> wfb b -> len b < 4294967296 ->
  unmarshal f (cenc (CMap [(CUint 1, CBytes a); (CUint 2, CBytes b)])) = f (CMap [(CUint 1, CBytes a); (CUint 2, CBytes b)]).
Proof.
  intros A1 A2 B1 B2. unfold unmarshal. rewrite <- (app_nil_r (cenc _)).
  rewrite (request_parse (CMap [(CUint 1, CBytes a); (CUint 2, CBytes b)])); auto.
  - now apply two_good.
  - cbn. vm_compute. intuition discriminate.
  - cbn. unfold max_nested. lia.
Qed.

Lemma gcm_facts C key nonce p : laws C -> wfb p -> len p < 1000000 ->
  wfb (gcm_seal C key nonce p) /\ len (gcm_seal C key nonce p) < 4294967296.
Proof. intros L W Q. split; [now apply (l_gcm_wf C L)|]. rewrite (l_gcm_len C L). lia. Qed.

Lemma own_sealed C key nonce kb app : laws C -> aes_key key -> len nonce = 12 -> wfb nonce ->
  wfb kb -> len kb = 121 -> wfb app -> len app = 32 ->
  sealed C key (handle_bytes C key nonce kb app) kb app.
Proof.
  intros L K N1 N2 A1 A2 B1 B2. exists nonce, (cenc (handle_doc kb app)).
  destruct (gcm_facts C key nonce (cenc (handle_doc kb app)) L) as [G1 G2].
  { now apply plain_wf. } { rewrite plain_len by assumption. reflexivity. }
  split; [|split; [exact N1|]].
  - unfold handle_bytes, box_doc. rewrite unmarshal_two; auto; try lia. 
  - exists (Some app). split; [|reflexivity]. unfold handle_doc. rewrite unmarshal_two; auto; lia.
Qed.

Lemma open_sealed E key h kb app : env_ok E -> aes_key key -> wfb h ->
  ((exists a, open_handle E key h = Ok (Some {| kh_key := Some kb; kh_app := a |}) /\ or_nil a = app) <->
   sealed (e_C E) key h kb app).
Proof.
  intros L K W. unfold open_handle, sealed. split.
  - intros (a & H & A). destruct (unmarshal dec_box h) as [[d i]|] eqn:U; [|discriminate].
    unfold open, decrypt in H. cbn [bx_data bx_iv] in H. rewrite (proj2 (aes_key_ok_iff _) K) in H.
    destruct (len (or_nil i) =? 12) eqn:I; [|discriminate]. cbn [rbind] in H.
    destruct (gcm_open (e_C E) key (or_nil i) (or_nil d)) as [p|] eqn:G; [|discriminate]. cbn [rbind] in H.
    injection H as H. apply (l_gcm_only _ (eo_laws E L)) in G.
    exists (or_nil i), p. split; [|split; [lia|eauto]]. rewrite <- G.
    destruct i as [i|]; [|discriminate I]. destruct d as [d|]; [reflexivity|].
    exfalso. cbn in G. apply (f_equal len) in G. rewrite (l_gcm_len _ (eo_laws E L)) in G.
    change (len (@nil N)) with 0 in G. lia.
  - intros (n & p & U & N & a & V & A). exists a. split; [|exact A]. rewrite U.
    unfold open, decrypt. cbn [bx_data bx_iv or_nil]. rewrite (proj2 (aes_key_ok_iff _) K), N.
    change (12 =? 12) with true. cbn [rbind]. rewrite (l_gcm_open _ (eo_laws E L)); auto; [cbn; now rewrite V|].
    apply (unmarshal_wf dec_box) in U; auto. destruct U as (v & V1 & V2). unfold dec_box in V2.
    destruct (dec_entries v) as [l|] eqn:D; [|discriminate]. cbn [obind] in V2. apply dec_entries_wf in D; auto.
    unfold get_int in V2. destruct (dec_bytes (lookup (int_key 1) l)) as [d|] eqn:D1; [|discriminate]. cbn [obind] in V2.
    destruct (dec_bytes (lookup (int_key 2) l)) as [i|]; [|discriminate]. cbn [obind] in V2.
    injection V2 as -> _. apply dec_bytes_wf in D1; [|now apply lookup_wf]. now apply (l_gcm_wf _ (eo_laws E L)) in D1.
Qed.

(* ------------------------------------------------------------------ *)
(* Registration                                                        *)

Lemma bind_scalar {A} E (f : N -> M A) w : bind (new_scalar E) f w =
  f (e_scalar E (w_tick w)) (mkw (w_client w) (w_tick w + 1) (w_trace w)).
Proof. reflexivity. Qed.
Lemma bind_random {A} E n (f : bytes -> M A) w : bind (random E n) f w =
  f (e_rand E (w_tick w) n) (mkw (w_client w) (w_tick w + 1) (w_trace w)).
Proof. reflexivity. Qed.
Lemma bind_ask {A} E a rp u (f : bool -> M A) w : bind (ask E a rp u) f w =
  f (e_approve E (w_tick w) a rp u)
    (mkw (w_client w) (w_tick w + 1) (w_trace w ++ [EvAsk a rp u (e_approve E (w_tick w) a rp u)])).
Proof. reflexivity. Qed.
Lemma bind_seal {A} E kb app (f : bytes -> M A) w : client_ok E (w_client w) ->
  bind (seal_handle E {| kh_key := Some kb; kh_app := Some app |}) f w =
  f (handle_bytes (e_C E) (cl_key (w_client w)) (e_rand E (w_tick w) 12) kb app)
    (mkw (w_client w) (w_tick w + 1) (w_trace w)).
Proof. intro K. unfold bind. now rewrite seal_run. Qed.

Lemma register_run E w req w' r : env_ok E -> client_ok E (w_client w) ->
  u2f_register E req w = (w', r) ->
  (len req <> 64 /\ w' = w /\ r = Panic) \/
  exists chal app d nonce ok pk h, req = chal ++ app /\ len chal = 32 /\ len app = 32 /\
    d = e_scalar E (w_tick w) /\ nonce = e_rand E (w_tick w + 1) 12 /\
    encodes_point pk (p256_pub (e_C E) d) /\
    h = handle_bytes (e_C E) (cl_key (w_client w)) nonce (sec1 d (p256_pub (e_C E) d)) app /\ len h = 194 /\
    ok = e_approve E (w_tick w + 2) ActU2FRegister [] [] /\
    w_client w' = w_client w /\ w_trace w' = w_trace w ++ [EvAsk ActU2FRegister [] [] ok] /\ w_tick w < w_tick w' /\
    ((ok = false /\ r = Ok refused) \/
     (ok = true /\
      match e_make_cert E (w_tick w + 3) (cl_cert (w_client w)) (cl_certkey (w_client w)) (pub_ec (ec_public (ec_key (e_C E) d))) with
      | None => r = Panic
      | Some cert => exists rnd, wfb rnd /\ len rnd = 32 /\ r = Ok (registration_reply pk h cert
          (ecdsa_sign (e_C E) d (sha256 (e_C E) (registration_signed app chal h pk)) rnd))
      end)).
Proof.
  intros L K H. unfold u2f_register in H. destruct (len req =? 64) eqn:Q.
  2:{ injection H as <- <-. left. split; [lia|auto]. }
  right. apply N.eqb_eq in Q.
  assert (Q' : length req = 64%nat) by (unfold len in Q; lia).
  exists (takeN 32 req), (dropN 32 req).
  set (d := e_scalar E (w_tick w)). set (nonce := e_rand E (w_tick w + 1) 12).
  set (ok := e_approve E (w_tick w + 2) ActU2FRegister [] []).
  exists d, nonce, ok, (point_bytes (p256_pub (e_C E) d)).
  set (app := dropN 32 req) in *. set (chal := takeN 32 req) in *.
  assert (C1 : req = chal ++ app) by (symmetry; apply firstn_skipn).
  assert (C2 : len chal = 32) by (unfold chal, takeN, len; rewrite firstn_length, Q'; reflexivity).
  assert (C3 : len app = 32) by (unfold app, dropN, len; rewrite skipn_length, Q'; reflexivity).
  clearbody chal app.
  rewrite bind_scalar in H. fold d in H. cbn [ec_public ec_key eq_x eq_y] in H.
  rewrite <- surjective_pairing in H. rewrite bind_seal in H by exact K. cbn [w_client w_tick w_trace] in H.
  fold nonce in H.
  set (h := handle_bytes (e_C E) (cl_key (w_client w)) nonce (sec1 d (p256_pub (e_C E) d)) app) in *.
  exists h.
  assert (Hl : len h = 194).
  { apply handle_len; auto using sec1_len. apply (eo_laws E L). unfold nonce. rewrite (eo_rand_len E L). reflexivity. }
  unfold approve_u2f_registration in H. rewrite bind_ask in H.
  cbn [w_client w_tick w_trace] in H. replace (w_tick w + 1 + 1) with (w_tick w + 2) in H by lia. fold ok in H.
  split; [exact C1|]. split; [exact C2|]. split; [exact C3|]. split; [reflexivity|]. split; [reflexivity|].
  split; [reflexivity|]. split; [reflexivity|]. split; [exact Hl|]. split; [reflexivity|].
  destruct ok eqn:OK.
  - unfold make_certificate, bind, get, lift, tick in H. cbn [w_client w_tick w_trace cose_public kp_ec priv_ec] in H.
    replace (w_tick w + 2 + 1) with (w_tick w + 3) in H by lia.
    cbn [ec_key ec_public]. cbn [ec_key ec_public] in H.
    destruct (e_make_cert E (w_tick w + 3) (cl_cert (w_client w)) (cl_certkey (w_client w)) _) as [cert|].
    + unfold sign_random, random, bind, tick, ret in H. cbn [w_client w_tick w_trace cose_sign kp_ec priv_ec] in H.
      injection H as <- <-. cbn [w_client w_tick w_trace]. split; [reflexivity|]. split; [reflexivity|]. split; [lia|].
      right. split; [reflexivity|]. exists (e_rand E (w_tick w + 3 + 1) 32). split; [apply (eo_rand_wf E L)|]. split; [rewrite (eo_rand_len E L); reflexivity|].
      unfold registration_reply, registration_signed, sign_ecdsa. rewrite Hl. reflexivity.
    + injection H as <- <-. cbn [w_client w_tick w_trace]. split; [reflexivity|]. split; [reflexivity|]. split; [lia|].
      right. auto.
  - injection H as <- <-. cbn [w_client w_tick w_trace]. split; [reflexivity|]. split; [reflexivity|]. split; [lia|].
    left. auto.
Qed.

(* ------------------------------------------------------------------ *)
(* Authentication                                                      *)

Definition auth_parse (req : bytes) : res (bytes * bytes * bytes) :=
  let? (challenge, r) := read_buf 32 req in
  let? (app, r) := read_buf 32 r in
  let? (n, r) := read_le 1 r in
  let? (h, _) := read_buf n r in
  Ok (challenge, app, h).

Lemma auth_parse_data chal app h rest : len chal = 32 -> len app = 32 -> len h < 256 ->
  auth_parse (authentication_data chal app h ++ rest) = Ok (chal, app, h).
Proof.
  intros A B D. unfold auth_parse, authentication_data. rewrite <- !app_assoc. rewrite <- A at 1.
  rewrite read_exact by lia. cbn [rbind]. rewrite <- B at 1. rewrite read_exact by lia. cbn [rbind Datatypes.app].
  unfold read_le. rewrite len_cons. destruct (1 + len (h ++ rest) <? N.of_nat 1) eqn:X; [lia|].
  cbn [firstn skipn le_dec rbind]. replace (len h + 256 * 0) with (len h) by lia.
  destruct h as [|x y] eqn:Y.
  - change (len (@nil N)) with 0. destruct rest; reflexivity.
  - rewrite <- Y. rewrite read_exact by (subst h; rewrite len_cons; lia). reflexivity.
Qed.

Lemma read_buf_len n buf a r : read_buf n buf = Ok (a, r) -> len a = n.
Proof.
  unfold read_buf. destruct buf as [|x y].
  - destruct (n =? 0) eqn:Z; [|discriminate]. intro H. injection H as <- _. change (len (@nil N)) with 0. lia.
  - intro H. injection H as <- _. rewrite len_app, len_zeros. unfold takeN, len. rewrite firstn_length. lia.
Qed.

Lemma auth_parse_len req chal app h : auth_parse req = Ok (chal, app, h) -> len chal = 32 /\ len app = 32.
Proof.
  unfold auth_parse. destruct (read_buf 32 req) as [[a r]|] eqn:A; [|discriminate]. cbn [rbind].
  destruct (read_buf 32 r) as [[b r2]|] eqn:B; [|discriminate]. cbn [rbind].
  destruct (read_le 1 r2) as [[n r3]|]; [|discriminate]. cbn [rbind].
  destruct (read_buf n r3) as [[x y]|]; [|discriminate]. cbn [rbind]. intro H. injection H as <- <- _.
  split; eapply read_buf_len; eauto.
Qed.

Lemma read_buf_wf n buf a r : wfb buf -> read_buf n buf = Ok (a, r) -> wfb a /\ wfb r.
Proof.
  intro W. unfold read_buf. destruct buf as [|x y].
  - destruct (n =? 0); [|discriminate]. intro H. injection H as <- <-. split; constructor.
  - intro H. injection H as <- <-. split; [apply wfb_app; split; [now apply wfb_firstn|apply wfb_zeros]|now apply wfb_skipn].
Qed.

Lemma read_be_wf n buf a r : wfb buf -> read_be n buf = Ok (a, r) -> wfb r.
Proof. intro W. unfold read_be. destruct (len buf <? N.of_nat n); [discriminate|]. intro H. injection H as _ <-. now apply wfb_skipn. Qed.
Lemma read_le_wf n buf a r : wfb buf -> read_le n buf = Ok (a, r) -> wfb r.
Proof. intro W. unfold read_le. destruct (len buf <? N.of_nat n); [discriminate|]. intro H. injection H as _ <-. now apply wfb_skipn. Qed.

Lemma auth_parse_wf req chal app h : wfb req -> auth_parse req = Ok (chal, app, h) -> wfb chal /\ wfb app /\ wfb h.
Proof.
  intro W. unfold auth_parse. destruct (read_buf 32 req) as [[a r]|] eqn:A; [|discriminate]. cbn [rbind].
  apply read_buf_wf in A as [A1 A2]; auto.
  destruct (read_buf 32 r) as [[b r2]|] eqn:B; [|discriminate]. cbn [rbind]. apply read_buf_wf in B as [B1 B2]; auto.
  destruct (read_le 1 r2) as [[n r3]|] eqn:D; [|discriminate]. cbn [rbind]. apply read_le_wf in D; auto.
  destruct (read_buf n r3) as [[x y]|] eqn:F; [|discriminate]. cbn [rbind]. apply read_buf_wf in F as [F1 F2]; auto.
  intro H. injection H as <- <- <-. auto.
Qed.

Lemma decode_wf msg h req le : wfb msg -> decode_u2f msg = Ok (h, req, le) -> wfb req /\ uh_p1 h < 256.
Proof.
  intros W. unfold decode_u2f. destruct msg as [|a [|b [|c [|d buf]]]]; try discriminate.
  apply wfb_cons in W as [_ W]. apply wfb_cons in W as [_ W]. apply wfb_cons in W as [Hc W]. apply wfb_cons in W as [_ W].
  destruct buf as [|x y] eqn:Y. { intro H. injection H as <- <- _. split; [constructor|exact Hc]. }
  rewrite <- Y in *. destruct (read_buf 1 buf) as [[z r]|] eqn:Z; [|discriminate]. cbn [rbind].
  apply read_buf_wf in Z as [_ Z]; auto. destruct z as [|[|q] z']; try discriminate.
  destruct (read_be 2 r) as [[n r2]|] eqn:R; [|discriminate]. cbn [rbind]. apply read_be_wf in R; auto.
  destruct r2 as [|x2 y2] eqn:Y2. { intro H. injection H as <- <- _. split; [constructor|exact Hc]. }
  rewrite <- Y2 in *. destruct (read_buf n r2) as [[q r3]|] eqn:Q; [|discriminate]. cbn [rbind].
  apply read_buf_wf in Q as [Q1 Q2]; auto. destruct r3 as [|x3 y3] eqn:Y3. { intro H. injection H as <- <- _. auto. }
  rewrite <- Y3 in *. destruct (read_be 2 r3) as [[m r4]|]; [|discriminate]. cbn [rbind]. intro H. injection H as <- <- _. auto.
Qed.

(* What a correctly sealed handle leads to. *)
Inductive auth_out (E : Env) (w : world) (control : N) (chal app : bytes) (k : ec_priv) : world -> res bytes -> Prop :=
| AO_check : control = 7 -> auth_out E w control chal app k w (Ok refused)
| AO_other : control <> 7 -> control <> 3 -> control <> 8 -> auth_out E w control chal app k w (Ok wrong_length)
| AO_refused : control = 3 -> e_approve E (w_tick w) ActU2FAuthenticate [] [] = false ->
    auth_out E w control chal app k
      (mkw (w_client w) (w_tick w + 1) (w_trace w ++ [EvAsk ActU2FAuthenticate [] [] false])) (Ok refused)
| AO_signed es t rnd : (control = 8 /\ es = []) \/ (control = 3 /\ es = [EvAsk ActU2FAuthenticate [] [] true]) ->
    w_tick w < t -> wfb rnd -> len rnd = 32 ->
    auth_out E w control chal app k
      (mkw (set_ctr (w_client w) ((cl_ctr (w_client w) + 1) mod 4294967296)) t (w_trace w ++ es))
      (Ok (authentication_reply 1 (cl_ctr (w_client w))
             (ecdsa_sign (e_C E) (ec_d k) (sha256 (e_C E) (authentication_signed app 1 (cl_ctr (w_client w)) chal)) rnd))).

Lemma next_counter_bind {A} (f : N -> M A) w : bind next_counter f w =
  f (cl_ctr (w_client w)) (mkw (set_ctr (w_client w) ((cl_ctr (w_client w) + 1) mod 4294967296)) (w_tick w) (w_trace w)).
Proof. reflexivity. Qed.

Lemma authenticate_run E w control req w' r : env_ok E -> client_ok E (w_client w) -> wfb req ->
  u2f_authenticate E control req w = (w', r) ->
  (w' = w /\ r = Panic /\ (auth_parse req = Panic \/
     exists chal app h, auth_parse req = Ok (chal, app, h) /\
       (open_handle E (cl_key (w_client w)) h = Panic \/
        exists kb, sealed (e_C E) (cl_key (w_client w)) h kb app /\ ec_parse (e_C E) kb = None))) \/
  exists chal app h, auth_parse req = Ok (chal, app, h) /\ len chal = 32 /\ len app = 32 /\ wfb h /\
    ((w' = w /\ r = Ok wrong_data /\ forall kb, ~ sealed (e_C E) (cl_key (w_client w)) h kb app) \/
     exists kb k, sealed (e_C E) (cl_key (w_client w)) h kb app /\ ec_parse (e_C E) kb = Some k /\
       auth_out E w control chal app k w' r).
Proof.
  intros L K W H. unfold u2f_authenticate in H. fold (auth_parse req) in H.
  unfold bind in H at 1. unfold lift in H at 1.
  destruct (auth_parse req) as [[[chal app] h]|] eqn:P.
  2:{ injection H as <- <-. left. auto. }
  destruct (auth_parse_len _ _ _ _ P) as [P1 P2]. destruct (auth_parse_wf _ _ _ _ W P) as (_ & _ & Wh).
  unfold bind in H at 1. unfold get in H at 1. unfold bind in H at 1. unfold lift in H at 1.
  pose proof (proj1 (co_key E _ K)) as AK.
  destruct (open_handle E (cl_key (w_client w)) h) as [[[kk a]|]|] eqn:O; cbn [kh_key kh_app] in H.
  - destruct kk as [kb|].
    + destruct (bytes_eqb (or_nil a) app) eqn:B.
      * apply bytes_eqb_eq in B.
        assert (S : sealed (e_C E) (cl_key (w_client w)) h kb app) by (apply open_sealed; eauto).
        destruct (ec_parse (e_C E) kb) as [k|] eqn:X.
        2:{ injection H as <- <-. left. split; [reflexivity|]. split; [reflexivity|]. right. exists chal, app, h. eauto. }
        right. exists chal, app, h. repeat (split; [auto; fail|]). right. exists kb, k. split; [exact S|]. split; [exact X|].
        destruct (control =? 7) eqn:C7. { injection H as <- <-. apply AO_check. lia. }
        destruct (control =? 3) eqn:C3.
        { unfold approve_u2f_authentication in H. rewrite bind_ask in H.
          destruct (e_approve E (w_tick w) ActU2FAuthenticate [] []) eqn:A.
          - rewrite next_counter_bind in H. unfold sign_random in H. rewrite bind_random in H.
            unfold bind, lift, ret in H. cbn [w_client w_tick w_trace cose_sign kp_ec priv_ec] in H. injection H as <- <-.
            apply (AO_signed E w control chal app k [EvAsk ActU2FAuthenticate [] [] true] (w_tick w + 1 + 1) (e_rand E (w_tick w + 1) 32)).
            + right. split; [lia|reflexivity].
            + lia.
            + apply (eo_rand_wf E L).
            + rewrite (eo_rand_len E L). reflexivity.
          - injection H as <- <-. apply AO_refused; [lia|exact A]. }
        destruct (control =? 8) eqn:C8.
        { rewrite next_counter_bind in H. unfold sign_random in H. rewrite bind_random in H.
          unfold bind, lift, ret in H. cbn [w_client w_tick w_trace cose_sign kp_ec priv_ec] in H. injection H as <- <-.
          rewrite <- (app_nil_r (w_trace w)).
          apply (AO_signed E w control chal app k [] (w_tick w + 1) (e_rand E (w_tick w) 32)).
          + left. split; [lia|reflexivity].
          + lia.
          + apply (eo_rand_wf E L).
          + rewrite (eo_rand_len E L). reflexivity. }
        injection H as <- <-. apply AO_other; lia.
      * injection H as <- <-. right. exists chal, app, h. repeat (split; [auto; fail|]). left. split; [reflexivity|].
        split; [reflexivity|]. intros kb' S. apply open_sealed in S; auto. destruct S as (a' & O' & A').
        rewrite O in O'. injection O' as -> ->. apply bytes_eqb_neq in B. congruence.
    + injection H as <- <-. right. exists chal, app, h. repeat (split; [auto; fail|]). left. split; [reflexivity|].
      split; [reflexivity|]. intros kb' S. apply open_sealed in S; auto. destruct S as (a' & O' & A'). congruence.
  - injection H as <- <-. right. exists chal, app, h. repeat (split; [auto; fail|]). left. split; [reflexivity|].
    split; [reflexivity|]. intros kb' S. apply open_sealed in S; auto. destruct S as (a' & O' & A'). congruence.
  - injection H as <- <-. left. split; [reflexivity|]. split; [reflexivity|]. right. exists chal, app, h. auto.
Qed.
