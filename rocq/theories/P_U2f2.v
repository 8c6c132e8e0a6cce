(* U2F requests as a whole. *)
From Verif Require Import Base M_Str M_Util M_Cbor M_Crypto M_Cose M_State M_Client M_Ctap M_U2f.
From Verif Require Import S_Crypto S_Cbor S_Cose S_State S_Client S_Ctap S_CtapReq S_U2f.
From Verif Require Import P_Crypto P_Cbor P_Cbor2 P_Cbor3 P_Cose P_Cose2 P_Json P_State P_Client P_Ctap P_Ctap2 P_CtapReq P_Pin P_U2f.

Lemma decode_ins msg h req le : decode_u2f msg = Ok (h, req, le) -> nth_error msg 1 = Some (uh_cmd h).
Proof.
  unfold decode_u2f. destruct msg as [|a [|b [|c [|d buf]]]]; try discriminate. intro H. cbn.
  destruct buf as [|x y] eqn:Y. { injection H as <- _ _. reflexivity. }
  rewrite <- Y in *. destruct (read_buf 1 buf) as [[z r]|]; [|discriminate]. cbn [rbind] in H.
  destruct z as [|[|q] z']; try discriminate.
  destruct (read_be 2 r) as [[n r2]|]; [|discriminate]. cbn [rbind] in H.
  destruct r2 as [|x2 y2] eqn:Y2. { injection H as <- _ _. reflexivity. }
  rewrite <- Y2 in *. destruct (read_buf n r2) as [[q r3]|]; [|discriminate]. cbn [rbind] in H.
  destruct r3 as [|x3 y3] eqn:Y3. { injection H as <- _ _. reflexivity. }
  rewrite <- Y3 in *. destruct (read_be 2 r3) as [[m r4]|]; [|discriminate]. cbn [rbind] in H. injection H as <- _ _. reflexivity.
Qed.

Inductive u2f_out (E : Env) (msg : bytes) (w : world) : world -> res bytes -> Prop :=
| UO_bad : decode_u2f msg = Panic -> u2f_out E msg w w Panic
| UO_unknown h req le : decode_u2f msg = Ok (h, req, le) -> uh_cmd h <> 1 -> uh_cmd h <> 2 -> uh_cmd h <> 3 ->
    u2f_out E msg w w Panic
| UO_version h req le : decode_u2f msg = Ok (h, req, le) -> uh_cmd h = 3 ->
    u2f_out E msg w w (Ok (text_u2f ++ [0x90; 0]))
| UO_register h req le w' r : decode_u2f msg = Ok (h, req, le) -> uh_cmd h = 1 ->
    u2f_register E req w = (w', r) -> u2f_out E msg w w' r
| UO_authenticate h req le w' r : decode_u2f msg = Ok (h, req, le) -> uh_cmd h = 2 ->
    u2f_authenticate E (uh_p1 h) req w = (w', r) -> u2f_out E msg w w' r.

Lemma u2f_run E msg w w' r : u2f_handle E msg w = (w', r) -> u2f_out E msg w w' r.
Proof.
  intro H. unfold u2f_handle in H. unfold bind in H. unfold lift in H.
  destruct (decode_u2f msg) as [[[h req] le]|] eqn:D.
  2:{ injection H as <- <-. now apply UO_bad. }
  destruct (uh_cmd h =? 3) eqn:C3. { injection H as <- <-. eapply UO_version; eauto; lia. }
  destruct (uh_cmd h =? 1) eqn:C1. { eapply UO_register; eauto; lia. }
  destruct (uh_cmd h =? 2) eqn:C2. { eapply UO_authenticate; eauto; lia. }
  injection H as <- <-. eapply UO_unknown; eauto; lia.
Qed.

(* For the histories: what a U2F message can do to the device. *)
Lemma u2f_effect E msg w w' r : env_ok E -> client_ok E (w_client w) -> wfb msg ->
  u2f_handle E msg w = (w', r) ->
  client_ok E (w_client w') /\ w_tick w <= w_tick w' /\
  (exists es, events w w' es /\ saves es = [] /\ (length es <= 1)%nat) /\
  (w_client w' = w_client w \/
   (w_client w' = set_ctr (w_client w) ((cl_ctr (w_client w) + 1) mod 4294967296) /\ nth_error msg 1 = Some 2 /\
    exists sig, r = Ok (authentication_reply 1 (cl_ctr (w_client w)) sig))).
Proof.
  intros L K W H. apply u2f_run in H.
  assert (N0 : exists es, events w w es /\ saves es = [] /\ (length es <= 1)%nat).
  { exists []. unfold events. rewrite app_nil_r. auto. }
  destruct H as [D|h req le D|h req le D|h req le w' r D C1 H|h req le w' r D C2 H].
  1-3: repeat (split; [first [exact K | exact N0 | lia]|]); auto.
  - apply register_run in H; auto. destruct H as [(_ & -> & _)|H].
    { repeat (split; [first [exact K | exact N0 | lia]|]); auto. }
    destruct H as (chal & ap & d & nonce & ok & pk & hb & _ & _ & _ & _ & _ & _ & _ & _ & _ & H1 & H2 & H3 & _).
    rewrite H1. split; [exact K|]. split; [lia|]. split; [|auto].
    eexists. split; [exact H2|]. split; [reflexivity|]. cbn. lia.
  - apply authenticate_run in H; auto; [|eapply decode_wf; eauto].
    destruct H as [(-> & _)|(chal & ap & hb & P & _ & _ & _ & [(-> & _)|(kb & k & S & X & O)])].
    { repeat (split; [first [exact K | exact N0 | lia]|]); auto. }
    { repeat (split; [first [exact K | exact N0 | lia]|]); auto. }
    destruct O as [| | |es t rnd Q T R1 R2]; cbn [w_client w_tick w_trace].
    1-2: repeat (split; [first [exact K | exact N0 | lia]|]); auto.
    { split; [exact K|]. split; [lia|]. split; [|auto].
      eexists. split; [reflexivity|]. split; [reflexivity|]. cbn. lia. }
    split. { destruct K as [A1 A2 A3 A4 A5 A6 A7 A8 A9]. constructor; auto. cbn [set_ctr cl_ctr]. lia. }
    split; [lia|]. split.
    { exists es. split; [reflexivity|]. destruct Q as [[_ ->]|[_ ->]]; split; cbn; auto. }
    right. split; [reflexivity|]. split; [rewrite (decode_ins _ _ _ _ D); congruence|]. eexists. reflexivity.
Qed.

Lemma point_len pk q : encodes_point pk q -> len pk = 65.
Proof. unfold encodes_point. intros ->. rewrite !len_app, !be_len. reflexivity. Qed.

(* C46, C47. *)
Lemma u2f_registration E w msg w' r : env_ok E -> client_ok E (w_client w) -> wfb msg ->
  nth_error msg 1 = Some 1 -> u2f_handle E msg w = (w', Ok r) ->
  exists p1 chal app ok, reads msg 1 p1 (chal ++ app) /\ len chal = 32 /\ len app = 32 /\
    w_client w' = w_client w /\ events w w' [EvAsk ActU2FRegister [] [] ok] /\
    ((ok = false /\ r = refused) \/
     (ok = true /\ exists pk x y h cert sig d, r = registration_reply pk h cert sig /\
        encodes_point pk (x, y) /\ x < 2 ^ 256 /\ y < 2 ^ 256 /\ len h = 194 /\
        ecdsa_verify (e_C E) (x, y) (sha256 (e_C E) (registration_signed app chal h pk)) sig = true /\
        (exists t, e_make_cert E t (cl_cert (w_client w)) (cl_certkey (w_client w))
                     (pub_ec {| eq_curve := P256; eq_x := x; eq_y := y |}) = Some cert) /\
        valid_scalar d /\ p256_pub (e_C E) d = (x, y) /\
        sealed (e_C E) (cl_key (w_client w)) h (sec1 d (x, y)) app)).
Proof.
  intros L K W I H. apply u2f_run in H. inversion H as [| |h req le D C3|h req le w0 r0 D C1 H0|h req le w0 r0 D C2 H0]; subst.
  1: { rewrite (decode_ins _ _ _ _ D) in I. congruence. }
  2: { rewrite (decode_ins _ _ _ _ D) in I. congruence. }
  apply register_run in H0; auto. destruct H0 as [(_ & _ & X)|H0]; [discriminate|].
  destruct H0 as (chal & ap & d & nonce & ok & pk & hb & E1 & L1 & L2 & Ed & En & Pk & Eh & Lh & Eok & H1 & H2 & H3 & H4).
  exists (uh_p1 h), chal, ap, ok. split. { rewrite <- C1, <- E1. eapply decoded_reads; eauto. }
  split; [exact L1|]. split; [exact L2|]. split; [exact H1|]. split; [exact H2|].
  destruct H4 as [[A B]|[A B]]; [left; split; [exact A|congruence]|right]. split; [exact A|].
  destruct (e_make_cert E (w_tick w + 3) _ _ _) as [cert|] eqn:MC; [|discriminate].
  destruct B as (rnd & R1 & R2 & R3). injection R3 as ->.
  assert (V : valid_scalar d) by (subst d; apply (eo_scalar E L)).
  exists pk, (fst (p256_pub (e_C E) d)), (snd (p256_pub (e_C E) d)), hb, cert.
  eexists. exists d. split; [reflexivity|]. rewrite <- surjective_pairing.
  split; [exact Pk|]. split; [now apply (l_pub_x _ (eo_laws E L))|]. split; [now apply (l_pub_y _ (eo_laws E L))|].
  split; [exact Lh|]. split; [now apply (l_ecdsa _ (eo_laws E L))|]. split; [exists (w_tick w + 3); exact MC|].
  split; [exact V|]. split; [reflexivity|]. rewrite Eh. apply own_sealed; auto using sec1_len, sec1_wf.
  - apply (eo_laws E L).
  - apply (co_key E _ K).
  - rewrite En, (eo_rand_len E L). reflexivity.
  - rewrite En. apply (eo_rand_wf E L).
  - destruct (decode_wf _ _ _ _ W D) as [Wr _]. rewrite E1 in Wr. now apply wfb_app in Wr as [_ Wr].
Qed.

Lemma decoded_asks msg hd req le chal app h : decode_u2f msg = Ok (hd, req, le) -> auth_parse req = Ok (chal, app, h) ->
  asks msg (uh_p1 hd) chal app h.
Proof.
  intros D P cla i q p2 c a k rest l A X Y Z. apply apdu_decoded in A. rewrite D in A. injection A as -> -> ->.
  cbn [uh_p1]. rewrite auth_parse_data in P by assumption. injection P as -> -> ->. auto.
Qed.

(* The outcomes of an authentication message. *)
Lemma u2f_authentication E w msg w' r : env_ok E -> client_ok E (w_client w) -> wfb msg ->
  nth_error msg 1 = Some 2 -> u2f_handle E msg w = (w', Ok r) ->
  exists control chal app h, asks msg control chal app h /\ len chal = 32 /\ len app = 32 /\
    ((w' = w /\ r = wrong_data /\ forall kb, ~ sealed (e_C E) (cl_key (w_client w)) h kb app) \/
     exists kb k, sealed (e_C E) (cl_key (w_client w)) h kb app /\ ec_parse (e_C E) kb = Some k /\
       auth_out E w control chal app k w' (Ok r)).
Proof.
  intros L K W I H. apply u2f_run in H. inversion H as [| |h req le D C3|h req le w0 r0 D C1 H0|h req le w0 r0 D C2 H0]; subst.
  1: { rewrite (decode_ins _ _ _ _ D) in I. congruence. }
  1: { rewrite (decode_ins _ _ _ _ D) in I. congruence. }
  apply authenticate_run in H0; auto; [|eapply decode_wf; eauto].
  destruct H0 as [(_ & X & _)|(chal & ap & hb & P & L1 & L2 & Wh & O)]; [discriminate|].
  exists (uh_p1 h), chal, ap, hb. split; [eapply decoded_asks; eauto|]. split; [exact L1|]. split; [exact L2|].
  destruct O as [(A & B & D')|O]; [left; split; [exact A|]; split; [congruence|exact D']|right; exact O].
Qed.

(* C48. *)
Lemma u2f_signs E w msg w' r : env_ok E -> client_ok E (w_client w) -> wfb msg ->
  nth_error msg 1 = Some 2 -> u2f_handle E msg w = (w', Ok r) ->
  r = refused \/ r = wrong_data \/ r = wrong_length \/
  exists control chal app h kb k n rnd es, asks msg control chal app h /\ len chal = 32 /\ len app = 32 /\
    sealed (e_C E) (cl_key (w_client w)) h kb app /\ ec_parse (e_C E) kb = Some k /\
    n = cl_ctr (w_client w) /\
    r = authentication_reply 1 n (ecdsa_sign (e_C E) (ec_d k) (sha256 (e_C E) (authentication_signed app 1 n chal)) rnd) /\
    w_client w' = set_ctr (w_client w) ((n + 1) mod 4294967296) /\
    events w w' es /\ ((control = 8 /\ es = []) \/ (control = 3 /\ es = [EvAsk ActU2FAuthenticate [] [] true])).
Proof.
  intros L K W I H. destruct (u2f_authentication E w msg w' r L K W I H) as (control & chal & ap & h & A & L1 & L2 & O).
  destruct O as [(_ & -> & _)|(kb & k & S & X & O)]; auto.
  remember (Ok r) as q eqn:Q. destruct O as [| | |es t rnd G T R1 R2]; injection Q as <-; auto.
  right. right. right. exists control, chal, ap, h, kb, k, (cl_ctr (w_client w)), rnd, es.
  split; [exact A|]. split; [exact L1|]. split; [exact L2|]. split; [exact S|]. split; [exact X|].
  split; [reflexivity|]. split; [reflexivity|]. split; [reflexivity|]. split; [reflexivity|]. exact G.
Qed.

Lemma app_split {A} (a b c d : list A) : length a = length b -> a ++ c = b ++ d -> a = b /\ c = d.
Proof.
  revert b. induction a as [|x a IH]; intros [|y b] L E; try discriminate; auto.
  injection E as -> E. injection L as L. destruct (IH b L E) as [-> ->]. auto.
Qed.

Lemma reply_inj pk h cert sig pk' h' cert' sig' : len pk = 65 -> len pk' = 65 ->
  registration_reply pk h cert sig = registration_reply pk' h' cert' sig' ->
  pk = pk' /\ h = h' /\ cert ++ sig = cert' ++ sig'.
Proof.
  unfold registration_reply. intros A B E. injection E as E. apply app_split in E as [-> E]; [|unfold len in *; lia].
  injection E as E1 E. apply app_split in E as [-> E]; [|unfold len in *; lia].
  rewrite !app_assoc in E. apply app_inv_tail in E. auto.
Qed.

Lemma decode_auth cla control p2 chal app h le msg E w : len chal = 32 -> len app = 32 -> len h < 256 ->
  apdu cla 2 control p2 (authentication_data chal app h) le msg ->
  u2f_handle E msg w = u2f_authenticate E control (authentication_data chal app h) w.
Proof.
  intros A B D F. apply apdu_decoded in F. unfold u2f_handle, bind, lift. rewrite F. reflexivity.
Qed.

(* A handle sealed under the device's key for a private key in SEC 1 form works. *)
Lemma own_handle_signs E w cla control p2 chal app h le msg d : env_ok E -> client_ok E (w_client w) -> wfb msg ->
  valid_scalar d -> sealed (e_C E) (cl_key (w_client w)) h (sec1 d (p256_pub (e_C E) d)) app ->
  len chal = 32 -> len app = 32 -> len h < 256 ->
  apdu cla 2 control p2 (authentication_data chal app h) le msg ->
  (control = 8 \/ (control = 3 /\ e_approve E (w_tick w) ActU2FAuthenticate [] [] = true)) ->
  exists w' sig, u2f_handle E msg w = (w', Ok (authentication_reply 1 (cl_ctr (w_client w)) sig)) /\
    ecdsa_verify (e_C E) (p256_pub (e_C E) d)
      (sha256 (e_C E) (authentication_signed app 1 (cl_ctr (w_client w)) chal)) sig = true.
Proof.
  intros L K W V S L1 L2 L3 A G. rewrite (decode_auth cla control p2 chal app h le msg) by assumption.
  destruct (u2f_authenticate E control (authentication_data chal app h) w) as [w' r] eqn:H.
  assert (Wd : wfb (authentication_data chal app h)).
  { apply apdu_decoded in A. destruct (decode_wf _ _ _ _ W A). assumption. }
  assert (P : auth_parse (authentication_data chal app h) = Ok (chal, app, h)).
  { rewrite <- (app_nil_r (authentication_data chal app h)). now apply auth_parse_data. }
  apply authenticate_run in H; auto. rewrite P in H.
  destruct H as [(-> & -> & [X|(c & a & k & X & Y)])|(c & a & k & X & _ & _ & Wh & Y)]; [discriminate| |].
  - exfalso. injection X as <- <- <-. pose proof (proj1 (co_key E _ K)) as AK.
    assert (Wh : wfb h). { unfold authentication_data in Wd. rewrite !wfb_app in Wd. tauto. }
    pose proof (proj2 (open_sealed E _ h _ app L AK Wh) S) as (a0 & O & _).
    destruct Y as [Y|(kb & S' & Y)]; [congruence|].
    pose proof (proj2 (open_sealed E _ h _ app L AK Wh) S') as (a1 & O' & _). rewrite O in O'. injection O' as <- _.
    rewrite (l_sec1 _ (eo_laws E L)) in Y by exact V. discriminate.
  - injection X as <- <- <-. destruct Y as [(_ & _ & Y)|(kb & k & S' & Y & O)]; [exfalso; eapply Y; eauto|].
    pose proof (proj1 (co_key E _ K)) as AK.
    pose proof (proj2 (open_sealed E _ h _ app L AK Wh) S) as (a0 & O0 & _).
    pose proof (proj2 (open_sealed E _ h _ app L AK Wh) S') as (a1 & O1 & _). rewrite O0 in O1. injection O1 as <- _.
    rewrite (l_sec1 _ (eo_laws E L)) in Y by exact V. injection Y as <-.
    inversion O; subst; try (exfalso; destruct G as [G|[G G']]; congruence || lia).
    eexists. eexists. split; [reflexivity|]. now apply (l_ecdsa _ (eo_laws E L)).
Qed.

(* C49, for a later state with the same sealing key. *)
Lemma u2f_round_trip E w1 cla1 p1 q1 chal1 app le1 msg1 w1' pk h cert sig w2 cla control p2 chal le msg :
  env_ok E -> client_ok E (w_client w1) -> client_ok E (w_client w2) -> wfb msg1 -> wfb msg ->
  len chal1 = 32 -> len app = 32 -> len chal = 32 -> len pk = 65 ->
  apdu cla1 1 p1 q1 (chal1 ++ app) le1 msg1 ->
  u2f_handle E msg1 w1 = (w1', Ok (registration_reply pk h cert sig)) ->
  cl_key (w_client w2) = cl_key (w_client w1) ->
  apdu cla 2 control p2 (authentication_data chal app h) le msg ->
  (control = 8 \/ (control = 3 /\ e_approve E (w_tick w2) ActU2FAuthenticate [] [] = true)) ->
  exists w2' x y sig2, encodes_point pk (x, y) /\ x < 2 ^ 256 /\ y < 2 ^ 256 /\
    u2f_handle E msg w2 = (w2', Ok (authentication_reply 1 (cl_ctr (w_client w2)) sig2)) /\
    ecdsa_verify (e_C E) (x, y) (sha256 (e_C E) (authentication_signed app 1 (cl_ctr (w_client w2)) chal)) sig2 = true.
Proof.
  intros L K1 K2 W1 W2 L1 L2 L3 Lp A1 H1 Key A2 G.
  assert (I : nth_error msg1 1 = Some 1) by (destruct A1; reflexivity).
  destruct (u2f_registration E w1 msg1 w1' _ L K1 W1 I H1) as (p & c & a & ok & R & Lc & La & _ & _ & [[_ X]|[_ X]]).
  { exfalso. apply (f_equal len) in X. unfold registration_reply in X. rewrite !len_app in X.
    change (len refused) with 2 in X. change (len [5]) with 1 in X. lia. }
  destruct (R _ _ _ _ _ _ A1) as (_ & _ & Dt). apply app_split in Dt as [-> ->]; [|unfold len in *; lia].
  destruct X as (pk' & x & y & h' & cert' & sig' & d & X & Pk & X1 & X2 & Lh & _ & _ & V & Q & S).
  apply reply_inj in X as (-> & -> & _); [|exact Lp|eapply point_len; eauto].
  rewrite <- Key, <- Q in S.
  destruct (own_handle_signs E w2 cla control p2 chal a h' le msg d L K2 W2 V S L3 La) as (w2' & sig2 & H2 & V2); auto.
  { rewrite Lh. reflexivity. }
  exists w2', x, y, sig2. rewrite <- Q at 2. auto 10.
Qed.

Lemma sealed_inj E w h kb kb' a a' : env_ok E -> client_ok E (w_client w) -> wfb h ->
  sealed (e_C E) (cl_key (w_client w)) h kb a -> sealed (e_C E) (cl_key (w_client w)) h kb' a' -> kb = kb' /\ a = a'.
Proof.
  intros L K W S S'. pose proof (proj1 (co_key E _ K)) as AK.
  apply open_sealed in S as (x & O & X); auto. apply open_sealed in S' as (x' & O' & X'); auto.
  rewrite O in O'. injection O' as <- <-. split; congruence.
Qed.

(* C50 for the other control bytes. *)
Lemma u2f_presence E w msg w' r : env_ok E -> client_ok E (w_client w) -> wfb msg ->
  nth_error msg 1 = Some 2 -> nth_error msg 2 <> Some 8 -> u2f_handle E msg w = (w', Ok r) ->
  r = refused \/ r = wrong_data \/ r = wrong_length \/
  (nth_error msg 2 = Some 3 /\ events w w' [EvAsk ActU2FAuthenticate [] [] true]).
Proof.
  intros L K W I I8 H. apply u2f_run in H. inversion H as [| |h req le D C3|h req le w0 r0 D C1 H0|h req le w0 r0 D C2 H0]; subst.
  1: { rewrite (decode_ins _ _ _ _ D) in I. congruence. }
  1: { rewrite (decode_ins _ _ _ _ D) in I. congruence. }
  assert (P1 : nth_error msg 2 = Some (uh_p1 h)).
  { clear - D. unfold decode_u2f in D. destruct msg as [|a [|b [|c [|d buf]]]]; try discriminate. cbn.
    destruct buf as [|x y] eqn:Y. { injection D as <- _ _. reflexivity. }
    rewrite <- Y in *. destruct (read_buf 1 buf) as [[z r]|]; [|discriminate]. cbn [rbind] in D.
    destruct z as [|[|q] z']; try discriminate.
    destruct (read_be 2 r) as [[n r2]|]; [|discriminate]. cbn [rbind] in D.
    destruct r2 as [|x2 y2] eqn:Y2. { injection D as <- _ _. reflexivity. }
    rewrite <- Y2 in *. destruct (read_buf n r2) as [[q r3]|]; [|discriminate]. cbn [rbind] in D.
    destruct r3 as [|x3 y3] eqn:Y3. { injection D as <- _ _. reflexivity. }
    rewrite <- Y3 in *. destruct (read_be 2 r3) as [[m r4]|]; [|discriminate]. cbn [rbind] in D. injection D as <- _ _. reflexivity. }
  apply authenticate_run in H0; auto; [|eapply decode_wf; eauto].
  destruct H0 as [(_ & X & _)|(chal & ap & hb & P & L1 & L2 & Wh & [(_ & X & _)|(kb & k & S & X & O)])]; [discriminate|right; left; congruence|].
  rewrite P1 in *. remember (Ok r) as q eqn:Q. destruct O as [| | |es t rnd G T R1 R2]; injection Q as <-; auto.
  right. right. right. destruct G as [[G _]|[G ->]]; [congruence|]. split; [congruence|reflexivity].
Qed.

Lemma u2f_check_only E w msg w' r : env_ok E -> client_ok E (w_client w) -> wfb msg ->
  nth_error msg 1 = Some 2 -> nth_error msg 2 = Some 7 -> u2f_handle E msg w = (w', Ok r) ->
  w' = w /\ (r = refused \/ r = wrong_data).
Proof.
  intros L K W I I7 H. apply u2f_run in H. inversion H as [| |h req le D C3|h req le w0 r0 D C1 H0|h req le w0 r0 D C2 H0]; subst.
  1: { rewrite (decode_ins _ _ _ _ D) in I. congruence. }
  1: { rewrite (decode_ins _ _ _ _ D) in I. congruence. }
  assert (P1 : uh_p1 h = 7).
  { clear - D I7. unfold decode_u2f in D. destruct msg as [|a [|b [|c [|d buf]]]]; try discriminate. cbn in I7. injection I7 as ->.
    destruct buf as [|x y] eqn:Y. { injection D as <- _ _. reflexivity. }
    rewrite <- Y in *. destruct (read_buf 1 buf) as [[z r]|]; [|discriminate]. cbn [rbind] in D.
    destruct z as [|[|q] z']; try discriminate.
    destruct (read_be 2 r) as [[n r2]|]; [|discriminate]. cbn [rbind] in D.
    destruct r2 as [|x2 y2] eqn:Y2. { injection D as <- _ _. reflexivity. }
    rewrite <- Y2 in *. destruct (read_buf n r2) as [[q r3]|]; [|discriminate]. cbn [rbind] in D.
    destruct r3 as [|x3 y3] eqn:Y3. { injection D as <- _ _. reflexivity. }
    rewrite <- Y3 in *. destruct (read_be 2 r3) as [[m r4]|]; [|discriminate]. cbn [rbind] in D. injection D as <- _ _. reflexivity. }
  apply authenticate_run in H0; auto; [|eapply decode_wf; eauto].
  destruct H0 as [(_ & X & _)|(chal & ap & hb & P & L1 & L2 & Wh & [(-> & X & _)|(kb & k & S & X & O)])]; [discriminate|split; [auto|right; congruence]|].
  rewrite P1 in O. remember (Ok r) as q eqn:Q. destruct O as [| | |es t rnd G T R1 R2]; injection Q as <-; auto; lia.
Qed.

(* C52. *)
Lemma auth_setup E w cla control p2 chal app h rest le msg : wfb msg -> len chal = 32 -> len app = 32 -> len h < 256 ->
  apdu cla 2 control p2 (authentication_data chal app h ++ rest) le msg ->
  u2f_handle E msg w = u2f_authenticate E control (authentication_data chal app h ++ rest) w /\
  wfb (authentication_data chal app h ++ rest) /\ wfb h /\
  auth_parse (authentication_data chal app h ++ rest) = Ok (chal, app, h).
Proof.
  intros W L1 L2 L3 A. apply apdu_decoded in A. destruct (decode_wf _ _ _ _ W A) as [W' _].
  split. { unfold u2f_handle, bind, lift. now rewrite A. }
  split; [exact W'|]. split. { unfold authentication_data in W'. rewrite !wfb_app in W'. tauto. }
  now apply auth_parse_data.
Qed.

Lemma u2f_foreign E w cla control p2 chal app h rest le msg w' r : env_ok E -> client_ok E (w_client w) -> wfb msg ->
  len chal = 32 -> len app = 32 -> len h < 256 ->
  apdu cla 2 control p2 (authentication_data chal app h ++ rest) le msg ->
  (forall kb, ~ sealed (e_C E) (cl_key (w_client w)) h kb app) ->
  u2f_handle E msg w = (w', r) -> w' = w /\ (r = Ok wrong_data \/ r = Panic).
Proof.
  intros L K W L1 L2 L3 A N H. destruct (auth_setup E w _ _ _ _ _ _ _ _ _ W L1 L2 L3 A) as (R & Wd & Wh & P).
  rewrite R in H. apply authenticate_run in H; auto. rewrite P in H.
  destruct H as [(-> & -> & _)|(c & a & k & X & _ & _ & _ & Y)]; auto.
  injection X as <- <- <-. destruct Y as [(-> & -> & _)|(kb & q & S & _)]; auto. exfalso. eapply N; eauto.
Qed.

Lemma u2f_not_box E w cla control p2 chal app h rest le msg : env_ok E -> client_ok E (w_client w) -> wfb msg ->
  len chal = 32 -> len app = 32 -> len h < 256 ->
  apdu cla 2 control p2 (authentication_data chal app h ++ rest) le msg ->
  unmarshal dec_box h = None -> u2f_handle E msg w = (w, Ok wrong_data).
Proof.
  intros L K W L1 L2 L3 A N. destruct (auth_setup E w _ _ _ _ _ _ _ _ _ W L1 L2 L3 A) as (R & Wd & Wh & P).
  rewrite R. unfold u2f_authenticate. fold (auth_parse (authentication_data chal app h ++ rest)). rewrite P.
  unfold bind, lift, get, open_handle. rewrite N. reflexivity.
Qed.

Lemma u2f_other_app E w cla control p2 chal app h rest le msg kb app' : env_ok E -> client_ok E (w_client w) -> wfb msg ->
  len chal = 32 -> len app = 32 -> len h < 256 ->
  apdu cla 2 control p2 (authentication_data chal app h ++ rest) le msg ->
  sealed (e_C E) (cl_key (w_client w)) h kb app' -> app' <> app -> u2f_handle E msg w = (w, Ok wrong_data).
Proof.
  intros L K W L1 L2 L3 A S N. destruct (auth_setup E w _ _ _ _ _ _ _ _ _ W L1 L2 L3 A) as (R & Wd & Wh & P).
  rewrite R. unfold u2f_authenticate. fold (auth_parse (authentication_data chal app h ++ rest)). rewrite P.
  unfold bind, lift, get. pose proof (proj1 (co_key E _ K)) as AK. apply open_sealed in S as (a & O & X); auto.
  rewrite O. cbn [kh_key kh_app]. rewrite X. rewrite (proj2 (bytes_eqb_neq _ _)) by exact N. reflexivity.
Qed.

(* C53. *)
Lemma u2f_version E w cla p1 p2 data le msg : apdu cla 3 p1 p2 data le msg ->
  u2f_handle E msg w = (w, Ok (text_u2f ++ [0x90; 0])).
Proof. intro A. apply apdu_decoded in A. unfold u2f_handle, bind, lift. rewrite A. reflexivity. Qed.

Lemma u2f_register_total E w cla p1 p2 data le msg w' : env_ok E -> client_ok E (w_client w) ->
  can_certify E (w_client w) -> apdu cla 1 p1 p2 data le msg -> len data = 64 ->
  u2f_handle E msg w <> (w', Panic).
Proof.
  intros L K MC A Ld H. apply apdu_decoded in A. unfold u2f_handle, bind, lift in H. rewrite A in H.
  cbn [uh_cmd] in H. change (1 =? 3) with false in H. change (1 =? 1) with true in H. cbv iota in H.
  apply register_run in H; auto. destruct H as [(X & _)|H]; [congruence|].
  destruct H as (chal & ap & d & nonce & ok & pk & hb & _ & _ & _ & D & _ & _ & _ & _ & _ & _ & _ & _ & [[_ X]|[_ X]]); [discriminate|].
  destruct (e_make_cert E (w_tick w + 3) _ _ _) eqn:M; [|eapply MC; [|exact M]; rewrite D; apply (eo_scalar E L)].
  destruct X as (? & _ & _ & X). discriminate.
Qed.

Lemma open_handle_panics E key h : env_ok E -> aes_key key -> wfb h ->
  (open_handle E key h = Panic <-> exists bx, unmarshal dec_box h = Some bx /\ ~ own_box (e_C E) key bx).
Proof.
  intros L K W. unfold open_handle. destruct (unmarshal dec_box h) as [[d i]|] eqn:U.
  2:{ split; [discriminate|]. intros (bx & X & _). discriminate. }
  assert (Wd : wfb (or_nil d)).
  { apply (unmarshal_wf dec_box) in U; auto. destruct U as (v & V1 & V2). unfold dec_box in V2.
    destruct (dec_entries v) as [l|] eqn:D; [|discriminate]. cbn [obind] in V2. apply dec_entries_wf in D; auto.
    unfold get_int in V2. destruct (dec_bytes (lookup (int_key 1) l)) as [d'|] eqn:D1; [|discriminate]. cbn [obind] in V2.
    destruct (dec_bytes (lookup (int_key 2) l)) as [i'|]; [|discriminate]. cbn [obind] in V2.
    injection V2 as <- <-. destruct d' as [d'|]; [|constructor]. apply dec_bytes_wf in D1; [exact D1|now apply lookup_wf]. }
  unfold open, decrypt. cbn [bx_data bx_iv]. rewrite (proj2 (aes_key_ok_iff _) K). split.
  - intro X. eexists. split; [reflexivity|]. intros (n & p & Y & N). injection Y as -> ->. cbn [or_nil] in *.
    rewrite N in X. change (12 =? 12) with true in X. cbn [rbind] in X.
    rewrite (l_gcm_open _ (eo_laws E L)) in X; auto; [discriminate X|]. now apply (l_gcm_wf _ (eo_laws E L)) in Wd.
  - intros (bx & X & Y). injection X as <-. destruct (len (or_nil i) =? 12) eqn:I; [|reflexivity]. cbn [rbind].
    destruct (gcm_open (e_C E) key (or_nil i) (or_nil d)) as [p|] eqn:G; [|reflexivity]. exfalso. apply Y.
    apply (l_gcm_only _ (eo_laws E L)) in G. destruct i as [i|]; [|discriminate I]. cbn [or_nil] in *.
    exists i, p. split; [|lia]. rewrite <- G. destruct d as [d|]; [reflexivity|].
    exfalso. cbn in G. apply (f_equal len) in G. rewrite (l_gcm_len _ (eo_laws E L)) in G.
    change (len (@nil N)) with 0 in G. lia.
Qed.

(* The panicking cases, exactly: C52, C53. *)
Lemma u2f_auth_panics E w cla control p2 chal app h rest le msg : env_ok E -> client_ok E (w_client w) -> wfb msg ->
  len chal = 32 -> len app = 32 -> len h < 256 ->
  apdu cla 2 control p2 (authentication_data chal app h ++ rest) le msg ->
  (snd (u2f_handle E msg w) = Panic <->
   (exists bx, unmarshal dec_box h = Some bx /\ ~ own_box (e_C E) (cl_key (w_client w)) bx) \/
   exists kb, sealed (e_C E) (cl_key (w_client w)) h kb app /\ ec_parse (e_C E) kb = None).
Proof.
  intros L K W L1 L2 L3 A. destruct (auth_setup E w _ _ _ _ _ _ _ _ _ W L1 L2 L3 A) as (R & Wd & Wh & P).
  pose proof (proj1 (co_key E _ K)) as AK.
  pose proof (open_handle_panics E (cl_key (w_client w)) h L AK Wh) as OP.
  rewrite R. split.
  - destruct (u2f_authenticate E control (authentication_data chal app h ++ rest) w) as [w' r] eqn:H. cbn [snd].
    apply authenticate_run in H; auto. rewrite P in H.
    intros ->. destruct H as [(_ & _ & [X|(c & a & k & X & Y)])|(c & a & k & X & _ & _ & _ & Y)]; [discriminate| |].
    + injection X as <- <- <-. destruct Y as [Y|Y]; [left; now apply OP|right; exact Y].
    + destruct Y as [(_ & Y & _)|(kb & q & _ & _ & O)]; [discriminate|]. inversion O.
  - intro X. unfold u2f_authenticate. fold (auth_parse (authentication_data chal app h ++ rest)). rewrite P.
    unfold bind at 1. unfold lift at 1. unfold bind at 1. unfold get at 1. unfold bind at 1. unfold lift at 1.
    destruct X as [X|(kb & S & X)].
    + apply OP in X. rewrite X. reflexivity.
    + apply open_sealed in S as (a & O & Y); auto. rewrite O. cbn [kh_key kh_app]. rewrite Y.
      rewrite (proj2 (bytes_eqb_eq _ _) eq_refl), X. reflexivity.
Qed.
