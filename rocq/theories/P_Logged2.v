(* Proofs about the log of the U2F server. *)
From Verif Require Import Base M_Str M_Util M_Cbor S_Cbor M_Crypto S_Crypto M_Cose M_State M_Client S_Client S_Ctap S_CtapReq S_Pin
  M_Ctap M_U2f S_U2f P_Crypto P_Client P_Ctap P_Ctap2 P_Ctap3 P_Pin P_U2f P_U2f2 M_Logged S_Logged P_Logged.

Definition handle_line (h : bytes) : entry := debug (str "KEY HANDLE: %d %#v") [ShNumber (len h); ShBytes h].

Lemma register_log E req w w' l r : client_ok E (w_client w) -> u2f_register_l E req w = (w', l, r) ->
  (len req <> 64 /\ l = [] /\ r = Panic) \/
  (len req = 64 /\
   l = [handle_line (handle_bytes (e_C E) (cl_key (w_client w)) (e_rand E (w_tick w + 1) 12)
          (sec1 (e_scalar E (w_tick w)) (p256_pub (e_C E) (e_scalar E (w_tick w)))) (dropN 32 req))]).
Proof.
  intros K H. unfold u2f_register_l in H. destruct (len req =? 64) eqn:Q.
  2:{ injection H as <- <- <-. left. split; [lia|auto]. }
  right. split; [lia|]. rewrite act_bind in H.
  change (new_scalar E w) with (mkw (w_client w) (w_tick w + 1) (w_trace w), Ok (e_scalar E (w_tick w))) in H.
  cbv beta iota zeta in H. cbn [ec_public ec_key eq_x eq_y] in H. rewrite <- surjective_pairing in H.
  rewrite act_bind, seal_run in H by exact K. cbn [w_client w_tick w_trace] in H.
  apply log_run in H as (l2 & -> & H). unfold handle_line. f_equal.
  rewrite act_bind in H. destruct (approve_u2f_registration E _) as [w1 [ok|]]; [|now injection H].
  destruct ok; [|now injection H]. rewrite act_bind in H.
  destruct (make_certificate E _ w1) as [w2 [cert|]]; [|now injection H].
  rewrite act_bind in H. destruct (sign_random E w2) as [w3 [rnd|]]; [|now injection H].
  rewrite act_bind in H. unfold lift in H. destruct (cose_sign _ _ _ _) as [sig|]; now injection H.
Qed.

Definition invalid_line (e : bytes) (h : bytes) : entry :=
  debug (str "U2F AUTHENTICATE: Invalid key handle given - %s %#v") [ShError e; ShBytes h].
Definition input_line (kh : key_handle) : entry := debug (str "U2F AUTHENTICATE: Invalid input data %#v") [ShHandle kh].

Lemma authenticate_log E control req w w' l r : u2f_authenticate_l E control req w = (w', l, r) ->
  (auth_parse req = Panic /\ l = [] /\ r = Panic) \/
  exists chal app h, auth_parse req = Ok (chal, app, h) /\
   ((open_handle_l E (cl_key (w_client w)) h = Panic /\ l = [] /\ r = Panic) \/
    (exists e, open_handle_l E (cl_key (w_client w)) h = Ok (inl e) /\ l = [invalid_line e h] /\ r = Ok wrong_data) \/
    (exists kh, open_handle_l E (cl_key (w_client w)) h = Ok (inr kh) /\ (kh_key kh = None \/ or_nil (kh_app kh) <> app) /\
       l = [input_line kh] /\ r = Ok wrong_data) \/
    (exists kh kb, open_handle_l E (cl_key (w_client w)) h = Ok (inr kh) /\ kh_key kh = Some kb /\ or_nil (kh_app kh) = app /\
       l = [] /\ r <> Ok wrong_data)).
Proof.
  intro H. unfold u2f_authenticate_l in H. fold (auth_parse req) in H. rewrite act_bind in H. unfold lift in H at 1.
  destruct (auth_parse req) as [[[chal app] h]|]; [|injection H as <- <- <-; auto].
  right. exists chal, app, h. split; [reflexivity|].
  rewrite act_bind in H. unfold get in H at 1. rewrite act_bind in H. unfold lift in H at 1.
  destruct (open_handle_l E (cl_key (w_client w)) h) as [[e|kh]|]; [| |injection H as <- <- <-; auto].
  - right. left. exists e. split; [reflexivity|]. apply log_run in H as (l2 & -> & H). injection H as <- <- <-. auto.
  - right. right. destruct (kh_key kh) as [kb|] eqn:Kb.
    + destruct (bytes_eqb (or_nil (kh_app kh)) app) eqn:B.
      * right. apply bytes_eqb_eq in B. exists kh, kb. split; [reflexivity|]. split; [exact Kb|]. split; [exact B|].
        destruct (ec_parse (e_C E) kb) as [k|]; [|injection H as <- <- <-; split; [reflexivity|discriminate]].
        cbv zeta in H.
        assert (G : forall v, act (do n <- next_counter; do r <- sign_random E;
            do sig <- lift (cose_sign (e_C E) (priv_ec k) (app ++ [1] ++ be 4 n ++ chal) r);
            ret ([1] ++ be 4 n ++ sig ++ sw_no_error)) v = (w', l, r) -> l = [] /\ r <> Ok wrong_data).
        { intros v X. unfold act in X. rewrite next_counter_bind in X. unfold sign_random in X. rewrite bind_random in X.
          unfold bind, lift, ret in X. destruct (cose_sign _ _ _ _) as [sig|]; injection X as <- <- <-;
            (split; [reflexivity|discriminate]). }
        destruct (control =? 7). { injection H as <- <- <-. split; [reflexivity|discriminate]. }
        destruct (control =? 3).
        { rewrite act_bind in H. destruct (approve_u2f_authentication E w) as [w1 [[]|]]; [now apply G in H| |];
            injection H as <- <- <-; (split; [reflexivity|discriminate]). }
        destruct (control =? 8); [now apply G in H|]. injection H as <- <- <-. split; [reflexivity|discriminate].
      * left. apply bytes_eqb_neq in B. exists kh. split; [reflexivity|]. split; [now right|].
        apply log_run in H as (l2 & -> & H). injection H as <- <- <-. auto.
    + left. exists kh. split; [reflexivity|]. split; [now left|].
      apply log_run in H as (l2 & -> & H). injection H as <- <- <-. auto.
Qed.

(* The U2F log as far as message and answer determine it. *)
Definition u2f_inner (hd : u2f_header) (req : bytes) (r : res bytes) : list entry :=
  if uh_cmd hd =? 1 then
    match r with Ok b => [handle_line (takeN 194 (dropN 67 b))] | Panic => [] end
  else if uh_cmd hd =? 2 then
    match r with
    | Ok [0x6A; 0x80] => match auth_parse req with Ok (_, _, h) => [invalid_line h h] | Panic => [] end
    | _ => []
    end
  else [].
Definition message_line (hd : u2f_header) (req : bytes) (le : N) : entry :=
  debug (str "MESSAGE: Header: %s Request: %#v Response Length: %d")
    [ShBytes [uh_cla hd; uh_cmd hd; uh_p1 hd; uh_p2 hd]; ShBytes req; ShNumber le].
Definition u2f_lines (msg : bytes) (r : res bytes) : list entry :=
  match decode_u2f msg with
  | Panic => []
  | Ok (hd, req, le) => message_line hd req le :: u2f_inner hd req r ++
      match r with Ok b => [debug (str "RESPONSE: %#v") [ShBytes b]] | Panic => [] end
  end.

(* The parts of a run. *)
Lemma u2f_log E msg w w' l r : u2f_logged E msg w = (w', l, r) ->
  (decode_u2f msg = Panic /\ l = [] /\ r = Panic) \/
  exists hd req le l0, decode_u2f msg = Ok (hd, req, le) /\
    l = message_line hd req le :: l0 ++ match r with Ok b => [debug (str "RESPONSE: %#v") [ShBytes b]] | Panic => [] end /\
    ((uh_cmd hd = 3 /\ l0 = []) \/ (uh_cmd hd = 1 /\ u2f_register_l E req w = (w', l0, r)) \/
     (uh_cmd hd = 2 /\ u2f_authenticate_l E (uh_p1 hd) req w = (w', l0, r)) \/
     (uh_cmd hd <> 1 /\ uh_cmd hd <> 2 /\ uh_cmd hd <> 3 /\ l0 = [] /\ r = Panic)).
Proof.
  intro H. unfold u2f_logged in H. rewrite act_bind in H. unfold lift in H.
  destruct (decode_u2f msg) as [[[hd req] le]|]; [|injection H as <- <- <-; auto].
  right. exists hd, req, le. apply log_run in H as (l2 & -> & H). apply tail_run in H as (l0 & H & ->).
  exists l0. split; [reflexivity|]. split; [reflexivity|].
  destruct (uh_cmd hd =? 3) eqn:C3. { injection H as <- <- <-. left. split; [lia|reflexivity]. }
  destruct (uh_cmd hd =? 1) eqn:C1. { right. left. split; [lia|exact H]. }
  destruct (uh_cmd hd =? 2) eqn:C2. { right. right. left. split; [lia|exact H]. }
  injection H as <- <- <-. right. right. right. repeat (split; [lia|]). auto.
Qed.

Lemma reply_handle pk h cert sig : len pk = 65 -> len h = 194 -> takeN 194 (dropN 67 (registration_reply pk h cert sig)) = h.
Proof.
  intros P H. unfold registration_reply, takeN, dropN.
  replace ([5] ++ pk ++ [len h] ++ h ++ cert ++ sig ++ [144; 0]) with (([5] ++ pk ++ [len h]) ++ h ++ cert ++ sig ++ [144; 0])
    by now rewrite <- !app_assoc.
  assert (P' : length ([5] ++ pk ++ [len h]) = N.to_nat 67) by (rewrite !app_length; cbn [length]; unfold len in P; lia).
  assert (H' : length h = N.to_nat 194) by (unfold len in H; lia).
  rewrite <- P', skipn_app, Nat.sub_diag, skipn_all. cbn [app skipn].
  rewrite <- H', firstn_app, Nat.sub_diag, firstn_all. apply app_nil_r.
Qed.

Lemma u2f_discreet : discreet u2f_logged (fun msg r => ~ handle_exchange msg r).
Proof.
  exists u2f_lines. intros E w msg w' l r EO K W H N.
  pose proof (erased_run _ _ _ _ _ _ (u2f_erased E msg) H) as H0.
  apply u2f_log in H as [(D & -> & ->)|(hd & req & le & l0 & D & -> & H)]; unfold u2f_lines; rewrite D; [reflexivity|].
  change (visible (?e :: ?x)) with (e :: visible x). f_equal. rewrite visible_app. f_equal; [|destruct r; reflexivity].
  unfold u2f_inner. destruct H as [(C & ->)|[(C & H)|[(C & H)|(C1 & C2 & C3 & -> & ->)]]].
  - rewrite C. reflexivity.
  - rewrite C. change (1 =? 1) with true. cbv iota.
    assert (I : nth_error msg 1 = Some 1) by (rewrite (decode_ins _ _ _ _ D); congruence).
    apply register_log in H; auto. destruct H as [(_ & -> & ->)|(Q & ->)]; [reflexivity|].
    destruct r as [b|]; [|destruct N; left; auto]. set (h := handle_bytes _ _ _ _ _) at 1.
    change (visible [handle_line h]) with [handle_line h]. f_equal. f_equal.
    apply u2f_run in H0. inversion H0 as [| |? ? ? D'|h1 req1 le1 w1 r1 D' C' H1|? ? ? ? ? D']; subst;
      rewrite D in D'; injection D' as <- <- <-; try congruence. clear H0.
    apply register_run in H1; auto. destruct H1 as [(_ & _ & X)|H1]; [discriminate|].
    destruct H1 as (ch & ap & d & nonce & ok & pk & hb & E1 & L1 & L2 & -> & -> & Pk & E2 & L3 & _ & _ & _ & _ & Z).
    assert (Hh : hb = h).
    { rewrite E2. unfold h. f_equal. rewrite E1. unfold dropN. assert (X : length ch = N.to_nat 32) by (unfold len in L1; lia).
      rewrite <- X, skipn_app, Nat.sub_diag, skipn_all. reflexivity. }
    destruct Z as [(_ & X)|(_ & X)]; [destruct N; left; auto|].
    destruct (e_make_cert E _ _ _ _) as [cert|]; [|discriminate]. destruct X as (rnd & _ & _ & X). injection X as ->.
    rewrite reply_handle; [now rewrite Hh|eapply point_len; eauto|exact L3].
  - rewrite C. change (2 =? 1) with false. change (2 =? 2) with true. cbv iota.
    assert (I : nth_error msg 1 = Some 2) by (rewrite (decode_ins _ _ _ _ D); congruence).
    apply authenticate_log in H as [(P & -> & ->)|(ch & ap & h & P & H)]; [reflexivity|].
    destruct H as [(_ & -> & ->)|[(e & O & -> & ->)|[(kh & O & _ & -> & ->)|(kh & kb & O & _ & _ & -> & R)]]]; [reflexivity| | |].
    + rewrite P. unfold open_handle_l in O. destruct (unmarshal dec_box h) as [bx|] eqn:U.
      { destruct N. right. exists (uh_p1 hd), ch, ap, h, bx. split; [eapply decoded_asks; eauto|auto]. }
      injection O as <-. reflexivity.
    + unfold open_handle_l in O. destruct (unmarshal dec_box h) as [bx|] eqn:U; [|discriminate].
      destruct N. right. exists (uh_p1 hd), ch, ap, h, bx. split; [eapply decoded_asks; eauto|auto].
    + destruct r as [b|]; [|reflexivity].
      assert (X : b <> [0x6A; 0x80]) by (intros ->; apply R; reflexivity). clear -X.
      repeat match goal with |- context [match ?x with _ => _ end] => is_var x; destruct x; try reflexivity end.
      now destruct X.
  - destruct (uh_cmd hd =? 1) eqn:X1; [lia|]. destruct (uh_cmd hd =? 2) eqn:X2; [lia|]. reflexivity.
Qed.

(* A handle of the device presented with another application: the private key is logged. *)
Lemma private_key_shown E w cla control p2 chal app h rest le msg w' l r kb a : env_ok E -> client_ok E (w_client w) -> wfb msg ->
  len chal = 32 -> len app = 32 -> len h < 256 ->
  apdu cla 2 control p2 (authentication_data chal app h ++ rest) le msg ->
  sealed (e_C E) (cl_key (w_client w)) h kb a -> a <> app -> u2f_logged E msg w = (w', l, r) ->
  r = Ok wrong_data /\ exists k, kh_key k = Some kb /\ shows l (ShHandle k).
Proof.
  intros EO K W L1 L2 L3 A S N H. pose proof (apdu_decoded _ _ _ _ _ _ _ A) as D.
  assert (Wh : wfb h).
  { destruct (decode_wf _ _ _ _ W D) as [X _]. unfold authentication_data in X. rewrite !wfb_app in X. tauto. }
  apply u2f_log in H as [(D' & _)|(hd & req & le' & l0 & D' & -> & H)]; [congruence|].
  rewrite D in D'. injection D' as <- <- <-. cbn [uh_cmd uh_p1] in H.
  destruct H as [(C & _)|[(C & _)|[(C & H)|(_ & C & _)]]]; try discriminate; [|now destruct C].
  apply authenticate_log in H as [(P & _)|(ch & ap & h' & P & H)]; rewrite auth_parse_data in P by assumption; [discriminate|].
  injection P as <- <- <-. apply open_sealed in S as (a0 & O & A0); auto; [|apply (co_key E _ K)].
  pose proof (open_erased E (cl_key (w_client w)) h) as O'. rewrite O in O'.
  destruct (open_handle_l E (cl_key (w_client w)) h) as [[e|kh]|] eqn:Q; try discriminate O'. injection O' as <-.
  destruct H as [(X & _)|[(e & X & _)|[(kh & X & _ & -> & ->)|(kh & kb' & X & _ & Y & _)]]]; try discriminate.
  - injection X as <-. split; [reflexivity|]. eexists. split; [|eapply shows_in; [right; left; reflexivity|discriminate|now left]]. reflexivity.
  - injection X as <-. cbn [kh_app] in Y. congruence.
Qed.

(* A refused registration: its handle is logged, and works. *)
Lemma refused_shown E w msg w' l : env_ok E -> client_ok E (w_client w) -> wfb msg ->
  nth_error msg 1 = Some 1 -> u2f_logged E msg w = (w', l, Ok refused) ->
  exists p1 chal app h d, reads msg 1 p1 (chal ++ app) /\ len chal = 32 /\ len app = 32 /\ len h = 194 /\ valid_scalar d /\
    sealed (e_C E) (cl_key (w_client w)) h (sec1 d (p256_pub (e_C E) d)) app /\ shows l (ShBytes h).
Proof.
  intros EO K W I H. pose proof (erased_run _ _ _ _ _ _ (u2f_erased E msg) H) as H0.
  apply u2f_log in H as [(D & _ & X)|(hd & req & le & l0 & D & -> & H)]; [discriminate|].
  assert (C1 : uh_cmd hd = 1) by (rewrite (decode_ins _ _ _ _ D) in I; congruence).
  destruct H as [(C & _)|[(_ & H)|[(C & _)|(C & _)]]]; try congruence.
  apply u2f_run in H0. inversion H0 as [| |? ? ? D'|h1 req1 le1 w1 r1 D' C' H1|? ? ? ? ? D']; subst;
    rewrite D in D'; injection D' as <- <- <-; try congruence. clear H0.
  apply register_log in H; auto. destruct H as [(_ & _ & X)|(Q & ->)]; [discriminate|].
  apply register_run in H1; auto. destruct H1 as [(_ & _ & X)|H1]; [discriminate|].
  destruct H1 as (ch & ap & d & nonce & ok & pk & hb & E1 & L1 & L2 & Ed & En & Pk & E2 & L3 & _).
  exists (uh_p1 hd), ch, ap, hb, d.
  split; [rewrite <- E1, <- C1; eapply decoded_reads; eauto|]. split; [exact L1|]. split; [exact L2|]. split; [exact L3|].
  split; [rewrite Ed; apply (eo_scalar E EO)|]. split.
  - rewrite E2. apply own_sealed; auto using sec1_len, sec1_wf.
    + apply (eo_laws E EO).
    + apply (co_key E _ K).
    + rewrite En, (eo_rand_len E EO). reflexivity.
    + rewrite En. apply (eo_rand_wf E EO).
    + destruct (decode_wf _ _ _ _ W D) as [Wr _]. rewrite E1 in Wr. now apply wfb_app in Wr as [_ Wr].
  - eapply shows_in; [right; left; reflexivity|discriminate|]. right. left. rewrite E2, Ed, En. do 2 f_equal.
    rewrite E1. unfold dropN. assert (X : length ch = N.to_nat 32) by (unfold len in L1; lia).
    rewrite <- X, skipn_app, Nat.sub_diag, skipn_all. reflexivity.
Qed.

Lemma reads_data cla p1 q data le msg p1' data' : apdu cla 1 p1 q data le msg -> reads msg 1 p1' data' -> data = data'.
Proof. intros A R. apply R in A. tauto. Qed.

Lemma refused_works E w1 cla1 p1 q1 chal1 app le1 msg1 w1' l :
  env_ok E -> client_ok E (w_client w1) -> wfb msg1 -> len chal1 = 32 -> len app = 32 ->
  apdu cla1 1 p1 q1 (chal1 ++ app) le1 msg1 -> u2f_logged E msg1 w1 = (w1', l, Ok refused) ->
  exists h q, shows l (ShBytes h) /\
    forall w2 cla control p2 chal le msg, client_ok E (w_client w2) -> cl_key (w_client w2) = cl_key (w_client w1) ->
      wfb msg -> len chal = 32 -> apdu cla 2 control p2 (authentication_data chal app h) le msg ->
      (control = 8 \/ (control = 3 /\ e_approve E (w_tick w2) ActU2FAuthenticate [] [] = true)) ->
      exists w2' sig, u2f_handle E msg w2 = (w2', Ok (authentication_reply 1 (cl_ctr (w_client w2)) sig)) /\
        ecdsa_verify (e_C E) q (sha256 (e_C E) (authentication_signed app 1 (cl_ctr (w_client w2)) chal)) sig = true.
Proof.
  intros EO K W L1 L2 A H. assert (I : nth_error msg1 1 = Some 1) by (destruct A; reflexivity).
  destruct (refused_shown E w1 msg1 w1' l EO K W I H) as (p & c & a & h & d & R & Lc & La & Lh & V & S & Sh).
  pose proof (reads_data _ _ _ _ _ _ _ _ A R) as X. apply app_split in X as [<- <-]; [|unfold len in *; lia].
  exists h, (p256_pub (e_C E) d). split; [exact Sh|]. intros w2 cla control p2 chal le msg K2 Key W2 L3 A2 G.
  eapply own_handle_signs; eauto. now rewrite Key. rewrite Lh. reflexivity.
Qed.

(* After a registration, its handle presented with another application. *)
Lemma registered_key_shown E w1 cla1 p1 q1 chal1 app1 le1 msg1 w1' pk h cert sig w2 cla control p2 chal app le msg w2' l r :
  env_ok E -> client_ok E (w_client w1) -> client_ok E (w_client w2) -> wfb msg1 -> wfb msg ->
  len chal1 = 32 -> len app1 = 32 -> len chal = 32 -> len app = 32 -> len pk = 65 -> len h < 256 ->
  apdu cla1 1 p1 q1 (chal1 ++ app1) le1 msg1 ->
  u2f_handle E msg1 w1 = (w1', Ok (registration_reply pk h cert sig)) ->
  cl_key (w_client w2) = cl_key (w_client w1) -> app <> app1 ->
  apdu cla 2 control p2 (authentication_data chal app h) le msg -> u2f_logged E msg w2 = (w2', l, r) ->
  r = Ok wrong_data /\ exists k kb d, shows l (ShHandle k) /\ kh_key k = Some kb /\
    ec_parse (e_C E) kb = Some (ec_key (e_C E) d) /\ encodes_point pk (p256_pub (e_C E) d).
Proof.
  intros EO K1 K2 W1 W2 L1 L2 L3 L4 Lp Lh A1 H1 Key N A2 H2.
  assert (I : nth_error msg1 1 = Some 1) by (destruct A1; reflexivity).
  destruct (u2f_registration E w1 msg1 w1' _ EO K1 W1 I H1) as (p & c & a & ok & R & Lc & La & _ & _ & [[_ X]|[_ X]]); [discriminate X|].
  destruct X as (pk' & x & y & h' & cert' & sig' & d & X & P & _ & _ & Lh' & _ & _ & V & Pd & S).
  apply reply_inj in X as (<- & <- & _); [|exact Lp|eapply point_len; eauto].
  pose proof (reads_data _ _ _ _ _ _ _ _ A1 R) as X. apply app_split in X as [<- <-]; [|unfold len in *; lia].
  rewrite <- (app_nil_r (authentication_data chal app h)) in A2. rewrite <- Key in S.
  destruct (private_key_shown E w2 cla control p2 chal app h [] le msg w2' l r _ app1 EO K2 W2 L3 L4 Lh A2 S) as (R' & k & Kk & Sh); auto.
  split; [exact R'|]. exists k, (sec1 d (x, y)), d. split; [exact Sh|]. split; [exact Kk|].
  rewrite <- Pd at 1. split; [apply (l_sec1 _ (eo_laws E EO)); exact V|]. now rewrite Pd.
Qed.
