(* Two executions side by side. *)
From Verif Require Import Base M_Str M_Cbor M_Crypto M_Cose M_State M_Client M_Ctap M_U2f M_History.
From Verif Require Import S_Crypto S_Cose S_State S_Client S_Ctap S_Secret P_Crypto.

Section Rel.
  Variable E : Env.
  (* What the two clients have in common. *)
  Variable same : client -> client -> Prop.

  Definition both {A} (w1 w2 : world) (x y : world * res A) : Prop :=
    snd x = snd y /\ same (w_client (fst x)) (w_client (fst y)) /\ w_tick (fst x) = w_tick (fst y) /\
    exists e1 e2, w_trace (fst x) = w_trace w1 ++ e1 /\ w_trace (fst y) = w_trace w2 ++ e2 /\ asked e1 = asked e2.

  Definition rel {A} (m1 m2 : M A) : Prop := forall w1 w2, same (w_client w1) (w_client w2) ->
    w_tick w1 = w_tick w2 -> both w1 w2 (m1 w1) (m2 w2).

  Lemma both_same {A} w1 w2 v1 v2 (r : res A) : same (w_client v1) (w_client v2) -> w_tick v1 = w_tick v2 ->
    w_trace v1 = w_trace w1 -> w_trace v2 = w_trace w2 -> both w1 w2 (v1, r) (v2, r).
  Proof.
    intros S T X Y. split; [reflexivity|]. split; [exact S|]. split; [exact T|]. exists [], []. cbn [fst].
    rewrite X, Y, !app_nil_r. auto.
  Qed.

  Lemma rel_ret {A} (a : A) : rel (ret a) (ret a).
  Proof. intros w1 w2 S T. now apply both_same. Qed.
  Lemma rel_fail {A} : rel (@fail A) fail.
  Proof. intros w1 w2 S T. now apply both_same. Qed.
  Lemma rel_lift {A} (r : res A) : rel (lift r) (lift r).
  Proof. intros w1 w2 S T. now apply both_same. Qed.
  Lemma rel_tick : rel tick tick.
  Proof. intros w1 w2 S T. unfold tick. rewrite T. now apply both_same. Qed.
  Lemma rel_put c1 c2 : same c1 c2 -> rel (put c1) (put c2).
  Proof. intros S w1 w2 _ T. now apply both_same. Qed.
  Lemma rel_ask_event e : rel (emit e) (emit e).
  Proof.
    intros w1 w2 S T. split; [reflexivity|]. split; [exact S|]. split; [exact T|]. exists [e], [e]. auto.
  Qed.

  Lemma asked_app a b : asked (a ++ b) = asked a ++ asked b.
  Proof. unfold asked. apply flat_map_app. Qed.

  Lemma rel_bind {A B} (m1 m2 : M A) (k1 k2 : A -> M B) : rel m1 m2 -> (forall a, rel (k1 a) (k2 a)) ->
    rel (bind m1 k1) (bind m2 k2).
  Proof.
    intros H1 H2 w1 w2 S T. specialize (H1 w1 w2 S T). unfold bind.
    destruct (m1 w1) as [v1 r1], (m2 w2) as [v2 r2]. destruct H1 as (Q & S1 & T1 & e1 & e2 & X1 & X2 & X).
    cbn [fst snd] in *. subst r2. destruct r1 as [a|]; [|unfold both; cbn; eauto 10].
    destruct (H2 a v1 v2 S1 T1) as (Q & S2 & T2 & f1 & f2 & Y1 & Y2 & Y).
    split; [exact Q|]. split; [exact S2|]. split; [exact T2|].
    exists (e1 ++ f1), (e2 ++ f2). rewrite Y1, Y2, X1, X2, !app_assoc, !asked_app, X, Y. auto.
  Qed.

  Lemma rel_get {B} (k1 k2 : client -> M B) : (forall c1 c2, same c1 c2 -> rel (k1 c1) (k2 c2)) ->
    rel (bind get k1) (bind get k2).
  Proof. intros H w1 w2 S T. unfold bind, get. apply (H _ _ S w1 w2 S T). Qed.

  Lemma rel_random n : rel (random E n) (random E n).
  Proof. apply rel_bind; [apply rel_tick|intro; apply rel_ret]. Qed.
  Lemma rel_scalar : rel (new_scalar E) (new_scalar E).
  Proof. apply rel_bind; [apply rel_tick|intro; apply rel_ret]. Qed.
  Lemma rel_ask a r s : rel (ask E a r s) (ask E a r s).
  Proof. apply rel_bind; [apply rel_tick|intro]. apply rel_bind; [apply rel_ask_event|intro; apply rel_ret]. Qed.

  Lemma rel_lift_with {A B} (r : res A) (k1 k2 : A -> M B) : (forall a, r = Ok a -> rel (k1 a) (k2 a)) ->
    rel (bind (lift r) k1) (bind (lift r) k2).
  Proof.
    intros H w1 w2 S T. unfold bind, lift. destruct r as [a|]; [apply (H a eq_refl w1 w2 S T)|].
    now apply both_same.
  Qed.

  Section Cert.
  Hypothesis S_cert : forall c1 c2, same c1 c2 -> cl_cert c1 = cl_cert c2 /\ cl_certkey c1 = cl_certkey c2.

  Lemma rel_certificate k : rel (make_certificate E k) (make_certificate E k).
  Proof.
    unfold make_certificate. apply rel_get. intros c1 c2 S. apply rel_bind; [apply rel_lift|intro pub].
    apply rel_bind; [apply rel_tick|intro t]. rewrite (proj1 (S_cert _ _ S)), (proj2 (S_cert _ _ S)).
    destruct (e_make_cert _ _ _ _ _); [apply rel_ret|apply rel_fail].
  Qed.

  Section U2f.
  Hypothesis S_u2f : forall c1 c2, same c1 c2 -> cl_key c1 = cl_key c2 /\ cl_ctr c1 = cl_ctr c2.
  Hypothesis S_ctr : forall c1 c2 n, same c1 c2 -> same (set_ctr c1 n) (set_ctr c2 n).

  (* ---------------------------------------------------------------- *)
  (* U2F                                                               *)

  Lemma rel_register req : rel (u2f_register E req) (u2f_register E req).
  Proof.
    unfold u2f_register. destruct (len req =? 64); [|apply rel_fail]. cbv zeta.
    apply rel_bind; [apply rel_scalar|intro d]. apply rel_bind.
    { unfold seal_handle. apply rel_get. intros c1 c2 S. rewrite (proj1 (S_u2f _ _ S)).
      apply rel_bind; [apply rel_random|intro]. apply rel_bind; [apply rel_lift|intro; apply rel_ret]. }
    intro h. apply rel_bind; [apply rel_ask|intros []; [|apply rel_ret]].
    apply rel_bind; [apply rel_certificate|intro cert]. apply rel_bind; [apply rel_random|intro r].
    apply rel_bind; [apply rel_lift|intro; apply rel_ret].
  Qed.

  Lemma rel_counter : rel next_counter next_counter.
  Proof.
    unfold next_counter. apply rel_get. intros c1 c2 S. destruct (S_u2f _ _ S) as (Q1 & Q2). rewrite <- Q2.
    apply rel_bind; [apply rel_put|intro; apply rel_ret]. now apply S_ctr.
  Qed.

  Lemma rel_authenticate n req : rel (u2f_authenticate E n req) (u2f_authenticate E n req).
  Proof.
    unfold u2f_authenticate. apply rel_bind; [apply rel_lift|intros [[challenge app] h]].
    apply rel_get. intros c1 c2 S. rewrite (proj1 (S_u2f _ _ S)). apply rel_bind; [apply rel_lift|intros [kh|]; [|apply rel_ret]].
    destruct (kh_key kh) as [kb|]; [|apply rel_ret]. destruct (bytes_eqb _ app); [|apply rel_ret].
    destruct (ec_parse _ kb) as [k|]; [|apply rel_fail]. cbv zeta.
    assert (F : rel (do n <- next_counter; do r <- sign_random E;
        do sig <- lift (cose_sign (e_C E) (priv_ec k) (app ++ [1] ++ be 4 n ++ challenge) r);
        ret ([1] ++ be 4 n ++ sig ++ sw_no_error))
      (do n <- next_counter; do r <- sign_random E;
        do sig <- lift (cose_sign (e_C E) (priv_ec k) (app ++ [1] ++ be 4 n ++ challenge) r);
        ret ([1] ++ be 4 n ++ sig ++ sw_no_error))).
    { apply rel_bind; [apply rel_counter|intro]. apply rel_bind; [apply rel_random|intro].
      apply rel_bind; [apply rel_lift|intro; apply rel_ret]. }
    destruct (n =? 7); [apply rel_ret|]. destruct (n =? 3); [apply rel_bind; [apply rel_ask|intros []; [apply F|apply rel_ret]]|].
    destruct (n =? 8); [apply F|apply rel_ret].
  Qed.

  Lemma rel_u2f m : rel (u2f_handle E m) (u2f_handle E m).
  Proof.
    unfold u2f_handle. apply rel_bind; [apply rel_lift|intros [[h req] le]].
    destruct (uh_cmd h =? 3); [apply rel_ret|]. destruct (uh_cmd h =? 1); [apply rel_register|].
    destruct (uh_cmd h =? 2); [apply rel_authenticate|apply rel_fail].
  Qed.

  End U2f.
  End Cert.

  (* A conversation whose inputs are all treated the same. *)
  Lemma talk_rel is : (forall i, In i is -> rel (handle E i) (handle E i)) ->
    forall w1 w2, same (w_client w1) (w_client w2) -> w_tick w1 = w_tick w2 -> alike E is w1 w2.
  Proof.
    induction is as [|i is IH]; intros H w1 w2 S T.
    - exists [], []. split; (split; [reflexivity|]; exists []; rewrite app_nil_r; auto).
    - pose proof (H i (or_introl eq_refl) w1 w2 S T) as X. unfold alike, seen. cbn [talk].
      destruct (handle E i w1) as [v1 r1], (handle E i w2) as [v2 r2]. destruct X as (Q & S1 & T1 & e1 & e2 & X1 & X2 & X).
      cbn [fst snd] in *. subst r2. destruct r1 as [o|].
      + destruct (IH (fun j I => H j (or_intror I)) v1 v2 S1 T1) as (os & qs & (O1 & f1 & Y1 & Z1) & (O2 & f2 & Y2 & Z2)).
        destruct (talk E is v1) as [os1 z1], (talk E is v2) as [os2 z2]. cbn [fst snd] in *. subst os1 os2.
        exists (Ok o :: os), (asked e1 ++ qs). split; (split; [reflexivity|]).
        * exists (e1 ++ f1). rewrite Y1, X1, app_assoc, asked_app, Z1. auto.
        * exists (e2 ++ f2). rewrite Y2, X2, app_assoc, asked_app, <- Z2, X. auto.
      + exists [Panic], (asked e1). split; (split; [reflexivity|]); cbn [fst snd]; [exists e1|exists e2]; auto.
  Qed.
End Rel.

Section Two.
  Variable E : Env.
  Hypothesis EO : env_ok E.
  (* [u]: the U2F secrets agree; [R]: the relying parties whose credentials agree; [K]: the
     PIN tokens and PIN hashes of the two, when they do not. *)
  Variable u : bool.
  Variable R : bytes -> bool.
  Variable K : option (bytes * bytes * bytes * bytes).
  (* The key agreement key, which no request changes. *)
  Variable ka : N.

  Definition writable (v : list source) : Prop := Forall (fun s => exists b, marshal_priv (cs_key s) = Ok b) v.

  Definition pins (c1 c2 : client) : Prop :=
    match K with
    | None => cl_token c1 = cl_token c2 /\ cl_hash c1 = cl_hash c2
    | Some (t1, t2, h1, h2) => cl_token c1 = t1 /\ cl_token c2 = t2 /\ cl_hash c1 = Some h1 /\ cl_hash c2 = Some h2
    end.

  Record sim (c1 c2 : client) : Prop := {
    sm_u2f : u = true -> cl_key c1 = cl_key c2 /\ cl_ctr c1 = cl_ctr c2;
    sm_cert : cl_cert c1 = cl_cert c2;
    sm_certkey : cl_certkey c1 = cl_certkey c2;
    sm_saves : exists b, marshal_priv (cl_certkey c1) = Ok b;
    sm_pin : cl_pin c1 = cl_pin c2;
    sm_ka1 : cl_ka c1 = ka;
    sm_ka2 : cl_ka c2 = ka;
    sm_retries : cl_retries c1 = cl_retries c2;
    sm_pins : pins c1 c2;
    sm_vault : owned R (cl_vault c1) = owned R (cl_vault c2);
    sm_w1 : writable (cl_vault c1);
    sm_w2 : writable (cl_vault c2)
  }.

  Local Notation rel := (rel sim).
  Local Notation both := (both sim).

  (* ---------------------------------------------------------------- *)
  (* Saving                                                            *)

  Lemma export_total v : writable v -> exists ss, export v = Ok ss.
  Proof.
    induction v as [|s v IH]; intro W; [eexists; reflexivity|]. inversion W as [|? ? (b & Hb) Wv]; subst.
    destruct (IH Wv) as (ss & Hs). cbn [export]. rewrite Hb, Hs. cbn [rbind]. eauto.
  Qed.

  Lemma config_total c : (exists b, marshal_priv (cl_certkey c) = Ok b) -> writable (cl_vault c) ->
    exists cf, config_of c = Ok cf.
  Proof.
    intros (b & Hb) W. destruct (export_total _ W) as (ss & Hs). unfold config_of. rewrite Hb, Hs. cbn [rbind]. eauto.
  Qed.

  Lemma encrypt_total cf pass dr : len (dr_key dr) = 32 -> exists b, encrypt_fido_state (e_C E) cf pass dr = Some b.
  Proof.
    intro L. unfold encrypt_fido_state, encrypt_with_passphrase, encrypt.
    assert (A1 : aes_key_ok (scrypt_key (e_C E) pass (dr_salt dr)) = true).
    { apply aes_key_ok_iff. right. right. apply (l_scrypt_len _ (eo_laws E EO)). }
    assert (A2 : aes_key_ok (dr_key dr) = true) by (apply aes_key_ok_iff; right; right; exact L).
    cbv zeta. rewrite A1, A2. eexists. reflexivity.
  Qed.

  Lemma rel_save : rel (save_data E) (save_data E).
  Proof.
    intros w1 w2 S T. unfold save_data, export_data, random, bind, get, lift, tick, ret, emit. cbn.
    destruct (config_total _ (sm_saves _ _ S) (sm_w1 _ _ S)) as (f1 & F1).
    assert (S2 : exists b, marshal_priv (cl_certkey (w_client w2)) = Ok b) by (rewrite <- (sm_certkey _ _ S); apply (sm_saves _ _ S)).
    destruct (config_total _ S2 (sm_w2 _ _ S)) as (f2 & F2). rewrite F1, F2. rewrite T.
    set (dr := {| dr_salt := _ |}).
    assert (L : len (dr_key dr) = 32) by (unfold dr; cbn [dr_key]; rewrite (eo_rand_len E EO); reflexivity).
    destruct (encrypt_total f1 (e_pass E) dr L) as (b1 & B1), (encrypt_total f2 (e_pass E) dr L) as (b2 & B2).
    rewrite B1, B2. split; [reflexivity|]. split; [exact S|]. split; [reflexivity|]. exists [EvSave b1], [EvSave b2]. auto.
  Qed.

  (* ---------------------------------------------------------------- *)
  (* The vault                                                         *)

  Lemma owned_cons s v : owned R (s :: v) = if R (rp_id (cs_rp s)) then s :: owned R v else owned R v.
  Proof. reflexivity. Qed.

  Lemma matching_owned v rp al : R rp = true -> matching v rp al = matching (owned R v) rp al.
  Proof.
    intro Hr. induction v as [|s v IH]; [reflexivity|]. rewrite owned_cons. cbn [matching].
    destruct (bytes_eqb (rp_id (cs_rp s)) rp) eqn:Q.
    - pose proof Q as Q'. apply bytes_eqb_eq in Q'. rewrite Q', Hr. cbn [matching]. rewrite Q.
      destruct al as [l|]; [destruct (in_list (cs_id s) l)|]; now rewrite IH.
    - destruct (R (rp_id (cs_rp s))); [cbn [matching]; rewrite Q|]; exact IH.
  Qed.

  Lemma matching_one s rp al : matching [s] rp al = [] \/ rp_id (cs_rp s) = rp.
  Proof.
    cbn [matching]. destruct (bytes_eqb (rp_id (cs_rp s)) rp) eqn:Q; [right; now apply bytes_eqb_eq|now left].
  Qed.

  Lemma bump_owned v rp al : R rp = true ->
    bump_first (owned R v) rp al =
    match bump_first v rp al with Some (v', s) => Some (owned R v', s) | None => None end.
  Proof.
    intro Hr. induction v as [|s v IH]; [reflexivity|]. rewrite owned_cons. cbn [bump_first].
    destruct (matching_one s rp al) as [N|Q].
    - rewrite N. destruct (R (rp_id (cs_rp s))) eqn:B.
      + cbn [bump_first]. rewrite N, IH. destruct (bump_first v rp al) as [[v' x]|]; [|reflexivity].
        now rewrite owned_cons, B.
      + rewrite IH. destruct (bump_first v rp al) as [[v' x]|]; [|reflexivity]. now rewrite owned_cons, B.
    - rewrite Q, Hr. cbn [bump_first]. destruct (matching [s] rp al).
      + rewrite IH. destruct (bump_first v rp al) as [[v' x]|]; [|reflexivity]. now rewrite owned_cons, Q, Hr.
      + rewrite owned_cons. cbn [bump cs_rp]. now rewrite Q, Hr.
  Qed.

  Lemma bump_writable v rp al v' s : bump_first v rp al = Some (v', s) -> writable v -> writable v'.
  Proof.
    revert v'. induction v as [|x v IH]; intros v' H W; [discriminate|]. cbn [bump_first] in H.
    inversion W as [|? ? Wx Wv]; subst. destruct (matching [x] rp al).
    - destruct (bump_first v rp al) as [[r y]|]; [|discriminate]. injection H as <- <-.
      constructor; [exact Wx|]. now apply IH.
    - injection H as <- _. constructor; [exact Wx|exact Wv].
  Qed.

  Lemma sim_vault c1 c2 v1 v2 : sim c1 c2 -> owned R v1 = owned R v2 -> writable v1 -> writable v2 ->
    sim (set_vault c1 v1) (set_vault c2 v2).
  Proof. intros [] O W1 W2. constructor; auto. Qed.

  Lemma rel_assertion_source rp al : R rp = true ->
    rel (get_assertion_source E rp al) (get_assertion_source E rp al).
  Proof.
    intro Hr. unfold get_assertion_source. apply rel_get. intros c1 c2 S.
    rewrite (matching_owned (cl_vault c1) rp al Hr), (matching_owned (cl_vault c2) rp al Hr), (sm_vault _ _ S).
    destruct (matching _ rp al); [apply rel_ret|].
    pose proof (bump_owned (cl_vault c1) rp al Hr) as B1. pose proof (bump_owned (cl_vault c2) rp al Hr) as B2.
    rewrite (sm_vault _ _ S) in B1. rewrite B1 in B2. clear B1.
    destruct (bump_first (cl_vault c1) rp al) as [[v1 s1]|] eqn:Q1, (bump_first (cl_vault c2) rp al) as [[v2 s2]|] eqn:Q2;
      try discriminate; [|apply rel_ret].
    injection B2 as O <-. apply rel_bind.
    - apply rel_put. apply sim_vault; auto; [apply (bump_writable _ _ _ _ _ Q1), (sm_w1 _ _ S)|apply (bump_writable _ _ _ _ _ Q2), (sm_w2 _ _ S)].
    - intros []. apply rel_bind; [apply rel_save|intro; apply rel_ret].
  Qed.

  Lemma owned_app v s : owned R (v ++ [s]) = owned R v ++ owned R [s].
  Proof. unfold owned. apply filter_app. Qed.

  Lemma ec_writable d : exists b, marshal_priv (priv_ec (ec_key (e_C E) d)) = Ok b.
  Proof. eexists. reflexivity. Qed.

  Lemma rel_new_identity rp us : rel (new_identity E rp us) (new_identity E rp us).
  Proof.
    unfold new_identity. apply rel_bind; [apply rel_random|intro id]. apply rel_bind; [apply rel_scalar|intro d].
    cbv zeta. apply rel_get. intros c1 c2 S. apply rel_bind; [|intro; apply rel_ret].
    apply rel_put. unfold add_identity. apply sim_vault; auto.
    - now rewrite !owned_app, (sm_vault _ _ S).
    - apply Forall_app. split; [apply (sm_w1 _ _ S)|]. constructor; [apply ec_writable|constructor].
    - apply Forall_app. split; [apply (sm_w2 _ _ S)|]. constructor; [apply ec_writable|constructor].
  Qed.

  Lemma rel_new_source ps rp us : rel (new_credential_source E ps rp us) (new_credential_source E ps rp us).
  Proof.
    unfold new_credential_source. destruct (existsb es256_param ps); [|apply rel_ret].
    destruct us as [us|]; [|apply rel_fail]. apply rel_bind; [apply rel_new_identity|intro s].
    apply rel_bind; [apply rel_save|intro; apply rel_ret].
  Qed.

  (* ---------------------------------------------------------------- *)
  (* CTAP                                                              *)

  (* What must hold of a message: it does not tell the secrets apart. *)
  Definition harmless (m : bytes) : Prop :=
    (forall rp, logs_in m rp -> R rp = true) /\
    match K with
    | None => True
    | Some (t1, t2, h1, h2) => ~ proves E t1 m /\ ~ proves E t2 m /\
        ~ tries E ka m h1 /\ ~ tries E ka m h2
    end.

  Lemma hash_some c1 c2 : sim c1 c2 ->
    match cl_hash c1 with Some _ => true | None => false end = match cl_hash c2 with Some _ => true | None => false end.
  Proof.
    intro S. pose proof (sm_pins _ _ S) as P. unfold pins in P. destruct K as [[[[t1 t2] h1] h2]|].
    - destruct P as (_ & _ & -> & ->). reflexivity.
    - destruct P as (_ & ->). reflexivity.
  Qed.

  Lemma mc_proof c1 c2 data a p : sim c1 c2 -> harmless (1 :: data) -> unmarshal dec_mc data = Some a -> mc_auth a = Some p ->
    bytes_eqb (pin_auth E (cl_token c1) (or_nil (mc_hash a))) p = bytes_eqb (pin_auth E (cl_token c2) (or_nil (mc_hash a))) p.
  Proof.
    intros S (_ & H) U A. pose proof (sm_pins _ _ S) as P. unfold pins in P. destruct K as [[[[t1 t2] h1] h2]|].
    - destruct P as (-> & -> & _). destruct H as (H1 & H2 & _). transitivity false; [|symmetry]; apply bytes_eqb_neq; intro Q.
      + apply H1. left. exists data, a, p. unfold pin_proof. auto.
      + apply H2. left. exists data, a, p. unfold pin_proof. auto.
    - destruct P as (-> & _). reflexivity.
  Qed.
  Lemma ga_proof c1 c2 data a p : sim c1 c2 -> harmless (2 :: data) -> unmarshal dec_ga data = Some a -> ga_auth a = Some p ->
    bytes_eqb (pin_auth E (cl_token c1) (or_nil (ga_hash a))) p = bytes_eqb (pin_auth E (cl_token c2) (or_nil (ga_hash a))) p.
  Proof.
    intros S (_ & H) U A. pose proof (sm_pins _ _ S) as P. unfold pins in P. destruct K as [[[[t1 t2] h1] h2]|].
    - destruct P as (-> & -> & _). destruct H as (H1 & H2 & _). transitivity false; [|symmetry]; apply bytes_eqb_neq; intro Q.
      + apply H1. right. exists data, a, p. unfold pin_proof. auto.
      + apply H2. right. exists data, a, p. unfold pin_proof. auto.
    - destruct P as (-> & _). reflexivity.
  Qed.

  Lemma rel_make_credential data : harmless (1 :: data) -> rel (make_credential E data) (make_credential E data).
  Proof.
    intro H. unfold make_credential. destruct (unmarshal dec_mc data) as [a|] eqn:U; [|apply rel_fail]. cbv zeta.
    destruct (existsb es256_param _); [|apply rel_ret]. apply rel_get. intros c1 c2 S.
    assert (Q : (if cl_pin c1 then
            match mc_auth a with
            | Some p =>
              if mc_protocol a =? 1 then
                if bytes_eqb (pin_auth E (cl_token c1) (or_nil (mc_hash a))) p then inl flag_uv
                else inr st_pin_auth_invalid
              else inr st_pin_auth_invalid
            | None => match cl_hash c1 with Some _ => inr st_pin_required | None => inl 0 end
            end
          else inl 0) = (if cl_pin c2 then
            match mc_auth a with
            | Some p =>
              if mc_protocol a =? 1 then
                if bytes_eqb (pin_auth E (cl_token c2) (or_nil (mc_hash a))) p then inl flag_uv
                else inr st_pin_auth_invalid
              else inr st_pin_auth_invalid
            | None => match cl_hash c2 with Some _ => inr st_pin_required | None => inl 0 end
            end
          else inl 0 : N + N)).
    { rewrite (sm_pin _ _ S). destruct (cl_pin c2); [|reflexivity]. destruct (mc_auth a) as [p|] eqn:A.
      - now rewrite (mc_proof _ _ _ _ _ S H U A).
      - pose proof (hash_some _ _ S) as X. destruct (cl_hash c1), (cl_hash c2); try discriminate; reflexivity. }
    rewrite Q. destruct (if cl_pin c2 then _ else _ : N + N) as [flags|e]; [|apply rel_ret].
    destruct (mc_rp a) as [rp|]; [|apply rel_fail].
    apply rel_bind; [apply rel_ask|intros []; [|apply rel_ret]].
    apply rel_bind; [apply rel_new_source|intros [s|]; [|apply rel_ret]].
    apply rel_bind; [apply rel_lift|intro att]. apply rel_bind; [apply rel_certificate; intros d1 d2 X; split; apply X|intro cert].
    apply rel_bind; [apply rel_random|intro r]. apply rel_bind; [apply rel_lift|intro sig]. apply rel_ret.
  Qed.

  Lemma rel_get_info : rel get_info get_info.
  Proof.
    unfold get_info. apply rel_get. intros c1 c2 S. cbv zeta. rewrite (sm_pin _ _ S), (hash_some _ _ S). apply rel_ret.
  Qed.

  Lemma rel_get_assertion data : harmless (2 :: data) -> rel (get_assertion E data) (get_assertion E data).
  Proof.
    intro H. unfold get_assertion. destruct (unmarshal dec_ga data) as [a|] eqn:U; [|apply rel_ret].
    apply rel_get. intros c1 c2 S. cbv zeta.
    assert (Q : (if cl_pin c1 then
          match ga_auth a with
          | None => inl 0
          | Some p =>
            if ga_protocol a =? 1 then
              if bytes_eqb (pin_auth E (cl_token c1) (or_nil (ga_hash a))) p then inl flag_uv
              else inr st_pin_auth_invalid
            else inr st_pin_auth_invalid
          end
        else inl 0) = (if cl_pin c2 then
          match ga_auth a with
          | None => inl 0
          | Some p =>
            if ga_protocol a =? 1 then
              if bytes_eqb (pin_auth E (cl_token c2) (or_nil (ga_hash a))) p then inl flag_uv
              else inr st_pin_auth_invalid
            else inr st_pin_auth_invalid
          end
        else inl 0 : N + N)).
    { rewrite (sm_pin _ _ S). destruct (cl_pin c2); [|reflexivity]. destruct (ga_auth a) as [p|] eqn:A; [|reflexivity].
      now rewrite (ga_proof _ _ _ _ _ S H U A). }
    rewrite Q. destruct (if cl_pin c2 then _ else _ : N + N) as [flags|e]; [|apply rel_ret].
    apply rel_bind; [apply rel_assertion_source; apply H; exists data, a; auto|intros [s|]; [|apply rel_ret]].
    assert (F : forall fl, rel
      (do r <- sign_random E; do sig <- lift (cose_sign (e_C E) (cs_key s) (auth_data E (ga_rp a) s None fl ++ or_nil (ga_hash a)) r);
       ret (st_success :: marshal_cbor (ga_response (cs_id s) (auth_data E (ga_rp a) s None fl) sig)))
      (do r <- sign_random E; do sig <- lift (cose_sign (e_C E) (cs_key s) (auth_data E (ga_rp a) s None fl ++ or_nil (ga_hash a)) r);
       ret (st_success :: marshal_cbor (ga_response (cs_id s) (auth_data E (ga_rp a) s None fl) sig)))).
    { intro fl. apply rel_bind; [apply rel_random|intro r]. apply rel_bind; [apply rel_lift|intro sig]. apply rel_ret. }
    destruct (op_up (ga_options a)) as [[|]|]; [|apply F|];
      (apply rel_bind; [apply rel_ask|intros []; [apply F|apply rel_ret]]).
  Qed.

  Lemma rel_retries {B} (k1 k2 : Z -> M B) : (forall n, rel (k1 n) (k2 n)) -> rel (bind pin_retries k1) (bind pin_retries k2).
  Proof.
    intro H. apply rel_bind; [|exact H]. unfold pin_retries. apply rel_get. intros c1 c2 S. rewrite (sm_retries _ _ S).
    destruct (_ && _)%bool; [apply rel_ret|apply rel_fail].
  Qed.

  Lemma rel_set_retries n : rel (set_pin_retries n) (set_pin_retries n).
  Proof. unfold set_pin_retries. apply rel_get. intros c1 c2 []. apply rel_put. constructor; auto. Qed.

  Lemma rel_set_hash h : K = None -> rel (set_pin_hash E h) (set_pin_hash E h).
  Proof.
    intro N. unfold set_pin_hash. apply rel_get. intros c1 c2 []. apply rel_bind; [apply rel_put|intros []; apply rel_save].
    constructor; auto. unfold pins in *. rewrite N in *. cbn. tauto.
  Qed.

  Lemma secret_eq c1 c2 k : sim c1 c2 -> shared_secret E c1 k = shared_secret E c2 k.
  Proof. intro S. unfold shared_secret. now rewrite (sm_ka1 _ _ S), (sm_ka2 _ _ S). Qed.

  Lemma rel_ctap_set_pin a : rel (ctap_set_pin E a) (ctap_set_pin E a).
  Proof.
    unfold ctap_set_pin. apply rel_get. intros c1 c2 S. pose proof (hash_some _ _ S) as HS. pose proof (sm_pins _ _ S) as P.
    destruct (cl_hash c1) eqn:H1, (cl_hash c2) eqn:H2; try discriminate; [apply rel_ret|].
    assert (N : K = None).
    { unfold pins in P. destruct K as [[[[? ?] ?] ?]|]; [|reflexivity]. rewrite H1 in P. destruct P as (_ & _ & P & _). discriminate. }
    destruct (pn_key a) as [k|]; [|apply rel_ret]. destruct (pn_auth a) as [auth|]; [|apply rel_ret].
    destruct (pn_new a) as [enc|]; [|apply rel_ret]. rewrite (secret_eq _ _ k S). apply rel_bind; [apply rel_lift|intro secret].
    destruct (bytes_eqb _ _); [|apply rel_ret]. apply rel_bind; [apply rel_lift|intro pin].
    destruct (len pin <? 4); [apply rel_ret|]. apply rel_bind; [apply rel_set_retries|intros []].
    apply rel_bind; [now apply rel_set_hash|intro; apply rel_ret].
  Qed.

  (* A guess of the PIN is right for both or wrong for both. *)
  Lemma secret_is c k s : shared_secret E c k = Ok s ->
    exists x, p256_mul (e_C E) (cl_ka c) (big_set (or_nil (e2_x k)), big_set (or_nil (e2_y k))) = Some x /\
      s = sha256 (e_C E) (big_bytes x).
  Proof.
    unfold shared_secret, ecdh. destruct (p256_mul _ _ _) as [x|]; [|discriminate]. cbn [rbind]. intro H. injection H as <-. eauto.
  Qed.

  Lemma guess_wrong c1 c2 data a k s g : sim c1 c2 -> harmless (6 :: data) -> unmarshal dec_cp data = Some a ->
    pn_sub a = 4 \/ pn_sub a = 5 -> pn_key a = Some k -> shared_secret E c1 k = Ok s ->
    decrypt_cbc (e_C E) s (or_nil (pn_hash a)) = Ok g ->
    K = None /\ cl_token c1 = cl_token c2 /\ cl_hash c1 = cl_hash c2 \/
    or_nil (cl_hash c1) <> g /\ or_nil (cl_hash c2) <> g.
  Proof.
    intros S (_ & H) U B Ka Sh D. pose proof (sm_pins _ _ S) as P. unfold pins in P. destruct K as [[[[t1 t2] h1] h2]|]; [|auto].
    right. destruct H as (_ & _ & G1 & G2). destruct P as (_ & _ & P1 & P2).
    destruct (secret_is _ _ _ Sh) as (x & X & ->). rewrite (sm_ka1 _ _ S) in X. rewrite P1, P2. cbn [or_nil]. split; intros <-.
    - apply G1. exists data, a, k, x. auto 10.
    - apply G2. exists data, a, k, x. auto 10.
  Qed.

  Lemma rel_change_pin data a : harmless (6 :: data) -> unmarshal dec_cp data = Some a -> pn_sub a = 4 ->
    rel (change_pin E a) (change_pin E a).
  Proof.
    intros H U B. unfold change_pin. destruct (pn_key a) as [k|] eqn:Ka; [|apply rel_ret].
    destruct (pn_auth a) as [auth|]; [|apply rel_ret]. apply rel_retries. intro n.
    destruct (n =? 0)%Z; [apply rel_ret|]. apply rel_get. intros c1 c2 S. rewrite <- (secret_eq _ _ k S).
    apply rel_lift_with. intros s Sh. destruct (bytes_eqb _ auth); [|apply rel_ret]. apply rel_retries. intro n'.
    apply rel_bind; [apply rel_set_retries|intros []]. apply rel_lift_with. intros g D.
    destruct (guess_wrong _ _ _ _ _ _ _ S H U (or_introl B) Ka Sh D) as [(N & _ & Q)|(G1 & G2)].
    - rewrite Q. destruct (bytes_eqb _ g); [|apply rel_ret]. apply rel_bind; [apply rel_set_retries|intros []].
      apply rel_bind; [apply rel_lift|intro pin]. destruct (len pin <? 4); [apply rel_ret|].
      apply rel_bind; [now apply rel_set_hash|intro; apply rel_ret].
    - apply bytes_eqb_neq in G1, G2. rewrite G1, G2. apply rel_ret.
  Qed.

  Lemma rel_get_pin_token data a : harmless (6 :: data) -> unmarshal dec_cp data = Some a -> pn_sub a = 5 ->
    rel (get_pin_token E a) (get_pin_token E a).
  Proof.
    intros H U B. unfold get_pin_token. destruct (pn_hash a) as [enc|] eqn:En; [|apply rel_ret].
    destruct (pn_key a) as [k|] eqn:Ka; [|apply rel_fail]. destruct (e2_x k); [|apply rel_ret].
    apply rel_retries. intro n. destruct (n <=? 0)%Z; [apply rel_ret|]. apply rel_get. intros c1 c2 S.
    rewrite <- (secret_eq _ _ k S). apply rel_lift_with. intros s Sh. apply rel_retries. intro n'.
    apply rel_bind; [apply rel_set_retries|intros []]. apply rel_lift_with. intros g D.
    assert (D' : decrypt_cbc (e_C E) s (or_nil (pn_hash a)) = Ok g) by (rewrite En; exact D).
    destruct (guess_wrong _ _ _ _ _ _ _ S H U (or_intror B) Ka Sh D') as [(N & Tk & Q)|(G1 & G2)].
    - rewrite Q, Tk. destruct (bytes_eqb g _); [|apply rel_ret]. apply rel_bind; [apply rel_set_retries|intros []].
      apply rel_bind; [apply rel_lift|intro t; apply rel_ret].
    - assert (X1 : bytes_eqb g (or_nil (cl_hash c1)) = false) by (apply bytes_eqb_neq; congruence).
      assert (X2 : bytes_eqb g (or_nil (cl_hash c2)) = false) by (apply bytes_eqb_neq; congruence).
      rewrite X1, X2. apply rel_ret.
  Qed.

  Lemma rel_client_pin data : harmless (6 :: data) -> rel (client_pin E data) (client_pin E data).
  Proof.
    intro H. unfold client_pin. apply rel_get. intros c1 c2 S. rewrite (sm_pin _ _ S). destruct (cl_pin c2); [|apply rel_ret].
    destruct (unmarshal dec_cp data) as [a|] eqn:U; [|apply rel_ret].
    destruct (pn_protocol a =? 1); [|apply rel_ret].
    destruct (pn_sub a =? 1); [apply rel_retries; intro; apply rel_ret|].
    destruct (pn_sub a =? 2).
    { unfold get_key_agreement. apply rel_get. intros d1 d2 S'. rewrite (sm_ka1 _ _ S'), (sm_ka2 _ _ S'). destruct (p256_pub _ _). apply rel_ret. }
    destruct (pn_sub a =? 3); [apply rel_ctap_set_pin|].
    destruct (pn_sub a =? 4) eqn:B4; [apply (rel_change_pin data); auto; now apply N.eqb_eq|].
    destruct (pn_sub a =? 5) eqn:B5; [apply (rel_get_pin_token data); auto; now apply N.eqb_eq|]. apply rel_ret.
  Qed.

  Lemma rel_ctap m : harmless m -> rel (ctap_handle E m) (ctap_handle E m).
  Proof.
    intro H. unfold ctap_handle. destruct m as [|cmd data]; [apply rel_fail|].
    destruct (cmd =? 1) eqn:B1; [apply N.eqb_eq in B1; subst; now apply rel_make_credential|].
    destruct (cmd =? 4); [apply rel_get_info|].
    destruct (cmd =? 2) eqn:B2; [apply N.eqb_eq in B2; subst; now apply rel_get_assertion|].
    destruct (cmd =? 6) eqn:B6; [apply N.eqb_eq in B6; subst; now apply rel_client_pin|]. apply rel_fail.
  Qed.

  (* ---------------------------------------------------------------- *)
  (* Conversations                                                     *)

  Definition fit (i : input) : Prop :=
    match i with
    | ICtap m => harmless m
    | IU2f _ => u = true
    | IEnablePin _ => True
    | ISetPin _ => K = None
    | IDelete _ => forall rp, R rp = true
    end.

  Lemma owned_all v : (forall rp, R rp = true) -> owned R v = v.
  Proof. intro A. unfold owned. induction v as [|s v IH]; [reflexivity|]. cbn [filter]. now rewrite A, IH. Qed.

  Lemma set_nth_in v i s x : In x (set_nth v i s) -> x = s \/ In x v.
  Proof.
    revert i. induction v as [|y v IH]; intros [|i] I; cbn in *; auto.
    - destruct I; auto.
    - destruct I as [I|I]; auto. apply IH in I. tauto.
  Qed.

  Lemma removelast_in {A} (v : list A) x : In x (removelast v) -> In x v.
  Proof.
    induction v as [|y v IH]; [auto|]. cbn [removelast]. destruct v as [|z v]; [intros []|]. intros [->|I]; [now left|right; auto].
  Qed.

  Lemma delete_writable v id v' b : delete_identity v id = (v', b) -> writable v -> writable v'.
  Proof.
    unfold delete_identity, writable. rewrite !Forall_forall. intros D W x I.
    destruct (find_id v id) as [i|]; [|injection D as <- _; auto].
    destruct (rev v) as [|l r] eqn:Rv; [injection D as <- _; auto|]. injection D as <- _. apply removelast_in in I.
    apply set_nth_in in I as [->|I]; [|auto]. apply W. apply in_rev. rewrite Rv. now left.
  Qed.

  Lemma rel_handle i : fit i -> rel (handle E i) (handle E i).
  Proof.
    destruct i as [m|m|b|p|id]; cbn [fit handle]; intro F; unfold fmapM; (apply rel_bind; [|intro; apply rel_ret]).
    - now apply rel_ctap.
    - apply rel_u2f; [intros c1 c2 S; split; apply S|intros c1 c2 S; now apply (sm_u2f _ _ S)|intros c1 c2 n []; constructor; auto].
      intro Hu. split; [now apply sm_u2f0|reflexivity].
    - unfold enable_pin. apply rel_get. intros c1 c2 []. apply rel_bind; [apply rel_put|intros []; apply rel_save]. constructor; auto.
    - unfold set_pin_api. now apply rel_set_hash.
    - unfold delete_identity_api. apply rel_get. intros c1 c2 S. pose proof (sm_vault _ _ S) as V.
      rewrite !owned_all in V by auto. rewrite <- V. destruct (delete_identity (cl_vault c1) id) as [v ok] eqn:D.
      destruct ok; [|apply rel_ret]. apply rel_bind; [apply rel_put|intros []; apply rel_bind; [apply rel_save|intro; apply rel_ret]].
      apply sim_vault; auto; apply (delete_writable _ _ _ _ D), (sm_w1 _ _ S).
  Qed.

  Lemma talk_alike is : forall w1 w2, sim (w_client w1) (w_client w2) -> w_tick w1 = w_tick w2 -> Forall fit is ->
    alike E is w1 w2.
  Proof.
    intros w1 w2 S T F. apply (talk_rel E sim); auto. intros i I. apply rel_handle. rewrite Forall_forall in F. auto.
  Qed.
End Two.

(* ------------------------------------------------------------------ *)

Lemma ok_writable E c : client_ok E c -> writable (cl_vault c).
Proof.
  intro O. pose proof (co_vault _ _ O) as V. unfold writable. rewrite Forall_forall in *. intros s I.
  destruct (V s I) as (_ & _ & _ & (d & _ & ->) & _). eexists. reflexivity.
Qed.

Lemma ok_certkey E c : client_ok E c -> exists b, marshal_priv (cl_certkey c) = Ok b.
Proof. intro O. destruct (co_certkey _ _ O) as (b & B & _). eauto. Qed.

(* Relying parties. *)
Lemma isolated E R is w1 w2 : env_ok E -> client_ok E (w_client w1) -> client_ok E (w_client w2) ->
  w_tick w1 = w_tick w2 -> same_but_vault (w_client w1) (w_client w2) ->
  owned R (cl_vault (w_client w1)) = owned R (cl_vault (w_client w2)) ->
  (forall m rp, In (ICtap m) is -> logs_in m rp -> R rp = true) ->
  (forall id, ~ In (IDelete id) is) ->
  alike E is w1 w2.
Proof.
  intros EO O1 O2 T [] V L D. apply (talk_alike E EO true R None (cl_ka (w_client w1))); auto.
  - constructor; auto; try (apply (ok_certkey _ _ O1)); try (apply (ok_writable _ _ O1)); try (apply (ok_writable _ _ O2)).
    unfold pins. auto.
  - rewrite Forall_forall. intros [m|m|b|p|id] I; cbn [fit]; auto.
    + split; [intros rp; apply L; auto|auto].
    + now apply D in I.
Qed.

(* The PIN and the PIN token. *)
Lemma pin_secret E is w1 w2 h1 h2 : env_ok E -> client_ok E (w_client w1) -> client_ok E (w_client w2) ->
  w_tick w1 = w_tick w2 -> same_but_pin (w_client w1) (w_client w2) ->
  cl_hash (w_client w1) = Some h1 -> cl_hash (w_client w2) = Some h2 ->
  (forall pin, ~ In (ISetPin pin) is) ->
  (forall m, In (ICtap m) is -> ~ tries E (cl_ka (w_client w1)) m h1 /\ ~ tries E (cl_ka (w_client w1)) m h2) ->
  (forall m, In (ICtap m) is -> ~ proves E (cl_token (w_client w1)) m /\ ~ proves E (cl_token (w_client w2)) m) ->
  alike E is w1 w2.
Proof.
  intros EO O1 O2 T [] H1 H2 P G Pr.
  apply (talk_alike E EO true (fun _ => true) (Some (cl_token (w_client w1), cl_token (w_client w2), h1, h2)) (cl_ka (w_client w1))); auto.
  - constructor; auto; try (apply (ok_certkey _ _ O1)); try (apply (ok_writable _ _ O1)); try (apply (ok_writable _ _ O2)).
    + unfold pins. auto.
    + now rewrite sp_vault.
  - rewrite Forall_forall. intros [m|m|b|p|id] I; cbn [fit]; auto.
    + split; [auto|]. destruct (G m I), (Pr m I). auto.
    + now apply P in I.
Qed.

(* CTAP does not use the U2F secrets. *)
Lemma ctap_apart E is w1 w2 : env_ok E -> client_ok E (w_client w1) -> client_ok E (w_client w2) ->
  w_tick w1 = w_tick w2 -> same_but_u2f (w_client w1) (w_client w2) ->
  (forall m, ~ In (IU2f m) is) -> alike E is w1 w2.
Proof.
  intros EO O1 O2 T [] N. apply (talk_alike E EO false (fun _ => true) None (cl_ka (w_client w1))); auto.
  - constructor; auto; try (apply (ok_certkey _ _ O1)); try (apply (ok_writable _ _ O1)); try (apply (ok_writable _ _ O2)); try discriminate.
    + unfold pins. auto.
    + now rewrite su_vault.
  - rewrite Forall_forall. intros [m|m|b|p|id] I; cbn [fit]; auto.
    + split; auto.
    + now apply N in I.
Qed.

(* U2F uses nothing else. *)
Lemma u2f_apart E ms w1 w2 : w_tick w1 = w_tick w2 -> same_u2f (w_client w1) (w_client w2) ->
  alike E (map IU2f ms) w1 w2.
Proof.
  intros T S. apply (talk_rel E same_u2f); auto. intros i I. apply in_map_iff in I as (m & <- & _). cbn [handle].
  apply rel_bind; [|intro; apply rel_ret]. apply rel_u2f.
  - intros c1 c2 []. auto.
  - intros c1 c2 []. auto.
  - intros c1 c2 n []. constructor; auto.
Qed.
