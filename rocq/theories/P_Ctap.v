From Coq Require Import Permutation.
From Verif Require Import Base M_Str M_Util M_Utf8 M_Cbor M_Json M_Crypto M_Cose M_State M_Client M_Ctap.
From Verif Require Import S_Crypto S_Cbor S_Cose S_State S_Client S_Ctap.
From Verif Require Import P_Crypto P_Cbor P_Cbor2 P_Cose P_Cose2 P_Json P_State P_Client.

(* ------------------------------------------------------------------ *)
(* Requests decode to proper values                                     *)

Lemma get_int_wf {A} z (f : cbor -> option A) l a :
  fold_right (fun p P => cwf (fst p) /\ cwf (snd p) /\ P) True l ->
  get_int z f l = Some a -> exists v, cwf v /\ f v = Some a.
Proof. intros H K. exists (lookup (int_key z) l). split; auto using lookup_wf. Qed.

Lemma get_text_wf {A} z (f : cbor -> option A) l a :
  fold_right (fun p P => cwf (fst p) /\ cwf (snd p) /\ P) True l ->
  get_text z f l = Some a -> exists v, cwf v /\ f v = Some a.
Proof. intros H K. exists (lookup (text_key z) l). split; auto using lookup_wf. Qed.

Lemma dec_ptr_wf {A} (f : cbor -> option A) v a : cwf v -> dec_ptr f v = Some (Some a) ->
  exists v, cwf v /\ f v = Some a.
Proof.
  intro W. unfold dec_ptr, dec_nullable. destruct (untag v) as [u|] eqn:U; cbn [obind]; [|discriminate].
  apply untag_wf in U; auto. destruct (is_null u); [discriminate|].
  destruct (f u) eqn:F; cbn [obind]; [|discriminate]. intro H. exists u. split; auto. congruence.
Qed.

Lemma dec_bytes_wfo v b : cwf v -> dec_bytes v = Some b -> wfo b.
Proof. intros W H. destruct b as [b|]; [|exact I]. eapply dec_bytes_wf; eauto. Qed.

Ltac odes H := match type of H with
  | obind ?x _ = Some _ => let E := fresh "E" in destruct x eqn:E; cbn [obind] in H; [|discriminate H]
  end.

Lemma dec_rp_proper v r : dec_rp v = Some r -> proper_rp r.
Proof.
  unfold dec_rp. intro H. repeat odes H. injection H as <-. unfold get_text in *.
  apply dec_text_valid in E0, E1. split; assumption.
Qed.

Lemma dec_user_proper v u : cwf v -> dec_user v = Some u -> proper_user u.
Proof.
  intro W. unfold dec_user. intro H. repeat odes H. injection H as <-.
  apply dec_entries_wf in E; auto. apply get_text_wf in E0 as (x & X & E0); auto.
  unfold get_text in *. apply dec_text_valid in E1, E2. repeat split; cbn; auto.
  eapply dec_bytes_wfo; eauto.
Qed.

Lemma dec_mc_proper data a : wfb data -> unmarshal dec_mc data = Some a ->
  (forall r, mc_rp a = Some r -> proper_rp r) /\ (forall u, mc_user a = Some u -> proper_user u) /\ wfo (mc_hash a).
Proof.
  intros W H. apply unmarshal_wf in H as (v & V & H); auto. unfold dec_mc in H. repeat odes H.
  injection H as <-. cbn. apply dec_entries_wf in E; auto. split; [|split].
  - intros r Hr. subst. apply get_int_wf in E1 as (x & X & E1); auto. apply dec_ptr_wf in E1 as (y & Y & E1); auto.
    now apply dec_rp_proper in E1.
  - intros u0 Hu. subst. apply get_int_wf in E2 as (x & X & E2); auto. apply dec_ptr_wf in E2 as (y & Y & E2); auto.
    now apply dec_user_proper in E2.
  - apply get_int_wf in E0 as (x & X & E0); auto. now apply dec_bytes_wfo in E0.
Qed.

(* ------------------------------------------------------------------ *)
(* Client operations                                                    *)

Lemma client_ok_vault E c v : client_ok E c -> Forall (source_ok (e_C E)) v -> client_ok E (set_vault c v).
Proof. intros [] H. constructor; auto. Qed.

Lemma wrap32_range z : (-2147483648 <= wrap32 z < 2147483648)%Z.
Proof. unfold wrap32. lia. Qed.

Lemma wrap32_id z : (-2147483648 <= z < 2147483648)%Z -> wrap32 z = z.
Proof. unfold wrap32. lia. Qed.

Lemma bump_ok C s : source_ok C s -> source_ok C (bump s).
Proof.
  intros (A & B & D & F & G & H & I). unfold source_ok, bump. cbn. pose proof (wrap32_range (cs_ctr s + 1)). auto 10.
Qed.

(* The credential made at tick [t]. *)
Definition made (E : Env) (t : N) (rp : rp_ent) (u : user_ent) : source :=
  {| cs_type := str "public-key"; cs_id := e_rand E t 16; cs_key := priv_ec (ec_key (e_C E) (e_scalar E (t + 1)));
     cs_rp := rp; cs_user := u; cs_ctr := 0 |}.

Lemma made_ok E t rp u : env_ok E -> proper_rp rp -> proper_user u -> source_ok (e_C E) (made E t rp u).
Proof.
  intros L R U. unfold source_ok, made. cbn [cs_type cs_id cs_key cs_rp cs_user cs_ctr].
  split; [reflexivity|]. split; [apply (eo_rand_len E L)|]. split; [apply (eo_rand_wf E L)|].
  split; [|split; [auto|split; [auto|lia]]]. eexists. split; [apply (eo_scalar E L)|reflexivity].
Qed.

Lemma wp_new_cred E ps rp u (Q : world -> res (option source) -> Prop) w :
  env_ok E -> client_ok E (w_client w) -> proper_rp rp -> proper_user u -> existsb es256_param ps = true ->
  (let s := made E (w_tick w) rp u in
   let c' := set_vault (w_client w) (cl_vault (w_client w) ++ [s]) in
   client_ok E c' -> forall d, stored E d c' ->
   Q (mkw c' (w_tick w + 6) (w_trace w ++ [EvSave d])) (Ok (Some s))) ->
  wp (new_credential_source E ps rp (Some u)) Q w.
Proof.
  intros L K R U X H. unfold new_credential_source. rewrite X. unfold new_identity.
  apply wp_bind, wp_bind, wp_random. wcbn. apply wp_bind, wp_scalar. wcbn.
  apply wp_bind, wp_get. wcbn. apply wp_bind, wp_put. wcbn. apply wp_ret.
  change ({| cs_type := _ |}) with (made E (w_tick w) rp u). unfold add_identity.
  set (s := made E (w_tick w) rp u) in *. cbv zeta in H.
  assert (O : client_ok E (set_vault (w_client w) (cl_vault (w_client w) ++ [s]))).
  { apply client_ok_vault; auto. apply Forall_app. split; [apply K|]. constructor; auto. now apply made_ok. }
  apply wp_bind, wp_save; wcbn; auto. intros d S. apply wp_ret.
  replace (w_tick w + 1 + 1 + 4) with (w_tick w + 6) by lia. auto.
Qed.

Lemma wp_assertion E rp allow (Q : world -> res (option source) -> Prop) w :
  env_ok E -> client_ok E (w_client w) ->
  (matching (cl_vault (w_client w)) rp allow = [] -> Q w (Ok None)) ->
  (forall v1 x v2 d, cl_vault (w_client w) = v1 ++ x :: v2 -> matches rp allow x = true ->
     forallb (fun y => negb (matches rp allow y)) v1 = true ->
     let c' := set_vault (w_client w) (v1 ++ bump x :: v2) in
     client_ok E c' -> stored E d c' ->
     Q (mkw c' (w_tick w + 4) (w_trace w ++ [EvSave d])) (Ok (Some (bump x)))) ->
  wp (get_assertion_source E rp allow) Q w.
Proof.
  intros L K H0 H1. unfold get_assertion_source. apply wp_bind, wp_get.
  destruct (matching (cl_vault (w_client w)) rp allow) as [|m r] eqn:M; [apply wp_ret; auto|].
  destruct (bump_first (cl_vault (w_client w)) rp allow) as [[v s]|] eqn:B.
  2:{ apply bump_first_none in B. congruence. }
  apply bump_first_some in B as (v1 & x & v2 & V & -> & -> & X & Y).
  assert (O : client_ok E (set_vault (w_client w) (v1 ++ bump x :: v2))).
  { apply client_ok_vault; auto. pose proof (co_vault E _ K) as F. rewrite V in F.
    apply Forall_app in F as [F1 F2]. inversion F2; subst. apply Forall_app. split; auto.
    constructor; auto using bump_ok. }
  apply wp_bind, wp_put. wcbn. apply wp_bind, wp_save; wcbn; auto.
  intros d S. apply wp_ret. eauto.
Qed.

Lemma sign_ec C k data r : cose_sign C (priv_ec k) data r = Ok (ecdsa_sign C (ec_d k) (sha256 C data) r).
Proof. reflexivity. Qed.

Lemma public_ec k : cose_public (priv_ec k) = Ok (pub_ec (ec_public k)).
Proof. reflexivity. Qed.

(* ------------------------------------------------------------------ *)
(* MakeCredential                                                       *)

Definition mc_check (C : Crypto) (c : client) (a : mc_args) : N + N :=
  if cl_pin c then
    match mc_auth a with
    | Some p =>
      if mc_protocol a =? 1 then
        if bytes_eqb (firstn 16 (hmac256 C (cl_token c) (or_nil (mc_hash a)))) p then inl 4 else inr 51
      else inr 51
    | None => match cl_hash c with Some _ => inr 54 | None => inl 0 end
    end
  else inl 0.

Lemma es256_iff ps : existsb es256_param ps = true <->
  exists p, In p ps /\ cp_alg p = (-7)%Z /\ cp_type p = text_public_key.
Proof.
  rewrite existsb_exists. unfold es256_param. split; intros (p & I & H); exists p; (split; [exact I|]).
  - apply andb_true_iff in H as [A B]. apply Z.eqb_eq in A. apply bytes_eqb_eq in B. auto.
  - destruct H as [-> ->]. reflexivity.
Qed.

(* The authenticator data of a new credential. *)
Definition cred_key (C : Crypto) (d : N) : bytes :=
  cenc (cose_es256 (big_bytes (fst (p256_pub C d))) (big_bytes (snd (p256_pub C d)))).
Definition mc_auth_data (E : Env) (rp : rp_ent) (id : bytes) (d flags : N) : bytes :=
  sha256 (e_C E) (rp_id rp) ++ [N.lor (N.lor flags 1) 64] ++ be 4 0 ++ aaguid ++ be 2 16 ++ id ++ cred_key (e_C E) d.

Inductive mc_result (E : Env) (data : bytes) (w : world) : world -> res bytes -> Prop :=
| MR_bad : unmarshal dec_mc data = None -> mc_result E data w w Panic
| MR_alg a : unmarshal dec_mc data = Some a -> ~ offers_es256 a -> mc_result E data w w (Ok [38])
| MR_pin a e : unmarshal dec_mc data = Some a -> offers_es256 a -> mc_check (e_C E) (w_client w) a = inr e ->
    mc_result E data w w (Ok [e])
| MR_norp a f : unmarshal dec_mc data = Some a -> offers_es256 a -> mc_check (e_C E) (w_client w) a = inl f ->
    mc_rp a = None -> mc_result E data w w Panic
| MR_denied a f rp : unmarshal dec_mc data = Some a -> offers_es256 a ->
    mc_check (e_C E) (w_client w) a = inl f -> mc_rp a = Some rp ->
    e_approve E (w_tick w) ActMakeCredential (rp_name rp) [] = false ->
    mc_result E data w
      (mkw (w_client w) (w_tick w + 1) (w_trace w ++ [EvAsk ActMakeCredential (rp_name rp) [] false])) (Ok [39])
| MR_nouser a f rp : unmarshal dec_mc data = Some a -> offers_es256 a ->
    mc_check (e_C E) (w_client w) a = inl f -> mc_rp a = Some rp -> mc_user a = None ->
    mc_result E data w
      (mkw (w_client w) (w_tick w + 1) (w_trace w ++ [EvAsk ActMakeCredential (rp_name rp) [] true])) Panic
| MR_nocert a f rp u d :
    let s := made E (w_tick w + 1) rp u in
    let c' := set_vault (w_client w) (cl_vault (w_client w) ++ [s]) in
    unmarshal dec_mc data = Some a -> offers_es256 a ->
    mc_check (e_C E) (w_client w) a = inl f -> mc_rp a = Some rp -> mc_user a = Some u ->
    client_ok E c' -> stored E d c' ->
    e_make_cert E (w_tick w + 7) (cl_cert (w_client w)) (cl_certkey (w_client w))
      (pub_ec (ec_public (ec_key (e_C E) (e_scalar E (w_tick w + 2))))) = None ->
    mc_result E data w
      (mkw c' (w_tick w + 8) (w_trace w ++ [EvAsk ActMakeCredential (rp_name rp) [] true; EvSave d])) Panic
| MR_ok a f rp u d cert :
    let s := made E (w_tick w + 1) rp u in
    let c' := set_vault (w_client w) (cl_vault (w_client w) ++ [s]) in
    let auth := mc_auth_data E rp (cs_id s) (e_scalar E (w_tick w + 2)) f in
    let sig := ecdsa_sign (e_C E) (e_scalar E (w_tick w + 2))
                 (sha256 (e_C E) (auth ++ or_nil (mc_hash a))) (e_rand E (w_tick w + 8) 32) in
    unmarshal dec_mc data = Some a -> offers_es256 a ->
    mc_check (e_C E) (w_client w) a = inl f -> mc_rp a = Some rp -> mc_user a = Some u ->
    client_ok E c' -> stored E d c' ->
    e_make_cert E (w_tick w + 7) (cl_cert (w_client w)) (cl_certkey (w_client w))
      (pub_ec (ec_public (ec_key (e_C E) (e_scalar E (w_tick w + 2))))) = Some cert ->
    mc_result E data w
      (mkw c' (w_tick w + 9) (w_trace w ++ [EvAsk ActMakeCredential (rp_name rp) [] true; EvSave d]))
      (Ok (0 :: cenc (attestation_doc auth sig cert))).

Lemma mc_response_doc auth sig cert : mc_response auth sig cert = attestation_doc auth sig cert.
Proof. reflexivity. Qed.

Lemma make_credential_wp E data w : env_ok E -> client_ok E (w_client w) -> wfb data ->
  wp (make_credential E data) (mc_result E data w) w.
Proof.
  intros L K W. unfold make_credential. destruct (unmarshal dec_mc data) as [a|] eqn:U.
  2:{ apply wp_fail. now constructor. }
  destruct (dec_mc_proper data a W U) as (PR & PU & _).
  set (ps := match mc_params a with Some l => l | None => [] end).
  destruct (existsb es256_param ps) eqn:X.
  2:{ apply wp_ret. apply MR_alg with a; auto. intro O. apply es256_iff in O. fold ps in O. congruence. }
  assert (O : offers_es256 a) by now apply es256_iff.
  apply wp_bind, wp_get. cbv zeta.
  change (if cl_pin (w_client w) then _ else _) with (mc_check (e_C E) (w_client w) a).
  destruct (mc_check (e_C E) (w_client w) a) as [f|e] eqn:CK.
  2:{ apply wp_ret. now apply MR_pin with a. }
  destruct (mc_rp a) as [rp|] eqn:RP.
  2:{ apply wp_fail. now apply MR_norp with a f. }
  unfold approve_creation. apply wp_bind, wp_ask.
  destruct (e_approve E (w_tick w) ActMakeCredential (rp_name rp) []) eqn:AP.
  2:{ apply wp_ret. now apply MR_denied with a f. }
  destruct (mc_user a) as [u|] eqn:US.
  2:{ unfold new_credential_source. rewrite X. apply wp_bind, wp_fail. now apply MR_nouser with a f. }
  apply wp_bind. apply wp_new_cred; wcbn; auto.
  intros K' d S. rewrite <- app_assoc. cbn [app].
  unfold attested_data. cbn [made cs_key cs_id]. rewrite public_ec. cbn [rbind]. cbn [ec_public ec_key].
  rewrite marshal_ec_doc. cbn [rbind]. apply wp_bind, wp_lift.
  unfold make_certificate. apply wp_bind, wp_bind, wp_get. wcbn. apply wp_bind, wp_lift.
  rewrite public_ec. apply wp_bind. unfold wp at 1. cbn [tick fst snd]. wcbn.
  replace (w_tick w + 1 + 6) with (w_tick w + 7) by lia.
  replace (w_tick w + 1 + 1) with (w_tick w + 2) in * by lia.
  cbn [set_vault cl_cert cl_certkey].
  destruct (e_make_cert E (w_tick w + 7) (cl_cert (w_client w)) (cl_certkey (w_client w))
      (pub_ec (ec_public (ec_key (e_C E) (e_scalar E (w_tick w + 2)))))) as [cert|] eqn:CT.
  2:{ apply wp_fail. replace (w_tick w + 7 + 1) with (w_tick w + 8) by lia. now eapply MR_nocert; eauto. }
  apply wp_ret. apply wp_bind. unfold sign_random. apply wp_random. wcbn.
  apply wp_bind, wp_lift. rewrite sign_ec. apply wp_ret.
  replace (w_tick w + 7 + 1) with (w_tick w + 8) by lia. replace (w_tick w + 8 + 1) with (w_tick w + 9) by lia.
  unfold marshal_cbor. rewrite mc_response_doc.
  eapply eq_ind; [eapply MR_ok; eauto|]. 
  cbn [made cs_id cs_ctr or_nil ec_d ec_key auth_data]. unfold mc_auth_data, auth_data, cred_key.
  cbn [or_nil cs_ctr made].
  assert (Z : len (e_rand E (w_tick w + 1) 16) = 16) by apply (eo_rand_len E L).
  rewrite Z. reflexivity.
Qed.

(* ------------------------------------------------------------------ *)
(* GetAssertion                                                         *)

Definition ga_check (C : Crypto) (c : client) (a : ga_args) : N + N :=
  if cl_pin c then
    match ga_auth a with
    | None => inl 0
    | Some p =>
      if ga_protocol a =? 1 then
        if bytes_eqb (firstn 16 (hmac256 C (cl_token c) (or_nil (ga_hash a)))) p then inl 4 else inr 51
      else inr 51
    end
  else inl 0.

Definition wants_up (a : ga_args) : bool := match op_up (ga_options a) with Some false => false | _ => true end.

Definition ga_auth_data (E : Env) (rp : bytes) (x : source) (flags : N) : bytes :=
  sha256 (e_C E) rp ++ [flags] ++ ctr_bytes (cs_ctr (bump x)).

Inductive ga_result (E : Env) (data : bytes) (w : world) : world -> res bytes -> Prop :=
| GR_bad : unmarshal dec_ga data = None -> ga_result E data w w (Ok [18])
| GR_pin a e : unmarshal dec_ga data = Some a -> ga_check (e_C E) (w_client w) a = inr e ->
    ga_result E data w w (Ok [e])
| GR_none a f : unmarshal dec_ga data = Some a -> ga_check (e_C E) (w_client w) a = inl f ->
    matching (cl_vault (w_client w)) (ga_rp a) (ga_allow a) = [] -> ga_result E data w w (Ok [46])
| GR_denied a f v1 x v2 d :
    let c' := set_vault (w_client w) (v1 ++ bump x :: v2) in
    unmarshal dec_ga data = Some a -> ga_check (e_C E) (w_client w) a = inl f ->
    cl_vault (w_client w) = v1 ++ x :: v2 -> matches (ga_rp a) (ga_allow a) x = true ->
    forallb (fun y => negb (matches (ga_rp a) (ga_allow a) y)) v1 = true ->
    client_ok E c' -> stored E d c' -> wants_up a = true ->
    e_approve E (w_tick w + 4) ActGetAssertion (rp_name (cs_rp x)) (us_name (cs_user x)) = false ->
    ga_result E data w
      (mkw c' (w_tick w + 5)
         (w_trace w ++ [EvSave d; EvAsk ActGetAssertion (rp_name (cs_rp x)) (us_name (cs_user x)) false]))
      (Ok [39])
| GR_ok a f v1 x v2 d k :
    let c' := set_vault (w_client w) (v1 ++ bump x :: v2) in
    let up := wants_up a in
    let t := w_tick w + 4 + (if up then 1 else 0) in
    let auth := ga_auth_data E (ga_rp a) x (N.lor f (if up then 1 else 0)) in
    let sig := ecdsa_sign (e_C E) k (sha256 (e_C E) (auth ++ or_nil (ga_hash a))) (e_rand E t 32) in
    unmarshal dec_ga data = Some a -> ga_check (e_C E) (w_client w) a = inl f ->
    cl_vault (w_client w) = v1 ++ x :: v2 -> matches (ga_rp a) (ga_allow a) x = true ->
    forallb (fun y => negb (matches (ga_rp a) (ga_allow a) y)) v1 = true ->
    client_ok E c' -> stored E d c' -> valid_scalar k -> cs_key x = priv_ec (ec_key (e_C E) k) ->
    ga_result E data w
      (mkw c' (t + 1)
         (w_trace w ++ EvSave d ::
           (if up then [EvAsk ActGetAssertion (rp_name (cs_rp x)) (us_name (cs_user x)) true] else [])))
      (Ok (0 :: cenc (assertion_doc (cs_id x) auth sig))).

Lemma ga_response_doc id auth sig : ga_response id auth sig = assertion_doc id auth sig.
Proof. reflexivity. Qed.

Lemma get_assertion_wp E data w : env_ok E -> client_ok E (w_client w) ->
  wp (get_assertion E data) (ga_result E data w) w.
Proof.
  intros L K. unfold get_assertion. destruct (unmarshal dec_ga data) as [a|] eqn:U.
  2:{ apply wp_ret. now constructor. }
  apply wp_bind, wp_get. cbv zeta.
  change (if cl_pin (w_client w) then _ else _) with (ga_check (e_C E) (w_client w) a).
  destruct (ga_check (e_C E) (w_client w) a) as [f|e] eqn:CK.
  2:{ apply wp_ret. now apply GR_pin with a. }
  apply wp_bind. apply wp_assertion; auto.
  { intro M. apply wp_ret. now apply GR_none with a f. }
  intros v1 x v2 d V X Y c' K' S.
  pose proof (co_vault E _ K) as F. rewrite V in F. apply Forall_elt in F.
  destruct F as (_ & _ & _ & (k & Vk & Kx) & _).
  assert (fin : forall w1 up, wants_up a = up ->
    w1 = mkw c' (w_tick w + 4 + (if up then 1 else 0))
      (w_trace w ++ EvSave d :: (if up then [EvAsk ActGetAssertion (rp_name (cs_rp x)) (us_name (cs_user x)) true] else [])) ->
    wp (do r <- sign_random E;
        do sig <- lift (cose_sign (e_C E) (cs_key (bump x))
              (auth_data E (ga_rp a) (bump x) None (N.lor f (if up then 1 else 0)) ++ or_nil (ga_hash a)) r);
        ret (st_success :: marshal_cbor (ga_response (cs_id (bump x))
              (auth_data E (ga_rp a) (bump x) None (N.lor f (if up then 1 else 0))) sig)))
       (ga_result E data w) w1).
  { intros w1 up UP ->. apply wp_bind. unfold sign_random. apply wp_random. wcbn. apply wp_bind, wp_lift.
    cbn [bump cs_key cs_id]. rewrite Kx, sign_ec. apply wp_ret.
    unfold marshal_cbor. rewrite ga_response_doc.
    pose proof (GR_ok E data w a f v1 x v2 d k U CK V X Y K' S Vk Kx) as G. cbv zeta in G. rewrite UP in G.
    unfold auth_data. cbn [or_nil]. rewrite app_nil_r. exact G. }
  unfold wants_up in fin. destruct (op_up (ga_options a)) as [[|]|] eqn:OP.
  - unfold approve_login. apply wp_bind, wp_ask. wcbn. cbn [bump cs_rp cs_user].
    destruct (e_approve E _ _ _ _) eqn:AP.
    + rewrite <- app_assoc. cbn [app]. replace (w_tick w + 4 + 1) with (w_tick w + 4 + (if true then 1 else 0)) by lia.
      now apply (fin _ true).
    + apply wp_ret. rewrite <- app_assoc. cbn [app]. replace (w_tick w + 4 + 1) with (w_tick w + 5) by lia.
      apply GR_denied with a f; auto. unfold wants_up. now rewrite OP.
  - replace (w_tick w + 4) with (w_tick w + 4 + 0) by lia.
    specialize (fin (mkw c' (w_tick w + 4 + 0) (w_trace w ++ [EvSave d])) false eq_refl eq_refl).
    cbv iota in fin. now rewrite N.lor_0_r in fin.
  - unfold approve_login. apply wp_bind, wp_ask. wcbn. cbn [bump cs_rp cs_user].
    destruct (e_approve E _ _ _ _) eqn:AP.
    + rewrite <- app_assoc. cbn [app]. replace (w_tick w + 4 + 1) with (w_tick w + 4 + (if true then 1 else 0)) by lia.
      now apply (fin _ true).
    + apply wp_ret. rewrite <- app_assoc. cbn [app]. replace (w_tick w + 4 + 1) with (w_tick w + 5) by lia.
      apply GR_denied with a f; auto. unfold wants_up. now rewrite OP.
Qed.

(* ------------------------------------------------------------------ *)
(* ClientPIN                                                            *)

Lemma shared_cases E c k : shared_secret E c k = Panic \/
  exists s, shared_secret E c k = Ok s /\ secret_of E c k s.
Proof.
  unfold shared_secret, ecdh, secret_of. destruct (p256_mul _ _ _) as [x|]; cbn [rbind]; [right; eauto 6|now left].
Qed.

Lemma before_zero_spec d : padded_pin d (or_nil (before_zero d)).
Proof.
  assert (H : match before_zero d with
              | Some pin => exists rest, d = pin ++ 0 :: rest /\ ~ In 0 pin
              | None => ~ In 0 d end).
  { induction d as [|x d IH]; cbn [before_zero]; [auto|]. destruct (N.eqb_spec x 0) as [->|N].
    - exists d. auto.
    - destruct (before_zero d) as [t|].
      + destruct IH as (rest & -> & NI). exists rest. split; [reflexivity|]. cbn. intros [->|I]; auto.
      + cbn. intros [->|I]; auto. }
  unfold padded_pin. destruct (before_zero d); cbn; auto.
Qed.

Definition pin_client (c : client) (n : Z) (h : option bytes) : client := set_hash (set_retries c n) h.

Lemma client_ok_retries E c n : client_ok E c -> (0 <= n <= 8)%Z -> client_ok E (set_retries c n).
Proof. intros [] H. constructor; auto. Qed.

Lemma client_ok_hash E c h : client_ok E c -> wfb h -> len h = 16 -> client_ok E (set_hash c (Some h)).
Proof. intros [] H H1. constructor; auto. cbn. auto. Qed.

Lemma hash16 C b : laws C -> wfb (firstn 16 (sha256 C b)) /\ len (firstn 16 (sha256 C b)) = 16.
Proof.
  intro L. split; [apply wfb_firstn, l_sha_wf, L|]. change 16%nat with (N.to_nat 16).
  pose proof (l_sha_len C L b). change (firstn (N.to_nat 16)) with (takeN (A:=N) 16). rewrite takeN_len. lia.
Qed.

(* Outcomes that leave the world alone. *)
Inductive pin_plain (E : Env) (c : client) (a : cp_args) : res bytes -> Prop :=
| PP_retries : pn_sub a = 1 -> (0 < cl_retries c)%Z ->
    pin_plain E c a (Ok (0 :: cenc (retries_doc (Z.to_N (cl_retries c)))))
| PP_agreement : pn_sub a = 2 ->
    pin_plain E c a (Ok (0 :: cenc (agreement_doc (big_bytes (fst (p256_pub (e_C E) (cl_ka c))))
                                                  (big_bytes (snd (p256_pub (e_C E) (cl_ka c)))))))
| PP_set_again h : pn_sub a = 3 -> cl_hash c = Some h -> pin_plain E c a (Ok [51])
| PP_missing : (pn_sub a = 3 -> cl_hash c = None /\ (pn_key a = None \/ pn_auth a = None \/ pn_new a = None)) ->
    (pn_sub a = 4 -> pn_key a = None \/ pn_auth a = None) ->
    (pn_sub a = 5 -> pn_hash a = None \/ exists k, pn_key a = Some k /\ e2_x k = None) ->
    pn_sub a <> 1 -> pn_sub a <> 2 -> pin_plain E c a (Ok [20])
| PP_set_auth k auth enc s : pn_sub a = 3 -> cl_hash c = None -> pn_key a = Some k -> pn_auth a = Some auth ->
    pn_new a = Some enc -> secret_of E c k s -> auth <> firstn 16 (hmac256 (e_C E) s enc) ->
    pin_plain E c a (Ok [51])
| PP_set_policy k auth enc s dec pin : pn_sub a = 3 -> cl_hash c = None -> pn_key a = Some k ->
    pn_auth a = Some auth -> pn_new a = Some enc -> secret_of E c k s ->
    decrypt_cbc (e_C E) s enc = Ok dec -> padded_pin dec pin -> len pin < 4 -> pin_plain E c a (Ok [55])
| PP_change_auth k auth s : pn_sub a = 4 -> pn_key a = Some k -> pn_auth a = Some auth ->
    (0 < cl_retries c)%Z -> secret_of E c k s ->
    auth <> firstn 16 (hmac256 (e_C E) s (or_nil (pn_new a) ++ or_nil (pn_hash a))) ->
    pin_plain E c a (Ok [51])
| PP_exhausted : (pn_sub a = 1 \/ pn_sub a = 4 \/ pn_sub a = 5) -> cl_retries c = 0%Z -> pin_plain E c a Panic
| PP_no_key enc : pn_sub a = 5 -> pn_hash a = Some enc -> pn_key a = None -> pin_plain E c a Panic
| PP_curve k : (pn_sub a = 3 \/ pn_sub a = 4 \/ pn_sub a = 5) -> pn_key a = Some k ->
    p256_mul (e_C E) (cl_ka c) (big_set (or_nil (e2_x k)), big_set (or_nil (e2_y k))) = None ->
    pin_plain E c a Panic
| PP_set_block enc : pn_sub a = 3 -> pn_new a = Some enc -> len enc mod 16 <> 0 -> pin_plain E c a Panic.

Inductive pin_result (E : Env) (data : bytes) (w : world) : world -> res bytes -> Prop :=
| PR_off : cl_pin (w_client w) = false -> pin_result E data w w (Ok [1])
| PR_bad : cl_pin (w_client w) = true -> unmarshal dec_cp data = None -> pin_result E data w w (Ok [18])
| PR_proto a : cl_pin (w_client w) = true -> unmarshal dec_cp data = Some a -> pn_protocol a <> 1 ->
    pin_result E data w w (Ok [2])
| PR_plain a r : cl_pin (w_client w) = true -> unmarshal dec_cp data = Some a -> pn_protocol a = 1 ->
    pin_plain E (w_client w) a r -> pin_result E data w w r
(* a PIN is set *)
| PR_set a k auth enc s dec pin d :
    let c' := pin_client (w_client w) 8 (Some (firstn 16 (sha256 (e_C E) pin))) in
    cl_pin (w_client w) = true -> unmarshal dec_cp data = Some a -> pn_protocol a = 1 -> pn_sub a = 3 ->
    cl_hash (w_client w) = None -> pn_key a = Some k -> pn_auth a = Some auth -> pn_new a = Some enc ->
    secret_of E (w_client w) k s -> auth = firstn 16 (hmac256 (e_C E) s enc) ->
    decrypt_cbc (e_C E) s enc = Ok dec -> padded_pin dec pin -> 4 <= len pin ->
    client_ok E c' -> stored E d c' ->
    pin_result E data w (mkw c' (w_tick w + 4) (w_trace w ++ [EvSave d])) (Ok [0])
(* a guess is counted but the block length is wrong: ChangePIN or GetPINToken *)
| PR_block a k s :
    cl_pin (w_client w) = true -> unmarshal dec_cp data = Some a -> pn_protocol a = 1 ->
    (pn_sub a = 4 \/ pn_sub a = 5) -> pn_key a = Some k -> (0 < cl_retries (w_client w))%Z ->
    secret_of E (w_client w) k s -> len (or_nil (pn_hash a)) mod 16 <> 0 ->
    pin_result E data w
      (mkw (set_retries (w_client w) (cl_retries (w_client w) - 1)) (w_tick w) (w_trace w)) Panic
(* a wrong guess *)
| PR_wrong a k s dec :
    cl_pin (w_client w) = true -> unmarshal dec_cp data = Some a -> pn_protocol a = 1 ->
    (pn_sub a = 4 \/ pn_sub a = 5) -> pn_key a = Some k -> (0 < cl_retries (w_client w))%Z ->
    secret_of E (w_client w) k s -> decrypt_cbc (e_C E) s (or_nil (pn_hash a)) = Ok dec ->
    dec <> or_nil (cl_hash (w_client w)) ->
    pin_result E data w
      (mkw (set_retries (w_client w) (cl_retries (w_client w) - 1)) (w_tick w) (w_trace w)) (Ok [49])
(* ChangePIN with the right PIN but a bad new one *)
| PR_change_bad a k auth s dec r :
    cl_pin (w_client w) = true -> unmarshal dec_cp data = Some a -> pn_protocol a = 1 -> pn_sub a = 4 ->
    pn_key a = Some k -> pn_auth a = Some auth -> (0 < cl_retries (w_client w))%Z ->
    secret_of E (w_client w) k s ->
    auth = firstn 16 (hmac256 (e_C E) s (or_nil (pn_new a) ++ or_nil (pn_hash a))) ->
    decrypt_cbc (e_C E) s (or_nil (pn_hash a)) = Ok dec -> dec = or_nil (cl_hash (w_client w)) ->
    (r = Ok [55] /\ (exists d2 pin, decrypt_cbc (e_C E) s (or_nil (pn_new a)) = Ok d2 /\ padded_pin d2 pin /\ len pin < 4) \/
     r = Panic /\ len (or_nil (pn_new a)) mod 16 <> 0) ->
    pin_result E data w (mkw (set_retries (w_client w) 8) (w_tick w) (w_trace w)) r
| PR_change a k auth s dec d2 pin d :
    let c' := pin_client (w_client w) 8 (Some (firstn 16 (sha256 (e_C E) pin))) in
    cl_pin (w_client w) = true -> unmarshal dec_cp data = Some a -> pn_protocol a = 1 -> pn_sub a = 4 ->
    pn_key a = Some k -> pn_auth a = Some auth -> (0 < cl_retries (w_client w))%Z ->
    secret_of E (w_client w) k s ->
    auth = firstn 16 (hmac256 (e_C E) s (or_nil (pn_new a) ++ or_nil (pn_hash a))) ->
    decrypt_cbc (e_C E) s (or_nil (pn_hash a)) = Ok dec -> dec = or_nil (cl_hash (w_client w)) ->
    decrypt_cbc (e_C E) s (or_nil (pn_new a)) = Ok d2 -> padded_pin d2 pin -> 4 <= len pin ->
    client_ok E c' -> stored E d c' ->
    pin_result E data w (mkw c' (w_tick w + 4) (w_trace w ++ [EvSave d])) (Ok [0])
(* the PIN token *)
| PR_token a k enc s dec t :
    cl_pin (w_client w) = true -> unmarshal dec_cp data = Some a -> pn_protocol a = 1 -> pn_sub a = 5 ->
    pn_key a = Some k -> pn_hash a = Some enc -> (0 < cl_retries (w_client w))%Z ->
    secret_of E (w_client w) k s -> decrypt_cbc (e_C E) s enc = Ok dec ->
    dec = or_nil (cl_hash (w_client w)) -> encrypt_cbc (e_C E) s (cl_token (w_client w)) = Ok t -> len t = 16 -> wfb t ->
    pin_result E data w (mkw (set_retries (w_client w) 8) (w_tick w) (w_trace w))
      (Ok (0 :: cenc (token_doc t))).

Lemma secret_key E c k s : env_ok E -> secret_of E c k s -> aes_key s.
Proof. intros L (x & _ & ->). right; right. apply (l_sha_len _ (eo_laws E L)). Qed.

Lemma cbc_cases C s b : aes_key s ->
  (decrypt_cbc C s b = Panic /\ len b mod 16 <> 0) \/ (exists d, decrypt_cbc C s b = Ok d /\ len b mod 16 = 0).
Proof.
  intro A. apply aes_key_ok_iff in A. unfold decrypt_cbc. rewrite A. cbn [andb].
  destruct (N.eqb_spec (len b mod 16) 0); eauto.
Qed.

Lemma encrypt_token C s t : laws C -> aes_key s -> len t = 16 ->
  exists e, encrypt_cbc C s t = Ok e /\ len e = 16 /\ wfb e.
Proof.
  intros L A B. unfold encrypt_cbc. rewrite (proj2 (aes_key_ok_iff s) A), B. cbn [andb].
  change (16 mod 16 =? 0) with true. cbv iota.
  assert (NL : length t = 16%nat) by (unfold len in B; lia). rewrite NL. change (16 / 16)%nat with 1%nat.
  eexists. split; [reflexivity|]. split.
  - unfold len. rewrite (cbc_enc_len C 1 s (zeros 16) t L A) by (exact NL || reflexivity). reflexivity.
  - now apply cbc_enc_wf.
Qed.

Lemma decrypt_pin_cases E s enc : aes_key s ->
  (decrypt_pin E s enc = Panic /\ len enc mod 16 <> 0) \/
  (exists d pin, decrypt_pin E s enc = Ok pin /\ decrypt_cbc (e_C E) s enc = Ok d /\ padded_pin d pin).
Proof.
  intro A. unfold decrypt_pin. destruct (cbc_cases (e_C E) s enc A) as [(-> & H)|(d & -> & H)]; cbn [rbind]; auto.
  right. exists d, (or_nil (before_zero d)). auto using before_zero_spec.
Qed.

Lemma pin_retries_wp (Q : world -> res Z -> Prop) w : (0 <= cl_retries (w_client w) <= 8)%Z ->
  (cl_retries (w_client w) = 0%Z -> Q w Panic) ->
  ((0 < cl_retries (w_client w))%Z -> Q w (Ok (cl_retries (w_client w)))) -> wp pin_retries Q w.
Proof.
  intros R H0 H1. unfold pin_retries. apply wp_bind, wp_get.
  destruct ((0 <? cl_retries (w_client w))%Z && (cl_retries (w_client w) <=? 8)%Z)%bool eqn:B.
  - apply wp_ret, H1. lia.
  - apply wp_fail, H0. lia.
Qed.

Lemma wp_set_hash E h (Q : world -> res unit -> Prop) w : env_ok E -> client_ok E (w_client w) ->
  wfb h -> len h = 16 ->
  (client_ok E (set_hash (w_client w) (Some h)) -> forall d, stored E d (set_hash (w_client w) (Some h)) ->
   Q (mkw (set_hash (w_client w) (Some h)) (w_tick w + 4) (w_trace w ++ [EvSave d])) (Ok tt)) ->
  wp (set_pin_hash E h) Q w.
Proof.
  intros L K W N H. pose proof (client_ok_hash E _ h K W N) as K'. unfold set_pin_hash.
  apply wp_bind, wp_get. apply wp_bind, wp_put. apply wp_save; wcbn; auto.
Qed.

Lemma set_pin_wp E data a w : env_ok E -> client_ok E (w_client w) -> cl_pin (w_client w) = true ->
  unmarshal dec_cp data = Some a -> pn_protocol a = 1 -> pn_sub a = 3 ->
  wp (ctap_set_pin E a) (pin_result E data w) w.
Proof.
  intros L K P U PR SB. unfold ctap_set_pin. apply wp_bind, wp_get.
  destruct (cl_hash (w_client w)) as [h|] eqn:H.
  { apply wp_ret. apply PR_plain with a; auto. now apply PP_set_again with h. }
  assert (miss : (pn_key a = None \/ pn_auth a = None \/ pn_new a = None) -> pin_result E data w w (Ok [20])).
  { intro M. apply PR_plain with a; auto. apply PP_missing; try (rewrite SB; discriminate); auto. }
  destruct (pn_key a) as [k|] eqn:PK; [|apply wp_ret; auto].
  destruct (pn_auth a) as [auth|] eqn:PA; [|apply wp_ret; auto].
  destruct (pn_new a) as [enc|] eqn:PN; [|apply wp_ret; auto]. clear miss.
  apply wp_bind, wp_lift. destruct (shared_cases E (w_client w) k) as [Z|(s & Z & S)]; rewrite Z.
  { apply PR_plain with a; auto. apply PP_curve with k; auto. unfold shared_secret, ecdh in Z.
    destruct (p256_mul _ _ _); [discriminate|reflexivity]. }
  unfold pin_auth. destruct (bytes_eqb _ auth) eqn:B.
  2:{ apply wp_ret. apply PR_plain with a; auto. eapply PP_set_auth; eauto. intros ->. rewrite bytes_eqb_refl in B. discriminate. }
  apply bytes_eqb_eq in B. apply wp_bind, wp_lift.
  destruct (decrypt_pin_cases E s enc (secret_key E _ _ _ L S)) as [(-> & M)|(dec & pin & -> & D1 & D2)].
  { apply PR_plain with a; auto. now apply PP_set_block with enc. }
  destruct (N.ltb_spec (len pin) 4).
  { apply wp_ret. apply PR_plain with a; auto. eapply PP_set_policy; eauto. }
  destruct (hash16 (e_C E) pin (eo_laws E L)) as [h1 h2].
  unfold set_pin_retries. apply wp_bind, wp_bind, wp_get, wp_put. wcbn.
  assert (K8 : client_ok E (set_retries (w_client w) 8)) by (apply client_ok_retries; auto; lia).
  apply wp_bind, wp_set_hash; wcbn; auto. intros K' d SD. apply wp_ret.
  eapply PR_set; eauto.
Qed.

Lemma change_pin_wp E data a w : env_ok E -> client_ok E (w_client w) -> cl_pin (w_client w) = true ->
  unmarshal dec_cp data = Some a -> pn_protocol a = 1 -> pn_sub a = 4 ->
  wp (change_pin E a) (pin_result E data w) w.
Proof.
  intros L K P U PR SB. unfold change_pin. pose proof (co_retries E _ K) as RR.
  assert (miss : (pn_key a = None \/ pn_auth a = None) -> pin_result E data w w (Ok [20])).
  { intro M. apply PR_plain with a; auto. apply PP_missing; try (rewrite SB; discriminate); auto. }
  destruct (pn_key a) as [k|] eqn:PK; [|apply wp_ret; auto].
  destruct (pn_auth a) as [auth|] eqn:PA; [|apply wp_ret; auto]. clear miss.
  apply wp_bind, pin_retries_wp; auto.
  { intro Z. apply PR_plain with a; auto. apply PP_exhausted; auto. }
  intro R. destruct (Z.eqb_spec (cl_retries (w_client w)) 0); [lia|].
  apply wp_bind, wp_get, wp_bind, wp_lift.
  destruct (shared_cases E (w_client w) k) as [Z|(s & Z & S)]; rewrite Z.
  { apply PR_plain with a; auto. apply PP_curve with k; auto. unfold shared_secret, ecdh in Z.
    destruct (p256_mul _ _ _); [discriminate|reflexivity]. }
  unfold pin_auth. destruct (bytes_eqb _ auth) eqn:B.
  2:{ apply wp_ret. apply PR_plain with a; auto. eapply PP_change_auth; eauto. intros ->. rewrite bytes_eqb_refl in B. discriminate. }
  apply bytes_eqb_eq in B. apply wp_bind, pin_retries_wp; auto; [intro; lia|intros _].
  unfold set_pin_retries. apply wp_bind, wp_bind, wp_get, wp_put. wcbn. apply wp_bind, wp_lift.
  pose proof (secret_key E _ _ _ L S) as AK.
  destruct (cbc_cases (e_C E) s (or_nil (pn_hash a)) AK) as [(-> & M)|(dec & D & M)].
  { eapply PR_block; eauto. }
  rewrite D. destruct (bytes_eqb (or_nil (cl_hash (w_client w))) dec) eqn:B2.
  2:{ apply wp_ret. eapply PR_wrong; eauto. intros ->. rewrite bytes_eqb_refl in B2. discriminate. }
  apply bytes_eqb_eq in B2. apply wp_bind, wp_bind, wp_get, wp_put. wcbn. apply wp_bind, wp_lift.
  change (set_retries (set_retries (w_client w) (cl_retries (w_client w) - 1)) 8) with (set_retries (w_client w) 8).
  destruct (decrypt_pin_cases E s (or_nil (pn_new a)) AK) as [(-> & M2)|(d2 & pin & -> & D1 & D2)].
  { eapply PR_change_bad; eauto. }
  destruct (N.ltb_spec (len pin) 4).
  { apply wp_ret. eapply PR_change_bad; eauto. left. split; [reflexivity|]. exists d2, pin. auto. }
  destruct (hash16 (e_C E) pin (eo_laws E L)) as [h1 h2].
  assert (K8 : client_ok E (set_retries (w_client w) 8)) by (apply client_ok_retries; auto; lia).
  apply wp_bind, wp_set_hash; wcbn; auto. intros K' d SD. apply wp_ret.
  eapply PR_change; eauto.
Qed.

Lemma token_wp E data a w : env_ok E -> client_ok E (w_client w) -> cl_pin (w_client w) = true ->
  unmarshal dec_cp data = Some a -> pn_protocol a = 1 -> pn_sub a = 5 ->
  wp (get_pin_token E a) (pin_result E data w) w.
Proof.
  intros L K P U PR SB. unfold get_pin_token. pose proof (co_retries E _ K) as RR.
  assert (miss : (pn_hash a = None \/ exists k, pn_key a = Some k /\ e2_x k = None) -> pin_result E data w w (Ok [20])).
  { intro M. apply PR_plain with a; auto. apply PP_missing; try (rewrite SB; discriminate); auto. }
  destruct (pn_hash a) as [enc|] eqn:PH; [|apply wp_ret; auto].
  destruct (pn_key a) as [k|] eqn:PK.
  2:{ apply wp_fail. apply PR_plain with a; auto. now apply PP_no_key with enc. }
  destruct (e2_x k) as [x|] eqn:X; [|apply wp_ret; eauto]. clear miss.
  apply wp_bind, pin_retries_wp; auto.
  { intro Z. apply PR_plain with a; auto. apply PP_exhausted; auto. }
  intro R. destruct (Z.leb_spec (cl_retries (w_client w)) 0); [lia|].
  apply wp_bind, wp_get, wp_bind, wp_lift.
  destruct (shared_cases E (w_client w) k) as [Z|(s & Z & S)]; rewrite Z.
  { apply PR_plain with a; auto. apply PP_curve with k; auto. unfold shared_secret, ecdh in Z.
    destruct (p256_mul _ _ _); [discriminate|reflexivity]. }
  apply wp_bind, pin_retries_wp; auto; [intro; lia|intros _].
  unfold set_pin_retries. apply wp_bind, wp_bind, wp_get, wp_put. wcbn. apply wp_bind, wp_lift.
  pose proof (secret_key E _ _ _ L S) as AK.
  destruct (cbc_cases (e_C E) s enc AK) as [(-> & M)|(dec & D & M)].
  { eapply PR_block; eauto. now rewrite PH. }
  rewrite D. destruct (bytes_eqb dec (or_nil (cl_hash (w_client w)))) eqn:B2.
  2:{ apply wp_ret. eapply PR_wrong; eauto; [rewrite PH; exact D|]. intros ->. rewrite bytes_eqb_refl in B2. discriminate. }
  apply bytes_eqb_eq in B2. apply wp_bind, wp_bind, wp_get, wp_put. wcbn.
  change (set_retries (set_retries (w_client w) (cl_retries (w_client w) - 1)) 8) with (set_retries (w_client w) 8).
  apply wp_bind, wp_lift. cbn [cl_token set_retries].
  destruct (encrypt_token (e_C E) s (cl_token (w_client w)) (eo_laws E L) AK) as (t & T & T1 & T2);
    [apply (co_token E _ K)|].
  rewrite T. apply wp_ret. unfold marshal_cbor.
  replace (cp_response None (Some t) None) with (token_doc t); [eapply PR_token; eauto|].
  unfold cp_response, token_doc. destruct t as [|b t]; [discriminate|reflexivity].
Qed.

Lemma client_pin_wp E data w : env_ok E -> client_ok E (w_client w) ->
  wp (client_pin E data) (pin_result E data w) w.
Proof.
  intros L K. unfold client_pin. pose proof (co_retries E _ K) as RR. apply wp_bind, wp_get.
  destruct (cl_pin (w_client w)) eqn:P; [|apply wp_ret; now constructor].
  destruct (unmarshal dec_cp data) as [a|] eqn:U; [|apply wp_ret; now apply PR_bad].
  destruct (N.eqb_spec (pn_protocol a) 1) as [PR|PR]; [|apply wp_ret; now apply PR_proto with a].
  destruct (N.eqb_spec (pn_sub a) 1) as [S1|S1].
  { unfold get_retries. apply wp_bind, pin_retries_wp; auto.
    - intro Z. apply PR_plain with a; auto. apply PP_exhausted; auto.
    - intro Z. apply wp_ret. apply PR_plain with a; auto. rewrite Z.mod_small by lia. now apply PP_retries. }
  destruct (N.eqb_spec (pn_sub a) 2) as [S2|S2].
  { unfold get_key_agreement. apply wp_bind, wp_get.
    destruct (p256_pub (e_C E) (cl_ka (w_client w))) as [x y] eqn:XY. apply wp_ret.
    apply PR_plain with a; auto. pose proof (PP_agreement E (w_client w) a S2) as G. rewrite XY in G. exact G. }
  destruct (N.eqb_spec (pn_sub a) 3) as [S3|S3]; [now apply set_pin_wp|].
  destruct (N.eqb_spec (pn_sub a) 4) as [S4|S4]; [now apply change_pin_wp|].
  destruct (N.eqb_spec (pn_sub a) 5) as [S5|S5]; [now apply token_wp|].
  apply wp_ret. apply PR_plain with a; auto. apply PP_missing; try tauto.
Qed.
