(* The two halves of a request. *)
From Verif Require Import Base M_Str M_Util M_Utf8 M_Cbor M_Json M_Crypto M_Cose M_State M_Client M_Ctap M_U2f M_History M_Overlap.
From Verif Require Import S_Crypto S_Cbor S_Cose S_State S_Client S_Ctap S_CtapReq S_Pin S_U2f S_History.
From Verif Require Import P_Crypto P_Cbor P_Cbor2 P_Cbor3 P_Cose P_Cose2 P_Client P_Ctap P_Ctap2 P_U2f P_U2f2 P_History.

(* ------------------------------------------------------------------ *)
(* Together they are the request                                       *)

Lemma bind_bind {A B D} (m : M A) (f : A -> M B) (g : B -> M D) w :
  bind (bind m f) g w = bind m (fun x => bind (f x) g) w.
Proof. unfold bind. destruct (m w) as [w' [x|]]; reflexivity. Qed.
Lemma get_bind {B} (f : client -> M B) w : bind get f w = f (w_client w) w.
Proof. reflexivity. Qed.
Lemma bind_cong {A B} (m : M A) (f g : A -> M B) w : (forall x w', f x w' = g x w') -> bind m f w = bind m g w.
Proof. intro H. unfold bind. destruct (m w) as [w' [x|]]; [apply H|reflexivity]. Qed.

Definition rest_of (E : Env) (x : bytes + pending) : M bytes :=
  match x with inl r => ret r | inr p => resume E p end.
Definition rest_out (E : Env) (x : output + pending) : M output :=
  match x with inl o => ret o | inr p => fmapM OBytes (resume E p) end.

Lemma mc_split E data w : make_credential E data w = bind (mc_begin E data) (rest_of E) w.
Proof.
  unfold make_credential, mc_begin. destruct (unmarshal dec_mc data) as [a|]; [|reflexivity].
  cbv zeta. destruct (existsb es256_param _); [|reflexivity].
  rewrite bind_bind, !get_bind.
  change (if cl_pin (w_client w) then _ else _) with (mc_check (e_C E) (w_client w) a).
  destruct (mc_check (e_C E) (w_client w) a) as [f|e]; [|reflexivity].
  destruct (mc_rp a) as [rp|]; reflexivity.
Qed.

Lemma ga_split E data w : get_assertion E data w = bind (ga_begin E data) (rest_of E) w.
Proof.
  unfold get_assertion, ga_begin. destruct (unmarshal dec_ga data) as [a|]; [|reflexivity].
  cbv zeta. rewrite bind_bind, !get_bind.
  change (if cl_pin (w_client w) then _ else _) with (ga_check (e_C E) (w_client w) a).
  destruct (ga_check (e_C E) (w_client w) a) as [f|e]; [|reflexivity].
  rewrite bind_bind. apply bind_cong. intros [s|] w'; [|reflexivity].
  destruct (op_up (ga_options a)) as [[|]|]; [reflexivity| |reflexivity].
  unfold fmapM, ga_finish, bind. destruct (sign_random E w') as [w1 [r|]]; [|reflexivity].
  unfold lift. destruct (cose_sign _ _ _ _); reflexivity.
Qed.

Lemma ctap_split E m w : ctap_handle E m w = bind (ctap_begin E m) (rest_of E) w.
Proof.
  unfold ctap_handle, ctap_begin. destruct m as [|c d]; [reflexivity|].
  destruct (c =? 1); [apply mc_split|]. destruct (c =? 4); [reflexivity|]. destruct (c =? 2); [apply ga_split|].
  destruct (c =? 6); [|reflexivity]. unfold bind, fmapM, bind.
  destruct (client_pin E d w) as [w' [r|]]; reflexivity.
Qed.

Lemma reg_split E req w : u2f_register E req w = bind (register_begin E req) (rest_of E) w.
Proof.
  unfold u2f_register, register_begin. destruct (len req =? 64); [|reflexivity]. cbv zeta.
  rewrite bind_bind. apply bind_cong. intros d w1. cbv zeta.
  rewrite bind_bind. apply bind_cong. reflexivity.
Qed.

Lemma auth_split E c req w : u2f_authenticate E c req w = bind (auth_begin E c req) (rest_of E) w.
Proof.
  unfold u2f_authenticate, auth_begin. 
  rewrite bind_bind. apply bind_cong. intros [[chal app] h] w1.
  rewrite bind_bind, !get_bind. rewrite bind_bind. apply bind_cong. intros [kh|] w2; [|reflexivity].
  destruct (kh_key kh) as [kb|]; [|reflexivity]. destruct (bytes_eqb (or_nil (kh_app kh)) app); [|reflexivity].
  destruct (ec_parse (e_C E) kb) as [k|]; [|reflexivity].
  destruct (c =? 7); [reflexivity|]. destruct (c =? 3); [reflexivity|]. destruct (c =? 8); [|reflexivity].
  reflexivity.
Qed.

Lemma u2f_split E m w : u2f_handle E m w = bind (u2f_begin E m) (rest_of E) w.
Proof.
  unfold u2f_handle, u2f_begin. rewrite bind_bind. apply bind_cong. intros [[h req] le] w1.
  destruct (uh_cmd h =? 3); [reflexivity|]. destruct (uh_cmd h =? 1); [apply reg_split|].
  destruct (uh_cmd h =? 2); [apply auth_split|reflexivity].
Qed.

Lemma handle_split E i w : handle E i w = bind (begin E i) (rest_out E) w.
Proof.
  destruct i as [m|m|b|p|id]; cbn [handle begin].
  - unfold fmapM at 1. unfold bind at 1. rewrite ctap_split. unfold fmapM, bind.
    destruct (ctap_begin E m w) as [w' [[r|p]|]]; [reflexivity| |reflexivity].
    cbn [rest_of rest_out ret]. unfold fmapM, bind. destruct (resume E p w') as [w1 [r|]]; reflexivity.
  - unfold fmapM at 1. unfold bind at 1. rewrite u2f_split. unfold fmapM, bind.
    destruct (u2f_begin E m w) as [w' [[r|p]|]]; [reflexivity| |reflexivity].
    cbn [rest_of rest_out ret]. unfold fmapM, bind. destruct (resume E p w') as [w1 [r|]]; reflexivity.
  - unfold fmapM, bind. destruct (enable_pin E b w) as [w' [[]|]]; reflexivity.
  - unfold fmapM, bind. destruct (set_pin_api E p w) as [w' [[]|]]; reflexivity.
  - unfold fmapM, bind. destruct (delete_identity_api E id w) as [w' [[]|]]; reflexivity.
Qed.

Lemma begin_quick E i w w' o : begin E i w = (w', Ok (inl o)) -> handle E i w = (w', Ok o).
Proof. intro H. rewrite handle_split. unfold bind. now rewrite H. Qed.

Lemma begin_panic E i w w' : begin E i w = (w', Panic) -> handle E i w = (w', Panic).
Proof. intro H. rewrite handle_split. unfold bind. now rewrite H. Qed.

(* ------------------------------------------------------------------ *)
(* What precedes the question                                          *)

(* What is known of a waiting request when its question is asked. *)
Definition waits_for (E : Env) (i : input) (w w' : world) (p : pending) : Prop :=
  match p with
  | PCreate a rp f => w' = w /\ exists data, i = ICtap (1 :: data) /\ unmarshal dec_mc data = Some a /\
      offers_es256 a /\ mc_check (e_C E) (w_client w) a = inl f /\ mc_rp a = Some rp
  | PLogin a f s => exists data v1 x v2 d, i = ICtap (2 :: data) /\ unmarshal dec_ga data = Some a /\
      ga_check (e_C E) (w_client w) a = inl f /\ wants_up a = true /\
      cl_vault (w_client w) = v1 ++ x :: v2 /\ matches (ga_rp a) (ga_allow a) x = true /\
      forallb (fun y => negb (matches (ga_rp a) (ga_allow a) y)) v1 = true /\ s = bump x /\
      let c' := set_vault (w_client w) (v1 ++ bump x :: v2) in
      client_ok E c' /\ stored E d c' /\ w' = mkw c' (w_tick w + 4) (w_trace w ++ [EvSave d])
  | PRegister d chal app h => exists msg, i = IU2f msg /\ nth_error msg 1 = Some 1 /\
      len chal = 32 /\ len app = 32 /\ d = e_scalar E (w_tick w) /\
      h = handle_bytes (e_C E) (cl_key (w_client w)) (e_rand E (w_tick w + 1) 12) (sec1 d (p256_pub (e_C E) d)) app /\
      w' = mkw (w_client w) (w_tick w + 2) (w_trace w)
  | PAuthenticate k chal app => exists msg h kb, i = IU2f msg /\ nth_error msg 1 = Some 2 /\
      len chal = 32 /\ len app = 32 /\ wfb h /\ sealed (e_C E) (cl_key (w_client w)) h kb app /\
      ec_parse (e_C E) kb = Some k /\ w' = w
  end.

Lemma mc_begin_wait E data w w' p : mc_begin E data w = (w', Ok (inr p)) -> waits_for E (ICtap (1 :: data)) w w' p.
Proof.
  unfold mc_begin. intro H. destruct (unmarshal dec_mc data) as [a|] eqn:U; [|discriminate H].
  set (ps := match mc_params a with Some l => l | None => [] end) in H.
  destruct (existsb es256_param ps) eqn:X; [|discriminate H]. rewrite get_bind in H. cbv zeta in H.
  change (if cl_pin (w_client w) then _ else _) with (mc_check (e_C E) (w_client w) a) in H.
  destruct (mc_check (e_C E) (w_client w) a) as [f|e] eqn:CK; [|discriminate H].
  destruct (mc_rp a) as [rp|] eqn:RP; [|discriminate H]. injection H as <- <-.
  split; [reflexivity|]. exists data. repeat (split; [auto; fail|]). split; [now apply es256_iff|auto].
Qed.

Lemma ga_begin_wait E data w w' p : env_ok E -> client_ok E (w_client w) ->
  ga_begin E data w = (w', Ok (inr p)) -> waits_for E (ICtap (2 :: data)) w w' p.
Proof.
  intros L K H. unfold ga_begin in H. destruct (unmarshal dec_ga data) as [a|] eqn:U; [|discriminate H].
  rewrite get_bind in H. cbv zeta in H.
  change (if cl_pin (w_client w) then _ else _) with (ga_check (e_C E) (w_client w) a) in H.
  destruct (ga_check (e_C E) (w_client w) a) as [f|e] eqn:CK; [|discriminate H].
  remember (Ok (inr p)) as r eqn:R. revert R. pattern w', r. eapply wp_eq; [|exact H]. clear w' r H.
  apply wp_bind. apply wp_assertion; auto. { intros _. apply wp_ret. discriminate. }
  intros v1 x v2 d V X Y c' K' S.
  destruct (op_up (ga_options a)) as [[|]|] eqn:OP.
  - apply wp_ret. intro R. injection R as <-. exists data, v1, x, v2, d. repeat (split; [auto; fail|]).
    split; [unfold wants_up; now rewrite OP|]. auto 10.
  - unfold fmapM. apply wp_bind. unfold ga_finish, sign_random. apply wp_bind, wp_random. wcbn. apply wp_bind, wp_lift.
    destruct (cose_sign _ _ _ _) as [sg|]; [|discriminate]. apply wp_ret. apply wp_ret. discriminate.
  - apply wp_ret. intro R. injection R as <-. exists data, v1, x, v2, d. repeat (split; [auto; fail|]).
    split; [unfold wants_up; now rewrite OP|]. auto 10.
Qed.

Lemma register_begin_wait E req w w' p msg : client_ok E (w_client w) -> nth_error msg 1 = Some 1 ->
  register_begin E req w = (w', Ok (inr p)) -> waits_for E (IU2f msg) w w' p.
Proof.
  intros K N H. unfold register_begin in H. destruct (len req =? 64) eqn:Q; [|discriminate H]. apply N.eqb_eq in Q. cbv zeta in H.
  assert (Q' : length req = 64%nat) by (unfold len in Q; lia).
  rewrite bind_scalar in H. cbn [ec_public ec_key eq_x eq_y] in H. rewrite <- surjective_pairing in H.
  rewrite bind_seal in H by exact K. cbn [w_client w_tick w_trace] in H. injection H as <- <-.
  exists msg. split; [reflexivity|]. split; [assumption|].
  split; [unfold takeN, len; rewrite firstn_length, Q'; reflexivity|].
  split; [unfold dropN, len; rewrite skipn_length, Q'; reflexivity|]. split; [reflexivity|]. split; [reflexivity|].
  replace (w_tick w + 1 + 1) with (w_tick w + 2) by lia. reflexivity.
Qed.

Lemma auth_begin_wait E c req w w' p msg : env_ok E -> client_ok E (w_client w) -> wfb req -> nth_error msg 1 = Some 2 ->
  auth_begin E c req w = (w', Ok (inr p)) -> waits_for E (IU2f msg) w w' p /\ c = 3.
Proof.
  intros L K W N H. unfold auth_begin in H. fold (auth_parse req) in H. unfold bind in H at 1. unfold lift in H at 1.
  destruct (auth_parse req) as [[[chal app] h]|] eqn:P; [|discriminate H].
  destruct (auth_parse_len _ _ _ _ P) as [P1 P2]. destruct (auth_parse_wf _ _ _ _ W P) as (_ & _ & Wh).
  rewrite get_bind in H. unfold bind in H at 1. unfold lift in H at 1.
  pose proof (proj1 (co_key E _ K)) as AK.
  destruct (open_handle E (cl_key (w_client w)) h) as [[[[kb|] a]|]|] eqn:O; cbn [kh_key kh_app] in H; try discriminate H.
  destruct (bytes_eqb (or_nil a) app) eqn:B; [|discriminate H]. apply bytes_eqb_eq in B.
  assert (S : sealed (e_C E) (cl_key (w_client w)) h kb app) by (apply open_sealed; eauto).
  destruct (ec_parse (e_C E) kb) as [k|] eqn:X; [|discriminate H].
  destruct (c =? 7); [discriminate H|]. destruct (c =? 3) eqn:C3.
  - injection H as <- <-. split; [|lia]. exists msg, h, kb. auto 10.
  - destruct (c =? 8); [|discriminate H]. unfold fmapM, bind in H. destruct (auth_finish E k chal app w) as [w1 [r|]]; discriminate H.
Qed.

Lemma begin_wait E i w w' p : env_ok E -> client_ok E (w_client w) -> good_input i ->
  begin E i w = (w', Ok (inr p)) -> waits_for E i w w' p.
Proof.
  intros L K G H. destruct i as [m|m|b|q|id]; cbn [begin] in H; unfold fmapM in H; unfold bind in H at 1.
  - destruct (ctap_begin E m w) as [w1 [[r|p1]|]] eqn:B; try discriminate H. injection H as -> ->.
    unfold ctap_begin in B. destruct m as [|c d]; [discriminate B|]. cbn [good_input] in G. apply wfb_cons in G as [_ G].
    destruct (c =? 1) eqn:C1. { apply N.eqb_eq in C1. subst c. now apply mc_begin_wait. }
    destruct (c =? 4). { unfold fmapM, bind in B. destruct (get_info w) as [w2 [r|]]; discriminate B. }
    destruct (c =? 2) eqn:C2. { apply N.eqb_eq in C2. subst c. now apply ga_begin_wait. }
    destruct (c =? 6); [|discriminate B]. unfold fmapM, bind in B. destruct (client_pin E d w) as [w2 [r|]]; discriminate B.
  - destruct (u2f_begin E m w) as [w1 [[r|p1]|]] eqn:B; try discriminate H. injection H as -> ->.
    unfold u2f_begin in B. unfold bind in B at 1. unfold lift in B at 1.
    destruct (decode_u2f m) as [[[h req] le]|] eqn:D; [|discriminate B]. pose proof (decode_ins _ _ _ _ D) as N.
    destruct (decode_wf _ _ _ _ G D) as [W _].
    destruct (uh_cmd h =? 3); [discriminate B|].
    destruct (uh_cmd h =? 1) eqn:C1. { apply N.eqb_eq in C1. rewrite C1 in N. eapply register_begin_wait; eauto. }
    destruct (uh_cmd h =? 2) eqn:C2; [|discriminate B].
    apply N.eqb_eq in C2. rewrite C2 in N. eapply auth_begin_wait; eauto.
  - destruct (handle E (IEnablePin b) w) as [w1 [o|]]; discriminate H.
  - destruct (handle E (ISetPin q) w) as [w1 [o|]]; discriminate H.
  - destruct (handle E (IDelete id) w) as [w1 [o|]]; discriminate H.
Qed.

Lemma events_nil w : events w w [].
Proof. unfold events. now rewrite app_nil_r. Qed.

Lemma waits_step E i w w' p : client_ok E (w_client w) -> waits_for E i w w' p -> step_ok E i w w'.
Proof.
  intros K H.
  assert (Z : forall t, w_tick w <= t -> step_ok E i w (mkw (w_client w) t (w_trace w))).
  { intros t T. split; [assumption|]. cbn [w_client w_tick w_trace]. split; [assumption|]. split; [apply VC_same|].
    split; [unfold same_keys; auto|]. exists []. split; [unfold events; cbn; now rewrite app_nil_r|]. left. split; [reflexivity|].
    exists (cl_retries (w_client w)), (cl_ctr (w_client w)). now rewrite same_ctr. }
  assert (Z0 : step_ok E i w w). { specialize (Z (w_tick w) (N.le_refl _)). now destruct w. }
  destruct p as [a rp f|a f s|d chal app h|k chal app]; cbn [waits_for] in H.
  - now destruct H as (-> & _).
  - destruct H as (data & v1 & x & v2 & d & _ & _ & _ & _ & V & _ & _ & _ & K' & S & ->).
    split; [assumption|]. cbn [w_client w_tick w_trace]. split; [lia|]. split; [rewrite V; now apply VC_bump|].
    split; [unfold same_keys; auto|]. exists [EvSave d]. split; [reflexivity|]. right. exists d. auto.
  - destruct H as (msg & _ & _ & _ & _ & _ & _ & ->). apply Z. lia.
  - destruct H as (msg & h & kb & _ & _ & _ & _ & _ & _ & _ & ->). assumption.
Qed.

Lemma begin_step E i w w' r : env_ok E -> client_ok E (w_client w) -> good_input i ->
  begin E i w = (w', r) -> step_ok E i w w'.
Proof.
  intros L K G H. destruct r as [[o|p]|].
  - apply begin_quick in H. eapply handle_step; eauto.
  - eapply waits_step; [exact K|]. eapply begin_wait; eauto.
  - apply begin_panic in H. eapply handle_step; eauto.
Qed.

(* ------------------------------------------------------------------ *)
(* What follows it                                                     *)

(* What stays true of a request while it waits. *)
Definition sane (E : Env) (i : input) (p : pending) : Prop :=
  match p with
  | PCreate a rp f => (exists data, i = ICtap (1 :: data) /\ unmarshal dec_mc data = Some a) /\
      offers_es256 a /\ (f = 0 \/ f = 4) /\ mc_rp a = Some rp /\ proper_rp rp /\ (forall u, mc_user a = Some u -> proper_user u)
  | PLogin a f s => (exists data, i = ICtap (2 :: data) /\ unmarshal dec_ga data = Some a) /\
      wants_up a = true /\ (f = 0 \/ f = 4) /\ source_ok (e_C E) s
  | PRegister d chal app h => (exists msg, i = IU2f msg /\ nth_error msg 1 = Some 1) /\ len h = 194
  | PAuthenticate k chal app => exists msg, i = IU2f msg /\ nth_error msg 1 = Some 2
  end.

Lemma waits_sane E i w w' p : env_ok E -> client_ok E (w_client w) -> good_input i -> waits_for E i w w' p -> sane E i p.
Proof.
  intros L K G H. destruct p as [a rp f|a f s|d chal app h|k chal app]; cbn [waits_for sane] in *.
  - destruct H as (_ & data & -> & U & O & CK & RP). cbn [good_input] in G. apply wfb_cons in G as [_ G].
    destruct (dec_mc_proper data a G U) as (PR & PU & _). split; [eauto|]. split; [assumption|].
    split; [eapply flag_of_check; eauto|]. auto.
  - destruct H as (data & v1 & x & v2 & d & -> & U & CK & UP & V & _ & _ & -> & _). split; [eauto|]. split; [assumption|].
    split; [eapply gflag_of_check; eauto|]. pose proof (co_vault E _ K) as F. rewrite V in F. apply Forall_elt in F. now apply bump_ok.
  - destruct H as (msg & -> & N & _ & A & _ & -> & _). split; [eauto|].
    apply handle_len; auto using sec1_len; [apply (eo_laws E L)|]. rewrite (eo_rand_len E L). reflexivity.
  - destruct H as (msg & h & kb & -> & N & _). eauto.
Qed.

Lemma refresh_sane E i v p : Forall (source_ok (e_C E)) v -> sane E i p -> sane E i (refresh v p).
Proof.
  intros F H. destruct p as [a rp f|a f s|d chal app h|k chal app]; cbn [refresh]; auto.
  destruct (find _ v) as [s'|] eqn:X; [|assumption]. apply find_some in X as [X _]. cbn [sane] in *.
  destruct H as (A & B & D & _). rewrite Forall_forall in F. auto.
Qed.

(* The answers. *)
Inductive answers (E : Env) (w : world) : pending -> world -> res bytes -> Prop :=
| AN_denied a rp f : e_approve E (w_tick w) ActMakeCredential (rp_name rp) [] = false ->
    answers E w (PCreate a rp f)
      (mkw (w_client w) (w_tick w + 1) (w_trace w ++ [EvAsk ActMakeCredential (rp_name rp) [] false])) (Ok [39])
| AN_nouser a rp f : mc_user a = None ->
    answers E w (PCreate a rp f)
      (mkw (w_client w) (w_tick w + 1) (w_trace w ++ [EvAsk ActMakeCredential (rp_name rp) [] true])) Panic
| AN_nocert a rp f u d :
    let s := made E (w_tick w + 1) rp u in
    let c' := set_vault (w_client w) (cl_vault (w_client w) ++ [s]) in
    mc_user a = Some u -> client_ok E c' -> stored E d c' ->
    answers E w (PCreate a rp f)
      (mkw c' (w_tick w + 8) (w_trace w ++ [EvAsk ActMakeCredential (rp_name rp) [] true; EvSave d])) Panic
| AN_created a rp f u d cert :
    let s := made E (w_tick w + 1) rp u in
    let c' := set_vault (w_client w) (cl_vault (w_client w) ++ [s]) in
    let auth := mc_auth_data E rp (cs_id s) (e_scalar E (w_tick w + 2)) f in
    let sig := ecdsa_sign (e_C E) (e_scalar E (w_tick w + 2))
                 (sha256 (e_C E) (auth ++ or_nil (mc_hash a))) (e_rand E (w_tick w + 8) 32) in
    mc_user a = Some u -> client_ok E c' -> stored E d c' ->
    e_make_cert E (w_tick w + 7) (cl_cert (w_client w)) (cl_certkey (w_client w))
      (pub_ec (ec_public (ec_key (e_C E) (e_scalar E (w_tick w + 2))))) = Some cert ->
    answers E w (PCreate a rp f)
      (mkw c' (w_tick w + 9) (w_trace w ++ [EvAsk ActMakeCredential (rp_name rp) [] true; EvSave d]))
      (Ok (0 :: cenc (attestation_doc auth sig cert)))
| AN_refused a f s : e_approve E (w_tick w) ActGetAssertion (rp_name (cs_rp s)) (us_name (cs_user s)) = false ->
    answers E w (PLogin a f s)
      (mkw (w_client w) (w_tick w + 1)
         (w_trace w ++ [EvAsk ActGetAssertion (rp_name (cs_rp s)) (us_name (cs_user s)) false])) (Ok [39])
| AN_login a f s k :
    let auth := sha256 (e_C E) (ga_rp a) ++ [N.lor f 1] ++ ctr_bytes (cs_ctr s) in
    let sig := ecdsa_sign (e_C E) k (sha256 (e_C E) (auth ++ or_nil (ga_hash a))) (e_rand E (w_tick w + 1) 32) in
    valid_scalar k -> cs_key s = priv_ec (ec_key (e_C E) k) ->
    answers E w (PLogin a f s)
      (mkw (w_client w) (w_tick w + 2)
         (w_trace w ++ [EvAsk ActGetAssertion (rp_name (cs_rp s)) (us_name (cs_user s)) true]))
      (Ok (0 :: cenc (assertion_doc (cs_id s) auth sig)))
| AN_register d chal app h t ok r : w_tick w < t ->
    (forall x, ok = false -> r = Ok x -> x = refused) ->
    answers E w (PRegister d chal app h) (mkw (w_client w) t (w_trace w ++ [EvAsk ActU2FRegister [] [] ok])) r
| AN_not k chal app :
    answers E w (PAuthenticate k chal app)
      (mkw (w_client w) (w_tick w + 1) (w_trace w ++ [EvAsk ActU2FAuthenticate [] [] false])) (Ok refused)
| AN_auth k chal app rnd : wfb rnd -> len rnd = 32 ->
    answers E w (PAuthenticate k chal app)
      (mkw (set_ctr (w_client w) ((cl_ctr (w_client w) + 1) mod 4294967296)) (w_tick w + 2)
         (w_trace w ++ [EvAsk ActU2FAuthenticate [] [] true]))
      (Ok (authentication_reply 1 (cl_ctr (w_client w))
             (ecdsa_sign (e_C E) (ec_d k) (sha256 (e_C E) (authentication_signed app 1 (cl_ctr (w_client w)) chal)) rnd))).

Lemma resume_answers E i p w w' r : env_ok E -> client_ok E (w_client w) -> sane E i p ->
  resume E p w = (w', r) -> answers E w p w' r.
Proof.
  intros L K G H. destruct p as [a rp f|a f s|d chal app h|k chal app]; cbn [resume sane] in *.
  - destruct G as (_ & O & F & RP & PR & PU). pattern w', r. eapply wp_eq; [|exact H]. clear w' r H.
    unfold approve_creation. apply wp_bind, wp_ask.
    destruct (e_approve E (w_tick w) ActMakeCredential (rp_name rp) []) eqn:AP.
    2:{ apply wp_ret. now apply AN_denied. }
    unfold mc_finish. apply es256_iff in O.
    destruct (mc_user a) as [u|] eqn:US.
    2:{ unfold new_credential_source. rewrite O. apply wp_bind, wp_fail. now apply AN_nouser. }
    apply wp_bind. apply wp_new_cred; wcbn; auto.
    intros K' d S. rewrite <- app_assoc. cbn [app].
    unfold attested_data. cbn [made cs_key cs_id]. rewrite public_ec. cbn [rbind]. cbn [ec_public ec_key].
    rewrite marshal_ec_doc. cbn [rbind]. apply wp_bind, wp_lift.
    unfold make_certificate. apply wp_bind, wp_bind, wp_get. wcbn. apply wp_bind, wp_lift.
    rewrite public_ec. apply wp_bind. unfold wp at 1. cbn [tick fst snd]. wcbn.
    replace (w_tick w + 1 + 6) with (w_tick w + 7) by lia.
    replace (w_tick w + 1 + 1) with (w_tick w + 2) in * by lia.
    cbn [set_vault cl_cert cl_certkey].
    destruct (e_make_cert E (w_tick w + 7) (cl_cert (w_client w)) (cl_certkey (w_client w))
        (pub_ec (ec_public (ec_key (e_C E) (e_scalar E (w_tick w + 2)))))) as [cert|] eqn:CT.
    2:{ apply wp_fail. replace (w_tick w + 7 + 1) with (w_tick w + 8) by lia. now eapply AN_nocert; eauto. }
    apply wp_ret. apply wp_bind. unfold sign_random. apply wp_random. wcbn.
    apply wp_bind, wp_lift. rewrite sign_ec. apply wp_ret.
    replace (w_tick w + 7 + 1) with (w_tick w + 8) by lia. replace (w_tick w + 8 + 1) with (w_tick w + 9) by lia.
    unfold marshal_cbor. rewrite mc_response_doc.
    eapply eq_ind; [eapply AN_created; eauto|].
    cbn [made cs_id cs_ctr or_nil ec_d ec_key auth_data]. unfold mc_auth_data, auth_data, cred_key.
    cbn [or_nil cs_ctr made].
    assert (Z : len (e_rand E (w_tick w + 1) 16) = 16) by apply (eo_rand_len E L).
    rewrite Z. reflexivity.
  - destruct G as (_ & _ & F & SO). destruct SO as (_ & _ & _ & (k & Vk & Kx) & _).
    pattern w', r. eapply wp_eq; [|exact H]. clear w' r H.
    unfold approve_login. apply wp_bind, wp_ask.
    destruct (e_approve E _ _ _ _) eqn:AP.
    2:{ apply wp_ret. now apply AN_refused. }
    unfold ga_finish. apply wp_bind. unfold sign_random. apply wp_random. wcbn. apply wp_bind, wp_lift.
    rewrite Kx, sign_ec. apply wp_ret. unfold marshal_cbor. rewrite ga_response_doc.
    replace (w_tick w + 1 + 1) with (w_tick w + 2) by lia.
    eapply eq_ind; [eapply AN_login; eauto|]. unfold auth_data. cbn [or_nil]. rewrite app_nil_r. reflexivity.
  - unfold approve_u2f_registration in H. rewrite bind_ask in H.
    destruct (e_approve E (w_tick w) ActU2FRegister [] []).
    + unfold register_finish, make_certificate, bind, get, lift, tick in H. cbn [w_client w_tick w_trace cose_public kp_ec priv_ec] in H.
      destruct (e_make_cert E _ _ _ _) as [cert|].
      * unfold sign_random, random, bind, tick, ret in H. cbn [w_client w_tick w_trace cose_sign kp_ec priv_ec] in H.
        injection H as <- <-. apply AN_register; [lia|discriminate].
      * injection H as <- <-. apply AN_register; [lia|discriminate].
    + injection H as <- <-. apply AN_register; [lia|]. intros x _ Q. now injection Q as <-.
  - unfold approve_u2f_authentication in H. rewrite bind_ask in H.
    destruct (e_approve E (w_tick w) ActU2FAuthenticate [] []).
    + unfold auth_finish in H. rewrite next_counter_bind in H. unfold sign_random in H. rewrite bind_random in H.
      unfold bind, lift, ret in H. cbn [w_client w_tick w_trace cose_sign kp_ec priv_ec] in H. injection H as <- <-.
      replace (w_tick w + 1 + 1) with (w_tick w + 2) by lia.
      apply (AN_auth E w k chal app (e_rand E (w_tick w + 1) 32)); [apply (eo_rand_wf E L)|rewrite (eo_rand_len E L); reflexivity].
    + injection H as <- <-. apply AN_not.
Qed.

Lemma answers_step E i j p w w' r : client_ok E (w_client w) -> sane E i p -> answers E w p w' r -> step_ok E j w w'.
Proof.
  intros K G H.
  assert (Z : forall t es, w_tick w <= t -> saves es = [] -> step_ok E j w (mkw (w_client w) t (w_trace w ++ es))).
  { intros t es T Q. split; [assumption|]. cbn [w_client w_tick w_trace]. split; [assumption|]. split; [apply VC_same|].
    split; [unfold same_keys; auto|]. exists es. split; [reflexivity|]. left. split; [assumption|].
    exists (cl_retries (w_client w)), (cl_ctr (w_client w)). now rewrite same_ctr. }
  destruct H; try (apply Z; [lia|reflexivity]);
    try (split; [assumption|]; cbn [w_client w_tick w_trace]; split; [lia|]; split; [apply VC_new; lia|];
         split; [unfold same_keys; auto|]; eexists; split; [reflexivity|]; right; exists d; split; [reflexivity|assumption]).
  cbn [w_client w_tick w_trace]. split.
  { destruct K as [A1 A2 A3 A4 A5 A6 A7 A8 A9]. constructor; auto. cbn [w_client set_ctr cl_ctr]. lia. }
  cbn [w_client w_tick w_trace]. split; [lia|]. split; [apply VC_same|].
  split; [unfold same_keys; auto|]. eexists. split; [reflexivity|]. left. split; [reflexivity|].
  exists (cl_retries (w_client w)), ((cl_ctr (w_client w) + 1) mod 4294967296). now destruct (w_client w).
Qed.
