(* Property C119: the key handles of the demo. *)
From Verif Require Import Base M_Str M_Cbor M_Crypto M_Cose M_State M_Client M_Ctap M_U2f M_History M_DemoClient.
From Verif Require Import S_Crypto S_Cbor S_Cose S_State S_Client S_U2f S_History S_DemoKey.
From Verif Require Import P_Crypto P_Client P_U2f P_U2f2 P_History P_History2 P_Toy P_ToyHist P_DemoKey C_U2f C_History.

(* A demo device refuses a handle that another one gave out. *)
Definition C119_full : Prop :=
  forall E h1 w1 msg1 w1' cla1 p1 q1 chal1 app le1 pk h cert sig h2 w2 cla control p2 chal le msg w2' r,
  env_ok E -> history E h1 true w1 -> starts_ok E h1 -> by_demo E h1 -> history E h2 true w2 -> starts_ok E h2 -> by_demo E h2 ->
  wfb msg1 -> wfb msg -> len chal1 = 32 -> len app = 32 -> len chal = 32 -> len pk = 65 ->
  apdu cla1 1 p1 q1 (chal1 ++ app) le1 msg1 -> u2f_handle E msg1 w1 = (w1', Ok (registration_reply pk h cert sig)) ->
  (forall m r pk' h' c' s', In (HDone (IU2f m) (OBytes r)) h2 -> r = registration_reply pk' h' c' s' -> h' <> h) ->
  apdu cla 2 control p2 (authentication_data chal app h) le msg -> u2f_handle E msg w2 = (w2', r) ->
  r = Ok wrong_data.

(* Every demo device accepts the handles of every other: *)
Theorem C119_accepted : forall E h1 w1 msg1 w1' cla1 p1 q1 chal1 app le1 pk h cert sig h2 w2 cla control p2 chal le msg,
  env_ok E -> history E h1 true w1 -> starts_ok E h1 -> by_demo E h1 -> history E h2 true w2 -> starts_ok E h2 -> by_demo E h2 ->
  wfb msg1 -> wfb msg -> len chal1 = 32 -> len app = 32 -> len chal = 32 -> len pk = 65 ->
  apdu cla1 1 p1 q1 (chal1 ++ app) le1 msg1 -> u2f_handle E msg1 w1 = (w1', Ok (registration_reply pk h cert sig)) ->
  apdu cla 2 control p2 (authentication_data chal app h) le msg ->
  (control = 8 \/ (control = 3 /\ e_approve E (w_tick w2) ActU2FAuthenticate [] [] = true)) ->
  exists w2' x y sig2, encodes_point pk (x, y) /\ x < 2 ^ 256 /\ y < 2 ^ 256 /\
    u2f_handle E msg w2 = (w2', Ok (authentication_reply 1 (cl_ctr (w_client w2)) sig2)) /\
    ecdsa_verify (e_C E) (x, y) (sha256 (e_C E) (authentication_signed app 1 (cl_ctr (w_client w2)) chal)) sig2 = true.
Proof. exact demo_handles. Qed.
Print Assumptions C119_accepted.

(* the key that seals them is the hash of "test", after any history, *)
Theorem C119_constant_key : forall E h w, env_ok E -> history E h true w -> starts_ok E h -> by_demo E h ->
  cl_key (w_client w) = sha256 (e_C E) (str "test").
Proof. exact demo_key_kept. Qed.
Print Assumptions C119_constant_key.

(* so that whoever sees the answer to a registration has the private key. *)
Theorem C119_opened : forall E h1 w1 msg1 w1' pk h cert sig,
  env_ok E -> history E h1 true w1 -> starts_ok E h1 -> by_demo E h1 -> wfb msg1 -> nth_error msg1 1 = Some 1 -> len pk = 65 ->
  u2f_handle E msg1 w1 = (w1', Ok (registration_reply pk h cert sig)) ->
  exists d x y app, encodes_point pk (x, y) /\ valid_scalar d /\ p256_pub (e_C E) d = (x, y) /\
    sealed (e_C E) (sha256 (e_C E) (str "test")) h (sec1 d (x, y)) app.
Proof. exact demo_opens. Qed.
Print Assumptions C119_opened.

(* With a key of its own that does not seal the handle, a device refuses it, though by a panic perhaps (C52). *)
Theorem C119_own_key_partial : forall E w2 cla control p2 chal app h le msg w2' r,
  env_ok E -> client_ok E (w_client w2) -> wfb msg -> len chal = 32 -> len app = 32 -> len h < 256 ->
  apdu cla 2 control p2 (authentication_data chal app h) le msg ->
  (forall kb, ~ sealed (e_C E) (cl_key (w_client w2)) h kb app) ->
  u2f_handle E msg w2 = (w2', r) -> w2' = w2 /\ (r = Ok wrong_data \/ r = Panic).
Proof.
  intros E w2 cla control p2 chal app h le msg w2' r L K W L1 L2 L3 A N H.
  apply (u2f_foreign E w2 cla control p2 chal app h [] le msg); auto. now rewrite app_nil_r.
Qed.
Print Assumptions C119_own_key_partial.

(* Two demo devices with authorities of their own. *)
Definition demoA : params := demo_params toy [48; 0] (priv_ec (ec_key toy 5)).
Definition demoB : params := demo_params toy [48; 0] (priv_ec (ec_key toy 6)).
Lemma demo_ok n : n < 2 -> params_ok (toyE true) (demo_params toy [48; 0] (priv_ec (ec_key toy (5 + n)))).
Proof.
  intro H. split; [split; [right; right; vm_compute; reflexivity|apply wfbb_iff; vm_compute; reflexivity]|].
  split; [split; [apply wfbb_iff; reflexivity|reflexivity]|].
  apply ec_stable; [apply toy_laws|]. split; [lia|]. apply N.le_lt_trans with 6; [lia|vm_compute; reflexivity].
Qed.
Definition at_tick (t : N) : world := {| w_client := w_client blank; w_tick := t; w_trace := [] |}.
Definition wA : world := fst (start (toyE true) demoA None (at_tick 0)).
Definition wB : world := fst (start (toyE true) demoB None (at_tick 100)).
Lemma demo_history t p : params_ok (toyE true) p -> (exists c k, p = demo_params toy c k) ->
  snd (start (toyE true) p None (at_tick t)) = Ok tt ->
  history (toyE true) [HStart p] true (fst (start (toyE true) p None (at_tick t))) /\ starts_ok (toyE true) [HStart p] /\ by_demo (toyE true) [HStart p].
Proof.
  intros P D S. split; [|split].
  - apply (H_start (toyE true) [] (at_tick t) p); [apply H_new|]. rewrite <- S. apply surjective_pairing.
  - intros q [[Q|[]]|[Q|[]]]; [now injection Q as <-|discriminate Q].
  - intros q [Q|[]]. injection Q as <-. exact D.
Qed.
Definition hA := demo_history 0 demoA (demo_ok 0 eq_refl) (ex_intro _ _ (ex_intro _ _ eq_refl)) eq_refl.
Definition hB := demo_history 100 demoB (demo_ok 1 eq_refl) (ex_intro _ _ (ex_intro _ _ eq_refl)) eq_refl.

Definition regAB : bytes := Eval vm_compute in match snd (u2f_handle (toyE true) (reg_msg chal1 appA) wA) with Ok r => r | Panic => [] end.
Definition pkAB : bytes := Eval vm_compute in takeN 65 (dropN 1 regAB).
Definition handleAB : bytes := Eval vm_compute in takeN 194 (dropN 67 regAB).
Definition tailAB : bytes := Eval vm_compute in takeN (len regAB - 263) (dropN 261 regAB).
Lemma regAB_is : u2f_handle (toyE true) (reg_msg chal1 appA) wA =
  (fst (u2f_handle (toyE true) (reg_msg chal1 appA) wA), Ok (registration_reply pkAB handleAB tailAB [])).
Proof. rewrite (surjective_pairing (u2f_handle _ _ _)) at 1. f_equal; vm_compute; reflexivity. Qed.

Theorem C119_demo_refuted : ~ C119_full.
Proof.
  intro H. destruct hA as (A1 & A2 & A3). destruct hB as (B1 & B2 & B3). destruct C46_request as [R1 R2].
  set (q := u2f_handle (toyE true) (auth_msg 8 chal2 appA handleAB) wB).
  assert (X : snd q = Ok wrong_data).
  { apply (H (toyE true) [HStart demoA] wA (reg_msg chal1 appA) (fst (u2f_handle (toyE true) (reg_msg chal1 appA) wA)) 0 0 0 chal1 appA 0
      pkAB handleAB tailAB [] [HStart demoB] wB 0 8 0 chal2 0 (auth_msg 8 chal2 appA handleAB) (fst q) (snd q) (toyE_ok true)); auto.
    - apply wfbb_iff. vm_compute. reflexivity.
    - intros m r pk' h' c' s' [I|[]]. discriminate I.
    - apply (Apdu3 0 2 8 0). vm_compute. split; reflexivity. }
  vm_compute in X. discriminate X.
Qed.
Print Assumptions C119_demo_refuted.

Example C119_example : history (toyE true) [HStart demoA] true wA /\ history (toyE true) [HStart demoB] true wB /\
  by_demo (toyE true) [HStart demoA] /\ by_demo (toyE true) [HStart demoB] /\ pa_certkey demoA <> pa_certkey demoB /\
  (exists r, snd (u2f_handle (toyE true) (reg_msg chal1 appA) wA) = Ok (5 :: r)) /\
  (exists r, snd (u2f_handle (toyE true) (auth_msg 8 chal2 appA handleAB) wB) = Ok (1 :: r)) /\
  (forall kb, ~ sealed toy (cl_key (w_client (dev false))) handleAB kb appA).
Proof.
  destruct hA as (A1 & A2 & A3). destruct hB as (B1 & B2 & B3). do 4 (split; [assumption|]). split; [vm_compute; discriminate|].
  split; [eexists; vm_compute; reflexivity|]. split; [eexists; vm_compute; reflexivity|].
  intros kb S. apply (open_sealed (toyE true)) in S as (a & S & _); [|apply toyE_ok|apply (co_key (toyE true) _ (dev_ok true false))|apply wfbb_iff; vm_compute; reflexivity].
  vm_compute in S. discriminate S.
Qed.
