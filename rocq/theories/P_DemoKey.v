(* Proofs about the constant key of the demo. *)
From Verif Require Import Base M_Str M_Cbor M_Crypto M_Cose M_State M_Client M_Ctap M_U2f M_History M_DemoClient.
From Verif Require Import S_Crypto S_Cbor S_Cose S_State S_Client S_U2f S_History S_DemoKey.
From Verif Require Import P_Crypto P_Client P_U2f P_U2f2 P_History P_History2.

Lemma demo_key_kept E h w : env_ok E -> history E h true w -> starts_ok E h -> by_demo E h ->
  cl_key (w_client w) = sha256 (e_C E) (str "test").
Proof.
  intros L H ST D. refine (proj1 (key_kept E (sha256 (e_C E) (str "test")) h true w L H ST _) eq_refl).
  intros p I. destruct (D p I) as (cert & k & ->). reflexivity.
Qed.

Lemma demo_handles E h1 w1 msg1 w1' cla1 p1 q1 chal1 app le1 pk h cert sig h2 w2 cla control p2 chal le msg :
  env_ok E -> history E h1 true w1 -> starts_ok E h1 -> by_demo E h1 -> history E h2 true w2 -> starts_ok E h2 -> by_demo E h2 ->
  wfb msg1 -> wfb msg -> len chal1 = 32 -> len app = 32 -> len chal = 32 -> len pk = 65 ->
  apdu cla1 1 p1 q1 (chal1 ++ app) le1 msg1 -> u2f_handle E msg1 w1 = (w1', Ok (registration_reply pk h cert sig)) ->
  apdu cla 2 control p2 (authentication_data chal app h) le msg ->
  (control = 8 \/ (control = 3 /\ e_approve E (w_tick w2) ActU2FAuthenticate [] [] = true)) ->
  exists w2' x y sig2, encodes_point pk (x, y) /\ x < 2 ^ 256 /\ y < 2 ^ 256 /\
    u2f_handle E msg w2 = (w2', Ok (authentication_reply 1 (cl_ctr (w_client w2)) sig2)) /\
    ecdsa_verify (e_C E) (x, y) (sha256 (e_C E) (authentication_signed app 1 (cl_ctr (w_client w2)) chal)) sig2 = true.
Proof.
  intros L H1 S1 D1 H2 S2 D2 W1 W2 L1 L2 L3 L4 A1 R A2 CT.
  destruct (history_inv _ _ _ _ L H1 S1) as (V1 & _ & K1 & _). destruct (history_inv _ _ _ _ L H2 S2) as (V2 & _ & K2 & _).
  destruct (K1 eq_refl) as [C1 _]. destruct (K2 eq_refl) as [C2 _].
  apply (u2f_round_trip E w1 cla1 p1 q1 chal1 app le1 msg1 w1' pk h cert sig w2 cla control p2 chal le msg); auto.
  rewrite (demo_key_kept E h1 w1), (demo_key_kept E h2 w2); auto.
Qed.

Lemma demo_opens E h1 w1 msg1 w1' pk h cert sig :
  env_ok E -> history E h1 true w1 -> starts_ok E h1 -> by_demo E h1 -> wfb msg1 -> nth_error msg1 1 = Some 1 -> len pk = 65 ->
  u2f_handle E msg1 w1 = (w1', Ok (registration_reply pk h cert sig)) ->
  exists d x y app, encodes_point pk (x, y) /\ valid_scalar d /\ p256_pub (e_C E) d = (x, y) /\
    sealed (e_C E) (sha256 (e_C E) (str "test")) h (sec1 d (x, y)) app.
Proof.
  intros L H1 S1 D1 W I Lp R. destruct (history_inv _ _ _ _ L H1 S1) as (V1 & _ & K1 & _). destruct (K1 eq_refl) as [C1 _].
  destruct (u2f_registration E w1 msg1 w1' _ L C1 W I R) as (p & chal & app & ok & _ & _ & _ & _ & _ & [[_ X]|[_ X]]); [discriminate X|].
  destruct X as (pk' & x & y & h' & cert' & sig' & d & Q & Ep & _ & _ & _ & _ & _ & V & P & S).
  apply reply_inj in Q as (-> & -> & _); [|assumption|eapply point_len; eauto].
  rewrite (demo_key_kept E h1 w1) in S by assumption. exists d, x, y, app. auto.
Qed.
