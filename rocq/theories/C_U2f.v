(* Properties C45..C50, C52 and C53: U2F messages one at a time.  C49 and C51 over whole
   histories are in C_History. *)
From Verif Require Import Base M_Util M_Cbor M_Crypto M_Cose M_State M_Client M_Ctap M_U2f.
From Verif Require Import S_Crypto S_Cbor S_Cose S_State S_Client S_Ctap S_U2f.
From Verif Require Import P_Crypto P_Cbor P_Cbor2 P_U2f P_U2f2 P_Toy.

(* ---------------------------------------------------------------- C45 *)
Theorem C45_apdu_decoded : forall cla ins p1 p2 data le msg, apdu cla ins p1 p2 data le msg ->
  decode_u2f msg = Ok ({| uh_cla := cla; uh_cmd := ins; uh_p1 := p1; uh_p2 := p2 |}, data, le).
Proof. exact apdu_decoded. Qed.
Print Assumptions C45_apdu_decoded.

Example C45_example : apdu 0 1 3 0 [7; 8; 9] 256 [0; 1; 3; 0; 0; 0; 3; 7; 8; 9; 1; 0] /\
  apdu 0 3 0 0 [] 513 [0; 3; 0; 0; 0; 2; 1] /\ apdu 0 2 7 0 [5] 0 [0; 2; 7; 0; 0; 0; 1; 5].
Proof.
  split; [apply (Apdu4 0 1 3 0 [7; 8; 9] 256); [vm_compute; auto|lia]|].
  split; [apply (Apdu2 0 3 0 0 513); lia|apply (Apdu3 0 2 7 0 [5]); vm_compute; auto].
Qed.

(* ---------------------------------------------------------------- C46, C47 *)
Definition chal1 : bytes := be 32 1000.
Definition appA : bytes := be 32 2000.
Definition appB : bytes := be 32 3000.
Definition reg_msg (chal app : bytes) : bytes := [0; 1; 0; 0; 0; 0; 64] ++ (chal ++ app).
Definition auth_msg (control : N) (chal app h : bytes) : bytes :=
  [0; 2; control; 0; 0] ++ be 2 (len (authentication_data chal app h)) ++ authentication_data chal app h.

Theorem C46_registration : forall E w msg w' r, env_ok E -> client_ok E (w_client w) -> wfb msg ->
  nth_error msg 1 = Some 1 -> u2f_handle E msg w = (w', Ok r) ->
  exists p1 chal app ok, reads msg 1 p1 (chal ++ app) /\ len chal = 32 /\ len app = 32 /\
    w_client w' = w_client w /\ events w w' [EvAsk ActU2FRegister [] [] ok] /\
    ((ok = false /\ r = refused) \/
     (ok = true /\ exists pk x y h cert sig d, r = registration_reply pk h cert sig /\
        encodes_point pk (x, y) /\ x < 2 ^ 256 /\ y < 2 ^ 256 /\ len h = 194 /\
        ecdsa_verify (e_C E) (x, y) (sha256 (e_C E) (registration_signed app chal h pk)) sig = true /\
        (exists t, e_make_cert E t (cl_cert (w_client w)) (cl_certkey (w_client w))
                     (pub_ec {| eq_curve := P256; eq_x := x; eq_y := y |}) = Some cert) /\
        valid_scalar d /\ p256_pub (e_C E) d = (x, y) /\
        sealed (e_C E) (cl_key (w_client w)) h (sec1 d (x, y)) app)).
Proof. exact u2f_registration. Qed.
Print Assumptions C46_registration.

(* The relying party, who knows the challenge and application it sent and the lengths of the
   fixed fields, recovers key and handle uniquely from the response. *)
Theorem C46_reply_unambiguous : forall pk h cert sig pk' h' cert' sig', len pk = 65 -> len pk' = 65 ->
  registration_reply pk h cert sig = registration_reply pk' h' cert' sig' ->
  pk = pk' /\ h = h' /\ cert ++ sig = cert' ++ sig'.
Proof. exact reply_inj. Qed.
Print Assumptions C46_reply_unambiguous.

Lemma C46_request : apdu 0 1 0 0 (chal1 ++ appA) 0 (reg_msg chal1 appA) /\ wfb (reg_msg chal1 appA).
Proof.
  split; [|apply wfbb_iff; vm_compute; reflexivity].
  apply (Apdu3 0 1 0 0 (chal1 ++ appA)). vm_compute. split; reflexivity.
Qed.

(* Approved and refused. *)
Example C46_example : env_ok (toyE true) /\ client_ok (toyE true) (w_client (dev false)) /\
  nth_error (reg_msg chal1 appA) 1 = Some 1 /\
  (exists r, snd (u2f_handle (toyE true) (reg_msg chal1 appA) (dev false)) = Ok (5 :: r)) /\
  snd (u2f_handle (toyE false) (reg_msg chal1 appA) (dev false)) = Ok refused.
Proof.
  split; [apply toyE_ok|]. split; [apply dev_ok|]. split; [reflexivity|].
  split; [eexists; vm_compute; reflexivity|vm_compute; reflexivity].
Qed.

Theorem C47_handle_length : forall E w msg w' r, env_ok E -> client_ok E (w_client w) -> wfb msg ->
  nth_error msg 1 = Some 1 -> u2f_handle E msg w = (w', Ok r) ->
  r = refused \/ exists pk h cert sig, len pk = 65 /\ len h <= 255 /\ r = [5] ++ pk ++ [len h] ++ h ++ cert ++ sig ++ [0x90; 0].
Proof.
  intros E w msg w' r L K W I H.
  destruct (u2f_registration E w msg w' r L K W I H) as (p1 & chal & app & ok & _ & _ & _ & _ & _ & [[_ X]|[_ X]]); [left; exact X|].
  destruct X as (pk & x & y & h & cert & sig & d & X & P & _ & _ & Lh & _). right. exists pk, h, cert, sig.
  split; [eapply point_len; eauto|]. split; [rewrite Lh; vm_compute; discriminate|exact X].
Qed.
Print Assumptions C47_handle_length.
(* The hypotheses are those of C46. *)

(* ---------------------------------------------------------------- C48 *)
Theorem C48_own_handles : forall E w msg w' r, env_ok E -> client_ok E (w_client w) -> wfb msg ->
  nth_error msg 1 = Some 2 -> u2f_handle E msg w = (w', Ok r) ->
  r = refused \/ r = wrong_data \/ r = wrong_length \/
  exists control chal app h kb k n rnd es, asks msg control chal app h /\ len chal = 32 /\ len app = 32 /\
    sealed (e_C E) (cl_key (w_client w)) h kb app /\ ec_parse (e_C E) kb = Some k /\
    n = cl_ctr (w_client w) /\
    r = authentication_reply 1 n (ecdsa_sign (e_C E) (ec_d k) (sha256 (e_C E) (authentication_signed app 1 n chal)) rnd) /\
    w_client w' = set_ctr (w_client w) ((n + 1) mod 4294967296) /\
    events w w' es /\ ((control = 8 /\ es = []) \/ (control = 3 /\ es = [EvAsk ActU2FAuthenticate [] [] true])).
Proof. exact u2f_signs. Qed.
Print Assumptions C48_own_handles.

(* A handle binds one application and one private key. *)
Theorem C48_handle_binds : forall E w h kb kb' a a', env_ok E -> client_ok E (w_client w) -> wfb h ->
  sealed (e_C E) (cl_key (w_client w)) h kb a -> sealed (e_C E) (cl_key (w_client w)) h kb' a' -> kb = kb' /\ a = a'.
Proof. exact sealed_inj. Qed.
Print Assumptions C48_handle_binds.

(* The handle in a registration response of the toy device. *)
Definition reg_reply : bytes :=
  match snd (u2f_handle (toyE true) (reg_msg chal1 appA) (dev false)) with Ok r => r | Panic => [] end.
Definition handleA : bytes := takeN 194 (dropN 67 reg_reply).
Definition chal2 : bytes := be 32 5000.

Lemma auth_msg_ok control : apdu 0 2 control 0 (authentication_data chal2 appA handleA) 0 (auth_msg control chal2 appA handleA).
Proof. apply (Apdu3 0 2 control 0). vm_compute. split; reflexivity. Qed.

Example C48_example :
  (exists r, snd (u2f_handle (toyE true) (auth_msg 3 chal2 appA handleA) (dev false)) = Ok (1 :: r)) /\
  snd (u2f_handle (toyE true) (auth_msg 3 chal2 appB handleA) (dev false)) = Ok wrong_data.
Proof. split; [eexists|]; vm_compute; reflexivity. Qed.

(* ---------------------------------------------------------------- C49 *)
(* In any later state with the same sealing key. *)
Theorem C49_round_trip : forall E w1 cla1 p1 q1 chal1 app le1 msg1 w1' pk h cert sig w2 cla control p2 chal le msg,
  env_ok E -> client_ok E (w_client w1) -> client_ok E (w_client w2) -> wfb msg1 -> wfb msg ->
  len chal1 = 32 -> len app = 32 -> len chal = 32 -> len pk = 65 ->
  apdu cla1 1 p1 q1 (chal1 ++ app) le1 msg1 ->
  u2f_handle E msg1 w1 = (w1', Ok (registration_reply pk h cert sig)) ->
  cl_key (w_client w2) = cl_key (w_client w1) ->
  apdu cla 2 control p2 (authentication_data chal app h) le msg ->
  (control = 8 \/ (control = 3 /\ e_approve E (w_tick w2) ActU2FAuthenticate [] [] = true)) ->
  exists w2' x y sig2, encodes_point pk (x, y) /\ x < 2 ^ 256 /\ y < 2 ^ 256 /\
    u2f_handle E msg w2 = (w2', Ok (authentication_reply 1 (cl_ctr (w_client w2)) sig2)) /\
    ecdsa_verify (e_C E) (x, y) (sha256 (e_C E) (authentication_signed app 1 (cl_ctr (w_client w2)) chal)) sig2 = true.
Proof. exact u2f_round_trip. Qed.
Print Assumptions C49_round_trip.

Example C49_example : apdu 0 1 0 0 (chal1 ++ appA) 0 (reg_msg chal1 appA) /\
  apdu 0 2 3 0 (authentication_data chal2 appA handleA) 0 (auth_msg 3 chal2 appA handleA) /\
  exists cs, reg_reply = [5] ++ takeN 65 (dropN 1 reg_reply) ++ [len handleA] ++ handleA ++ cs ++ [0x90; 0].
Proof.
  split; [apply C46_request|]. split; [apply auth_msg_ok|].
  exists (takeN (len reg_reply - 263) (dropN 261 reg_reply)). vm_compute. reflexivity.
Qed.

(* ---------------------------------------------------------------- C50 *)
Definition C50_full : Prop := forall E w msg w' n sig, env_ok E -> client_ok E (w_client w) -> wfb msg ->
  u2f_handle E msg w = (w', Ok (authentication_reply 1 n sig)) ->
  nth_error msg 1 = Some 2 -> exists es, events w w' es /\ In (EvAsk ActU2FAuthenticate [] [] true) es.

(* Control byte 8 (do not enforce presence): signed with presence bit 1, nobody was asked. *)
Theorem C50_presence_refuted : exists E w msg w' n sig, env_ok E /\ client_ok E (w_client w) /\ wfb msg /\
  nth_error msg 1 = Some 2 /\ u2f_handle E msg w = (w', Ok (authentication_reply 1 n sig)) /\ events w w' [].
Proof.
  exists (toyE false), (dev false), (auth_msg 8 chal2 appA handleA).
  exists (fst (u2f_handle (toyE false) (auth_msg 8 chal2 appA handleA) (dev false))), 1.
  exists (match snd (u2f_handle (toyE false) (auth_msg 8 chal2 appA handleA) (dev false)) with
          | Ok r => takeN (len r - 7) (dropN 5 r) | Panic => [] end).
  split; [apply toyE_ok|]. split; [apply dev_ok|]. split; [apply wfbb_iff; vm_compute; reflexivity|].
  split; [reflexivity|]. split; vm_compute; reflexivity.
Qed.
Print Assumptions C50_presence_refuted.

Theorem C50_not_full : ~ C50_full.
Proof.
  intro F. destruct C50_presence_refuted as (E & w & msg & w' & n & sig & A & B & W & I & H & Ev).
  destruct (F E w msg w' n sig A B W H I) as (es & X & Y). unfold events in *. rewrite Ev in X.
  apply app_inv_head in X. subst es. destruct Y.
Qed.
Print Assumptions C50_not_full.

(* With every other control byte a signature needs an approval during the request. *)
Theorem C50_presence_partial : forall E w msg w' r, env_ok E -> client_ok E (w_client w) -> wfb msg ->
  nth_error msg 1 = Some 2 -> nth_error msg 2 <> Some 8 -> u2f_handle E msg w = (w', Ok r) ->
  r = refused \/ r = wrong_data \/ r = wrong_length \/
  (nth_error msg 2 = Some 3 /\ events w w' [EvAsk ActU2FAuthenticate [] [] true]).
Proof. exact u2f_presence. Qed.
Print Assumptions C50_presence_partial.

Theorem C50_check_only : forall E w msg w' r, env_ok E -> client_ok E (w_client w) -> wfb msg ->
  nth_error msg 1 = Some 2 -> nth_error msg 2 = Some 7 -> u2f_handle E msg w = (w', Ok r) ->
  w' = w /\ (r = refused \/ r = wrong_data).
Proof. exact u2f_check_only. Qed.
Print Assumptions C50_check_only.

Example C50_example :
  snd (u2f_handle (toyE true) (auth_msg 7 chal2 appA handleA) (dev false)) = Ok refused /\
  snd (u2f_handle (toyE true) (auth_msg 7 chal2 appB handleA) (dev false)) = Ok wrong_data /\
  snd (u2f_handle (toyE false) (auth_msg 3 chal2 appA handleA) (dev false)) = Ok refused /\
  snd (u2f_handle (toyE true) (auth_msg 4 chal2 appA handleA) (dev false)) = Ok wrong_length.
Proof. repeat split; vm_compute; reflexivity. Qed.

(* ---------------------------------------------------------------- C52 *)
Definition C52_full : Prop := forall E w cla control p2 chal app h le msg,
  env_ok E -> client_ok E (w_client w) -> wfb msg -> len chal = 32 -> len app = 32 -> len h < 256 ->
  apdu cla 2 control p2 (authentication_data chal app h) le msg ->
  (forall kb, ~ sealed (e_C E) (cl_key (w_client w)) h kb app) -> snd (u2f_handle E msg w) = Ok wrong_data.

(* The empty CBOR map is a box without data: [Open] panics. *)
Theorem C52_foreign_refuted : exists E w cla control p2 chal app h le msg,
  env_ok E /\ client_ok E (w_client w) /\ wfb msg /\ len chal = 32 /\ len app = 32 /\ len h < 256 /\
  apdu cla 2 control p2 (authentication_data chal app h) le msg /\
  (forall kb, ~ sealed (e_C E) (cl_key (w_client w)) h kb app) /\ snd (u2f_handle E msg w) = Panic.
Proof.
  exists (toyE true), (dev false), 0, 7, 0, chal2, appA, [0xA0], 0, (auth_msg 7 chal2 appA [0xA0]).
  split; [apply toyE_ok|]. split; [apply dev_ok|]. split; [apply wfbb_iff; vm_compute; reflexivity|].
  split; [reflexivity|]. split; [reflexivity|]. split; [reflexivity|].
  split; [apply (Apdu3 0 2 7 0); vm_compute; split; reflexivity|].
  split; [|vm_compute; reflexivity].
  intros kb (n & p & U & _). vm_compute in U. discriminate.
Qed.
Print Assumptions C52_foreign_refuted.

Theorem C52_not_full : ~ C52_full.
Proof.
  intro F. destruct C52_foreign_refuted as (E & w & cla & ct & p2 & ch & ap & h & le & msg & A1 & A2 & A3 & A4 & A5 & A6 & A7 & A8 & A9).
  specialize (F E w cla ct p2 ch ap h le msg A1 A2 A3 A4 A5 A6 A7 A8). rewrite A9 in F. discriminate.
Qed.
Print Assumptions C52_not_full.

(* A foreign handle never leads to anything but WRONG_DATA or the crash, and changes nothing. *)
Theorem C52_foreign_partial : forall E w cla control p2 chal app h rest le msg w' r,
  env_ok E -> client_ok E (w_client w) -> wfb msg -> len chal = 32 -> len app = 32 -> len h < 256 ->
  apdu cla 2 control p2 (authentication_data chal app h ++ rest) le msg ->
  (forall kb, ~ sealed (e_C E) (cl_key (w_client w)) h kb app) ->
  u2f_handle E msg w = (w', r) -> w' = w /\ (r = Ok wrong_data \/ r = Panic).
Proof. exact u2f_foreign. Qed.
Print Assumptions C52_foreign_partial.

(* Exactly when it crashes. *)
Theorem C52_crashes_iff : forall E w cla control p2 chal app h rest le msg,
  env_ok E -> client_ok E (w_client w) -> wfb msg -> len chal = 32 -> len app = 32 -> len h < 256 ->
  apdu cla 2 control p2 (authentication_data chal app h ++ rest) le msg ->
  (snd (u2f_handle E msg w) = Panic <->
   (exists bx, unmarshal dec_box h = Some bx /\ ~ own_box (e_C E) (cl_key (w_client w)) bx) \/
   exists kb, sealed (e_C E) (cl_key (w_client w)) h kb app /\ ec_parse (e_C E) kb = None).
Proof. exact u2f_auth_panics. Qed.
Print Assumptions C52_crashes_iff.

(* Handles that are not boxes at all, and handles of this device for another application. *)
Theorem C52_not_a_box : forall E w cla control p2 chal app h rest le msg,
  env_ok E -> client_ok E (w_client w) -> wfb msg -> len chal = 32 -> len app = 32 -> len h < 256 ->
  apdu cla 2 control p2 (authentication_data chal app h ++ rest) le msg ->
  unmarshal dec_box h = None -> u2f_handle E msg w = (w, Ok wrong_data).
Proof. exact u2f_not_box. Qed.
Print Assumptions C52_not_a_box.

Theorem C52_other_application : forall E w cla control p2 chal app h rest le msg kb app',
  env_ok E -> client_ok E (w_client w) -> wfb msg -> len chal = 32 -> len app = 32 -> len h < 256 ->
  apdu cla 2 control p2 (authentication_data chal app h ++ rest) le msg ->
  sealed (e_C E) (cl_key (w_client w)) h kb app' -> app' <> app -> u2f_handle E msg w = (w, Ok wrong_data).
Proof. exact u2f_other_app. Qed.
Print Assumptions C52_other_application.

Example C52_example : unmarshal dec_box [1; 2; 3] = None /\
  snd (u2f_handle (toyE true) (auth_msg 3 chal2 appA [1; 2; 3]) (dev false)) = Ok wrong_data /\
  appA <> appB /\ exists kb, sealed toy (cl_key (w_client (dev false))) handleA kb appA.
Proof.
  split; [vm_compute; reflexivity|]. split; [vm_compute; reflexivity|].
  split; [intro X; apply (f_equal (fun l => nth 31 l 0)) in X; vm_compute in X; discriminate|].
  destruct (u2f_handle (toyE true) (auth_msg 3 chal2 appA handleA) (dev false)) as [w' r] eqn:H.
  assert (R : exists q, r = Ok (1 :: q)).
  { change r with (snd (w', r)). rewrite <- H. eexists. vm_compute. reflexivity. }
  destruct R as [q ->].
  assert (W : wfb (auth_msg 3 chal2 appA handleA)) by (apply wfbb_iff; vm_compute; reflexivity).
  assert (I : nth_error (auth_msg 3 chal2 appA handleA) 1 = Some 2) by reflexivity.
  destruct (u2f_signs _ _ _ _ _ (toyE_ok true) (dev_ok true false) W I H) as [X|[X|[X|X]]]; [discriminate X|discriminate X|discriminate X|].
  destruct X as (c & ch & a & h & kb & k & n & rnd & es & A & _ & _ & S & _). exists kb.
  destruct (A 0 2 3 0 chal2 appA handleA [] 0) as (_ & _ & -> & ->); try exact S; try (vm_compute; reflexivity).
  rewrite app_nil_r. apply auth_msg_ok.
Qed.

(* ---------------------------------------------------------------- C53 *)
Definition C53_full : Prop := forall E w msg, env_ok E -> client_ok E (w_client w) -> wfb msg ->
  snd (u2f_handle E msg w) <> Panic.

Theorem C53_version : forall E w cla p1 p2 data le msg, apdu cla 3 p1 p2 data le msg ->
  u2f_handle E msg w = (w, Ok ([85; 50; 70; 95; 86; 50] ++ [0x90; 0])).
Proof. exact u2f_version. Qed.
Print Assumptions C53_version.

(* An unknown instruction, a registration with 63 bytes of data, a message of three bytes. *)
Theorem C53_total_refuted : exists E w, env_ok E /\ client_ok E (w_client w) /\
  (exists cla p1 p2 data le msg, apdu cla 4 p1 p2 data le msg /\ wfb msg /\ snd (u2f_handle E msg w) = Panic) /\
  (exists cla p1 p2 data le msg, apdu cla 1 p1 p2 data le msg /\ wfb msg /\ snd (u2f_handle E msg w) = Panic) /\
  (exists msg, len msg = 3 /\ wfb msg /\ snd (u2f_handle E msg w) = Panic).
Proof.
  exists (toyE true), (dev false). split; [apply toyE_ok|]. split; [apply dev_ok|]. split; [|split].
  - exists 0, 0, 0, [], 0, [0; 4; 0; 0]. split; [constructor|]. split; [apply wfbb_iff|]; vm_compute; reflexivity.
  - exists 0, 0, 0, (repeat 7 63), 0, ([0; 1; 0; 0] ++ [0] ++ be 2 (len (repeat 7 63)) ++ repeat 7 63).
    split; [apply (Apdu3 0 1 0 0); vm_compute; split; reflexivity|]. split; [apply wfbb_iff|]; vm_compute; reflexivity.
  - exists [0; 3; 0]. split; [reflexivity|]. split; [apply wfbb_iff|]; vm_compute; reflexivity.
Qed.
Print Assumptions C53_total_refuted.

Theorem C53_not_full : ~ C53_full.
Proof.
  intro F. destruct C53_total_refuted as (E & w & A & B & _ & _ & (msg & _ & W & P)). exact (F E w msg A B W P).
Qed.
Print Assumptions C53_not_full.

(* Well-formed requests: registrations with 64 bytes of data (when certificates can be made);
   authentications are covered by C52_crashes_iff. *)
Theorem C53_register_total_partial : forall E w cla p1 p2 data le msg w',
  env_ok E -> client_ok E (w_client w) ->
  can_certify E (w_client w) -> apdu cla 1 p1 p2 data le msg -> len data = 64 ->
  u2f_handle E msg w <> (w', Panic).
Proof. exact u2f_register_total. Qed.
Print Assumptions C53_register_total_partial.

Example C53_example : can_certify (toyE true) (w_client (dev false)) /\ len (chal1 ++ appA) = 64 /\
  apdu 9 3 0 0 [] 256 [9; 3; 0; 0; 0; 1; 0].
Proof. split; [intros t d _; discriminate|]. split; [reflexivity|]. apply (Apdu2 9 3 0 0 256). lia. Qed.
