(* Properties C109..C111: what the log of the authenticators tells.
   [shows l v]: a line that is not of the kind "unsafe" shows the value [v]; [discreet h P]: such lines
   are determined by message and answer, in all exchanges that satisfy [P]. *)
From Verif Require Import Base M_Str M_Cbor M_Crypto M_Cose M_State M_Client M_Ctap M_U2f M_Log M_Logged M_Console.
From Verif Require Import S_Crypto S_Cbor S_Client S_Ctap S_CtapReq S_Pin S_U2f S_Log S_Logged.
From Verif Require Import P_Ctap P_Ctap2 P_Ctap3 P_Pin P_U2f P_U2f2 P_Logged P_Logged2 P_Console P_Crypto P_Toy C_U2f.

(* ---------------------------------------------------------------- C109 *)
(* The full statement: the log of the CTAP server tells nothing but what both ends know anyway. *)
Definition C109_full : Prop := discreet ctap_logged (fun _ _ => True).

(* The logging handler is the handler of the other theorems. *)
Theorem C109_same_handler : forall E msg w w' l r, ctap_logged E msg w = (w', l, r) -> ctap_handle E msg w = (w', r).
Proof. intros E msg w w' l r H. exact (erased_run _ _ _ _ _ _ (ctap_erased E msg) H). Qed.
Print Assumptions C109_same_handler.

(* It holds unless a PIN is set or tried. *)
Theorem C109_discreet_partial : discreet ctap_logged (fun msg r => ~ pin_exchange msg r).
Proof. exact ctap_discreet. Qed.
Print Assumptions C109_discreet_partial.

(* Whenever a PIN is tried, rightly or wrongly, the stored hash is logged, and whenever one is set the
   new one; ... *)
Theorem C109_hash_shown : forall E data a w w' l r, env_ok E -> client_ok E (w_client w) ->
  unmarshal dec_cp data = Some a -> ctap_logged E (6 :: data) w = (w', l, r) ->
  (pn_sub a = 3 -> r = Ok [0] -> exists h, cl_hash (w_client w') = Some h /\ shows l (ShBytes h)) /\
  (pn_sub a = 5 -> r = Ok [49] \/ (exists b, r = Ok (0 :: b)) -> shows l (ShBytes (or_nil (cl_hash (w_client w))))).
Proof. exact pin_shown. Qed.
Print Assumptions C109_hash_shown.

(* ... and whoever knows the stored hash gets the PIN token without the PIN. *)
Theorem C109_hash_suffices : forall E p z s w h v b, env_ok E -> valid_scalar p -> client_ok E (w_client w) ->
  cl_pin (w_client w) = true -> cl_hash (w_client w) = Some h -> (0 < cl_retries (w_client w))%Z ->
  platform_secret (e_C E) p (p256_pub (e_C E) (cl_ka (w_client w))) z s -> 2 ^ 248 <= z ->
  hash_request (e_C E) p s h v -> canonical v b ->
  exists w' r enc, ctap_handle E (6 :: b) w = (w', Ok r) /\ response (token_doc enc) r /\
    enciphers (e_C E) s (cl_token (w_client w)) enc.
Proof. intros E p z s w h v b EO Vp K P HN R Sh Z. apply (hash_step E p z s w h v b EO Vp K P HN R (conj Sh Z)). Qed.
Print Assumptions C109_hash_suffices.

(* One wrong guess and the log are enough to get the PIN token: for every device with a PIN and two
   tries left. *)
Theorem C109_guess_refuted : forall E w data a w' l h p z s v b, env_ok E -> client_ok E (w_client w) -> wfb data ->
  cl_pin (w_client w) = true -> cl_hash (w_client w) = Some h -> (1 < cl_retries (w_client w))%Z ->
  unmarshal dec_cp data = Some a -> pn_sub a = 5 -> ctap_logged E (6 :: data) w = (w', l, Ok [49]) ->
  valid_scalar p -> platform_secret (e_C E) p (p256_pub (e_C E) (cl_ka (w_client w))) z s -> 2 ^ 248 <= z ->
  hash_request (e_C E) p s h v -> canonical v b ->
  shows l (ShBytes h) /\
  exists w2 r enc, ctap_handle E (6 :: b) w' = (w2, Ok r) /\ response (token_doc enc) r /\
    enciphers (e_C E) s (cl_token (w_client w)) enc.
Proof.
  intros E w data a w' l h p z s v b EO K W P HN R U S H Vp Sh Z Hr Hb.
  destruct (pin_shown E data a w w' l _ EO K U H) as [_ X]. rewrite HN in X. split; [apply X; auto|].
  pose proof (C109_same_handler _ _ _ _ _ _ H) as H0. pose proof H0 as H1.
  apply ctap_effect in H1; auto; [|apply wfb_cons; split; [unfold byte_ok; lia|exact W]]. destruct H1 as (K' & _).
  apply pin_run in H0; auto. inversion H0 as [| | |? ? ? U' ? Q| | |a' k s' dec ? U' ? ? ? ? ? ? ?| | |]; subst; try congruence.
  - inversion Q; congruence.
  - destruct (C109_hash_suffices E p z s _ h v b EO Vp K') as (w2 & r & enc & A); auto; cbn [w_client set_retries cl_retries cl_hash cl_pin] in *; auto; [lia|].
    exists w2, r, enc. exact A.
Qed.
Print Assumptions C109_guess_refuted.

(* After pin1 was set; and after pin2 was.  Both answer a third PIN with the same refusal. *)
Definition w_pin (pin : bytes) : world := fst (run (toyE true) [msg_set far pin] (dev true)).
Definition pin3 : bytes := [57; 57; 57; 57].
Lemma w_pin_ok pin : wfbb (msg_set far pin) = true -> client_ok (toyE true) (w_client (w_pin pin)).
Proof. intro W. apply run_ok; [apply toyE_ok| |apply dev_ok]. constructor; [apply wfbb_iff, W|constructor]. Qed.

Definition part1 {A B C} (x : A * B * C) : A := fst (fst x).
Definition part2 {A B C} (x : A * B * C) : B := snd (fst x).
Lemma parts {A B C} (x : A * B * C) c : snd x = c -> x = (part1 x, part2 x, c).
Proof. destruct x as [[a b] c']. cbn. congruence. Qed.

Theorem C109_not_full : ~ C109_full.
Proof.
  intros (pub & F).
  assert (G : forall pin, wfbb (msg_set far pin) = true -> snd (ctap_logged (toyE true) (msg_token far pin3) (w_pin pin)) = Ok [49] ->
    visible (part2 (ctap_logged (toyE true) (msg_token far pin3) (w_pin pin))) = pub (msg_token far pin3) (Ok [49])).
  { intros pin W R. eapply F; [apply toyE_ok|apply w_pin_ok, W|apply wfbb_iff; vm_compute; reflexivity|now apply parts|exact I]. }
  pose proof (G pin1 ltac:(vm_compute; reflexivity) ltac:(vm_compute; reflexivity)) as A.
  pose proof (G pin2 ltac:(vm_compute; reflexivity) ltac:(vm_compute; reflexivity)) as B.
  rewrite <- B in A. vm_compute in A. discriminate A.
Qed.
Print Assumptions C109_not_full.

(* The hypotheses of C109_guess_refuted. *)
Definition doc_hash (p : N) (h : bytes) : cbor :=
  cp_request 5 (Some (platform_key toy p)) None None (Some (toy_enc (secret p) h)).
Example C109_example :
  exists a, unmarshal dec_cp (tl (msg_token far pin3)) = Some a /\ pn_sub a = 5 /\
  cl_pin (w_client (w_pin pin1)) = true /\ cl_hash (w_client (w_pin pin1)) = Some (half (toy_hash pin1)) /\
  (1 < cl_retries (w_client (w_pin pin1)))%Z /\
  snd (ctap_logged (toyE true) (msg_token far pin3) (w_pin pin1)) = Ok [49] /\
  length (visible (part2 (ctap_logged (toyE true) (msg_token far pin3) (w_pin pin1)))) = 5%nat /\
  platform_secret toy far (p256_pub toy (cl_ka (w_client (w_pin pin1)))) (far * 2) (secret far) /\
  hash_request toy far (secret far) (half (toy_hash pin1)) (doc_hash far (half (toy_hash pin1))).
Proof.
  eexists. split; [vm_compute; reflexivity|]. do 6 (split; [vm_compute; reflexivity|]).
  split; [split; vm_compute; reflexivity|]. eexists. split; [|reflexivity].
  apply encrypt_enciphers; [apply toy_laws|]. vm_compute. reflexivity.
Qed.

(* A registration and a login: nothing more than what the messages say, in three and four lines. *)
Example C109_quiet :
  map en_text (visible (part2 (ctap_logged (toyE true) (msg_mc rpA None) (dev false)))) =
    [str "CTAP COMMAND: %s"; str "MAKE CREDENTIAL: %s"; str "MAKE CREDENTIAL RESPONSE: %#v"] /\
  map en_text (part2 (ctap_logged (toyE true) (msg_ga rpA None None None) two)) =
    [str "CTAP COMMAND: %s"; str "GET ASSERTION: %#v"; str "CREDENTIAL SOURCE: %#v"; str "GET ASSERTION RESPONSE: %#v"] /\
  (exists r, snd (ctap_logged (toyE true) (msg_mc rpA None) (dev false)) = Ok (0 :: r)) /\
  forall r, ~ pin_exchange (msg_mc rpA None) r.
Proof.
  split; [vm_compute; reflexivity|]. split; [vm_compute; reflexivity|]. split; [eexists; vm_compute; reflexivity|].
  intros r (data & a & X & _). discriminate X.
Qed.

(* ---------------------------------------------------------------- C110 *)
Definition C110_full : Prop := discreet u2f_logged (fun _ _ => True).

Theorem C110_same_handler : forall E msg w w' l r, u2f_logged E msg w = (w', l, r) -> u2f_handle E msg w = (w', r).
Proof. intros E msg w w' l r H. exact (erased_run _ _ _ _ _ _ (u2f_erased E msg) H). Qed.
Print Assumptions C110_same_handler.

(* It holds unless a registration is refused or crashes, or a handle that is a box is answered with
   "wrong data". *)
Theorem C110_discreet_partial : discreet u2f_logged (fun msg r => ~ handle_exchange msg r).
Proof. exact u2f_discreet. Qed.
Print Assumptions C110_discreet_partial.

(* Whoever presents a handle of the device with another application gets the private key of the
   registration into the log. *)
Theorem C110_private_key_refuted : forall E w1 cla1 p1 q1 chal1 app1 le1 msg1 w1' pk h cert sig w2 cla control p2 chal app le msg w2' l r,
  env_ok E -> client_ok E (w_client w1) -> client_ok E (w_client w2) -> wfb msg1 -> wfb msg ->
  len chal1 = 32 -> len app1 = 32 -> len chal = 32 -> len app = 32 -> len pk = 65 -> len h < 256 ->
  apdu cla1 1 p1 q1 (chal1 ++ app1) le1 msg1 ->
  u2f_handle E msg1 w1 = (w1', Ok (registration_reply pk h cert sig)) ->
  cl_key (w_client w2) = cl_key (w_client w1) -> app <> app1 ->
  apdu cla 2 control p2 (authentication_data chal app h) le msg -> u2f_logged E msg w2 = (w2', l, r) ->
  r = Ok wrong_data /\ exists k kb d, shows l (ShHandle k) /\ kh_key k = Some kb /\
    ec_parse (e_C E) kb = Some (ec_key (e_C E) d) /\ encodes_point pk (p256_pub (e_C E) d).
Proof. exact registered_key_shown. Qed.
Print Assumptions C110_private_key_refuted.

(* Of a registration that the user refuses the log shows a handle that the device accepts. *)
Theorem C110_refused_refuted : forall E w1 cla1 p1 q1 chal1 app le1 msg1 w1' l,
  env_ok E -> client_ok E (w_client w1) -> wfb msg1 -> len chal1 = 32 -> len app = 32 ->
  apdu cla1 1 p1 q1 (chal1 ++ app) le1 msg1 -> u2f_logged E msg1 w1 = (w1', l, Ok refused) ->
  exists h q, shows l (ShBytes h) /\
    forall w2 cla control p2 chal le msg, client_ok E (w_client w2) -> cl_key (w_client w2) = cl_key (w_client w1) ->
      wfb msg -> len chal = 32 -> apdu cla 2 control p2 (authentication_data chal app h) le msg ->
      (control = 8 \/ (control = 3 /\ e_approve E (w_tick w2) ActU2FAuthenticate [] [] = true)) ->
      exists w2' sig, u2f_handle E msg w2 = (w2', Ok (authentication_reply 1 (cl_ctr (w_client w2)) sig)) /\
        ecdsa_verify (e_C E) q (sha256 (e_C E) (authentication_signed app 1 (cl_ctr (w_client w2)) chal)) sig = true.
Proof. exact refused_works. Qed.
Print Assumptions C110_refused_refuted.

(* The same device a little later: the same message and the same refusal, another handle. *)
Definition later : world := {| w_client := w_client (dev false); w_tick := 50; w_trace := [] |}.
Theorem C110_not_full : ~ C110_full.
Proof.
  intros (pub & F).
  assert (G : forall w, w_client w = w_client (dev false) -> snd (u2f_logged (toyE false) (reg_msg chal1 appA) w) = Ok refused ->
    visible (part2 (u2f_logged (toyE false) (reg_msg chal1 appA) w)) = pub (reg_msg chal1 appA) (Ok refused)).
  { intros w W R. eapply F; [apply toyE_ok|rewrite W; apply dev_ok|apply C46_request|now apply parts|exact I]. }
  pose proof (G (dev false) eq_refl ltac:(vm_compute; reflexivity)) as A.
  pose proof (G later eq_refl ltac:(vm_compute; reflexivity)) as B.
  rewrite <- B in A. vm_compute in A. discriminate A.
Qed.
Print Assumptions C110_not_full.

Example C110_example :
  snd (u2f_logged (toyE true) (auth_msg 7 chal2 appB handleA) (dev false)) = Ok wrong_data /\ appB <> appA /\
  (exists k, In (debug (str "U2F AUTHENTICATE: Invalid input data %#v") [ShHandle {| kh_key := Some k; kh_app := Some appA |}])
     (part2 (u2f_logged (toyE true) (auth_msg 7 chal2 appB handleA) (dev false)))) /\
  snd (u2f_logged (toyE false) (reg_msg chal1 appA) (dev false)) = Ok refused /\
  (exists r, snd (u2f_logged (toyE true) (reg_msg chal1 appA) (dev false)) = Ok (5 :: r)) /\
  forall r, ~ handle_exchange (reg_msg chal1 appA) (Ok (5 :: r)).
Proof.
  split; [vm_compute; reflexivity|]. split; [vm_compute; discriminate|].
  split. { eexists. vm_compute. right. left. reflexivity. }
  split; [vm_compute; reflexivity|]. split; [eexists; vm_compute; reflexivity|].
  intros r [(_ & [X|X])|(c & ch & ap & h & bx & _ & X & _)]; discriminate X.
Qed.

(* ---------------------------------------------------------------- C111 *)
(* The settings of the demo: lines of kind debug are shown, unsafe ones never. *)
Theorem C111_demo_settings : forall verbose, exists s, M_Log.log_run (demo_log verbose) log_start = Ok s /\
  demo_settings (demo_log verbose) 1.
Proof. exact demo_log_settings. Qed.
Print Assumptions C111_demo_settings.

(* With such settings, whatever was logged before: what one CTAP or U2F message adds to the console is
   determined by the message and its answer; in particular no private key of a credential. *)
Theorem C111_console_partial : forall cs s o render, M_Log.log_run cs log_start = Ok s -> demo_settings cs o ->
  exists ctap u2f : bytes -> res bytes -> list (N * bytes),
  forall E w msg w' l r, env_ok E -> client_ok E (w_client w) -> wfb msg ->
    (ctap_logged E msg w = (w', l, r) -> ~ pin_exchange msg r ->
     exists s', M_Log.log_run (map (print render) l) s = Ok s' /\ sink s' = sink s ++ ctap msg r) /\
    (u2f_logged E msg w = (w', l, r) -> ~ handle_exchange msg r ->
     exists s', M_Log.log_run (map (print render) l) s = Ok s' /\ sink s' = sink s ++ u2f msg r).
Proof.
  intros cs s o render R D.
  destruct (demo_console _ _ cs s o ctap_tame ctap_discreet R D render) as (p1 & H1).
  destruct (demo_console _ _ cs s o u2f_tame u2f_discreet R D render) as (p2 & H2).
  exists p1, p2. intros E w msg w' l r EO K W. split; intros H N; [eapply H1|eapply H2]; eauto.
Qed.
Print Assumptions C111_console_partial.

(* The full statement is without the two restrictions. *)
Definition C111_full : Prop := forall cs s o render, M_Log.log_run cs log_start = Ok s -> demo_settings cs o ->
  exists ctap u2f : bytes -> res bytes -> list (N * bytes),
  forall E w msg w' l r, env_ok E -> client_ok E (w_client w) -> wfb msg ->
    (ctap_logged E msg w = (w', l, r) ->
     exists s', M_Log.log_run (map (print render) l) s = Ok s' /\ sink s' = sink s ++ ctap msg r) /\
    (u2f_logged E msg w = (w', l, r) ->
     exists s', M_Log.log_run (map (print render) l) s = Ok s' /\ sink s' = sink s ++ u2f msg r).

(* Every value that a line shows gets to the console with the text of the line. *)
Theorem C111_secrets_refuted : forall cs s o render E w msg w' l r v, M_Log.log_run cs log_start = Ok s -> demo_settings cs o ->
  ctap_logged E msg w = (w', l, r) \/ u2f_logged E msg w = (w', l, r) -> shows l v ->
  exists s' e, M_Log.log_run (map (print render) l) s = Ok s' /\ In e l /\ In v (en_shown e) /\ In (o, render e) (sink s').
Proof.
  intros cs s o render E w msg w' l r v R D [H|H] S.
  - exact (shown_console _ cs s o ctap_tame render E w msg w' l r v R D H S).
  - exact (shown_console _ cs s o u2f_tame render E w msg w' l r v R D H S).
Qed.
Print Assumptions C111_secrets_refuted.

(* A rendering that shows the byte strings of a line. *)
Definition plain (e : entry) : bytes := concat (map (fun v => match v with ShBytes b => b | _ => [] end) (en_shown e)).
Theorem C111_not_full : ~ C111_full.
Proof.
  intro F. destruct (demo_log_settings false) as (s & R & D). destruct (F _ s 1 plain R D) as (p1 & p2 & H).
  clear F. injection R as <-.
  assert (G : forall pin, wfbb (msg_set far pin) = true -> snd (ctap_logged (toyE true) (msg_token far pin3) (w_pin pin)) = Ok [49] ->
    exists s', M_Log.log_run (map (print plain) (part2 (ctap_logged (toyE true) (msg_token far pin3) (w_pin pin))))
      (match M_Log.log_run (demo_log false) log_start with Ok s => s | Panic => log_start end) = Ok s' /\
      sink s' = sink (match M_Log.log_run (demo_log false) log_start with Ok s => s | Panic => log_start end) ++ p1 (msg_token far pin3) (Ok [49])).
  { intros pin W Q. eapply H; [apply toyE_ok|apply w_pin_ok, W|apply wfbb_iff; vm_compute; reflexivity|now apply parts]. }
  destruct (G pin1 ltac:(vm_compute; reflexivity) ltac:(vm_compute; reflexivity)) as (s1 & A1 & A2).
  destruct (G pin2 ltac:(vm_compute; reflexivity) ltac:(vm_compute; reflexivity)) as (s2 & B1 & B2).
  rewrite <- B2 in A2. vm_compute in A1, B1. injection A1 as <-. injection B1 as <-. vm_compute in A2. discriminate A2.
Qed.
Print Assumptions C111_not_full.
