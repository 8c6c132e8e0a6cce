(* Proofs about the log of the authenticators. *)
From Verif Require Import Base M_Str M_Util M_Cbor S_Cbor M_Crypto S_Crypto M_Cose M_State M_Client S_Client S_Ctap S_CtapReq S_Pin
  M_Ctap M_U2f S_U2f P_Crypto P_Client P_Ctap P_Ctap2 P_Ctap3 P_Pin P_U2f P_U2f2 M_Logged S_Logged.

(* ------------------------------------------------------------------ *)
(* Without the log the handlers are those of M_Ctap and M_U2f          *)

Definition erases {A} (l : L A) (m : M A) : Prop := forall w, m w = (fst (fst (l w)), snd (l w)).

Lemma er_ret A (a : A) : erases (lret a) (ret a). Proof. intro w. reflexivity. Qed.
Lemma er_act A (m : M A) : erases (act m) m.
Proof. intro w. unfold act. destruct (m w). reflexivity. Qed.
Lemma er_bind A B (l : L A) (m : M A) (f : A -> L B) g : erases l m -> (forall a, erases (f a) (g a)) ->
  erases (lbind l f) (bind m g).
Proof.
  intros H F w. unfold lbind, bind. rewrite H. destruct (l w) as [[w1 l1] [a|]]; cbn [fst snd]; [|reflexivity].
  rewrite F. destruct (f a w1) as [[w2 l2] r]. reflexivity.
Qed.
Lemma er_log A e (k : L A) m : erases k m -> erases (log e ;l; k) m.
Proof. intros H w. unfold lbind, log. rewrite H. destruct (k w) as [[w2 l2] r]. reflexivity. Qed.
Lemma er_tail A (f : A -> entry) (k : L A) m : erases k m -> erases (doL r <- k; log (f r) ;l; lret r) m.
Proof. intros H w. unfold lbind, log, lret. rewrite H. destruct (k w) as [[w2 l2] [r|]]; reflexivity. Qed.

Ltac er := repeat first
  [ apply er_log | apply er_tail | apply er_act | apply er_ret | apply er_bind; [|intro]
  | match goal with |- erases (match ?x with _ => _ end) (match ?x with _ => _ end) => destruct x end ].

Lemma er_make_credential E data : erases (make_credential_l E data) (make_credential E data).
Proof. unfold make_credential_l, make_credential, lstatus, status. cbv zeta. er. Qed.
Lemma er_get_info : erases get_info_l get_info.
Proof. unfold get_info_l, get_info. cbv zeta. er. Qed.
Lemma er_source E rp al : erases (get_assertion_source_l E rp al) (get_assertion_source E rp al).
Proof.
  intro w. unfold get_assertion_source_l, lbind, act, log, lret.
  destruct (get_assertion_source E rp al w) as [w1 [[s|]|]]; reflexivity.
Qed.
Lemma er_get_assertion E data : erases (get_assertion_l E data) (get_assertion E data).
Proof.
  unfold get_assertion_l, get_assertion, lstatus, status. cbv zeta. er.
  all: try (apply er_source).
Qed.
Lemma er_client_pin E data : erases (client_pin_l E data) (client_pin E data).
Proof.
  unfold client_pin_l, client_pin, lstatus, status. cbv zeta. er;
  unfold get_retries_l, get_retries, get_key_agreement_l, get_key_agreement, ctap_set_pin_l, ctap_set_pin,
    get_pin_token_l, get_pin_token, lstatus, status; cbv zeta; er.
Qed.
Lemma ctap_erased E msg : erases (ctap_logged E msg) (ctap_handle E msg).
Proof.
  unfold ctap_logged, ctap_handle. destruct msg as [|cmd data]; [apply er_act|]. apply er_log.
  destruct (cmd =? 1); [apply er_make_credential|]. destruct (cmd =? 4); [apply er_get_info|].
  destruct (cmd =? 2); [apply er_get_assertion|]. destruct (cmd =? 6); [apply er_client_pin|apply er_act].
Qed.

Lemma open_erased E dev h : open_handle E dev h =
  (let? x := open_handle_l E dev h in Ok (match x with inr k => Some k | inl _ => None end)).
Proof.
  unfold open_handle, open_handle_l. destruct (unmarshal dec_box h) as [bx|]; [|reflexivity].
  destruct (open (e_C E) dev bx) as [d|]; [|reflexivity]. cbn [rbind]. destruct (unmarshal dec_key_handle d); reflexivity.
Qed.
Lemma er_lift A A' B (x : res A) (y : res A') (p : A -> A') (f : A -> L B) (g : A' -> M B) :
  y = (let? v := x in Ok (p v)) -> (forall v, erases (f v) (g (p v))) ->
  erases (lbind (act (lift x)) f) (bind (lift y) g).
Proof.
  intros -> H w. unfold lbind, act, lift, bind. destruct x as [v|]; [|reflexivity]. cbn [rbind]. rewrite H.
  destruct (f v w) as [[w2 l2] r]. reflexivity.
Qed.
Lemma er_authenticate E c req : erases (u2f_authenticate_l E c req) (u2f_authenticate E c req).
Proof.
  unfold u2f_authenticate_l, u2f_authenticate. cbv zeta. apply er_bind; [apply er_act|]. intros [[ch ap] h].
  apply er_bind; [apply er_act|]. intro cl. eapply er_lift; [apply open_erased|]. intros [e|kh]; cbn beta iota; er.
Qed.
Lemma u2f_erased E msg : erases (u2f_logged E msg) (u2f_handle E msg).
Proof.
  unfold u2f_logged, u2f_handle. apply er_bind; [apply er_act|]. intros [[h req] le]. apply er_log, er_tail.
  destruct (uh_cmd h =? 3); [apply er_ret|]. destruct (uh_cmd h =? 1).
  { unfold u2f_register_l, u2f_register. cbv zeta. er. }
  destruct (uh_cmd h =? 2); [apply er_authenticate|apply er_act].
Qed.

Lemma erased_run {A} (l : L A) m w w' ls r : erases l m -> l w = (w', ls, r) -> m w = (w', r).
Proof. intros H E. rewrite H, E. reflexivity. Qed.

(* ------------------------------------------------------------------ *)
(* What is logged                                                      *)

Definition emits {A} (m : L A) (F : list entry -> res A -> Prop) : Prop :=
  forall w w' l r, m w = (w', l, r) -> F l r.

Lemma em_ret A (a : A) (F : list entry -> res A -> Prop) : F [] (Ok a) -> emits (lret a) F.
Proof. intros H w w' l r X. injection X as <- <- <-. exact H. Qed.
Lemma em_fail A (F : list entry -> res A -> Prop) : F [] Panic -> emits (act fail) F.
Proof. intros H w w' l r X. injection X as <- <- <-. exact H. Qed.
Lemma em_act A (m : M A) (F : list entry -> res A -> Prop) : (forall r, F [] r) -> emits (act m) F.
Proof. intros H w w' l r X. unfold act in X. destruct (m w). injection X as <- <- <-. apply H. Qed.
Lemma em_log A e (k : L A) (F : list entry -> res A -> Prop) : emits k (fun l => F (e :: l)) -> emits (log e ;l; k) F.
Proof.
  intros H w w' l r X. unfold lbind, log in X. destruct (k w) as [[w2 l2] r2] eqn:K. injection X as <- <- <-.
  apply (H _ _ _ _ K).
Qed.
Lemma em_act_bind A B (m : M A) (f : A -> L B) (F : list entry -> res B -> Prop) :
  F [] Panic -> (forall a, emits (f a) F) -> emits (lbind (act m) f) F.
Proof.
  intros P H w w' l r X. unfold lbind, act in X. destruct (m w) as [w1 [a|]]; [|injection X as <- <- <-; exact P].
  destruct (f a w1) as [[w2 l2] r2] eqn:K. injection X as <- <- <-. apply (H _ _ _ _ _ K).
Qed.
Lemma em_bind A B (m : L A) (f : A -> L B) (F : list entry -> res B -> Prop) :
  emits m (fun l r => match r with Panic => F l Panic | Ok a => emits (f a) (fun l' r' => F (l ++ l') r') end) ->
  emits (lbind m f) F.
Proof.
  intros H w w' l r X. unfold lbind in X. destruct (m w) as [[w1 l1] [a|]] eqn:K; apply H in K.
  - destruct (f a w1) as [[w2 l2] r2] eqn:K2. injection X as <- <- <-. apply (K _ _ _ _ K2).
  - injection X as <- <- <-. exact K.
Qed.
Lemma em_weak A (m : L A) (F G : list entry -> res A -> Prop) : emits m F -> (forall l r, F l r -> G l r) -> emits m G.
Proof. intros H I w w' l r X. apply I, (H _ _ _ _ X). Qed.

Ltac em := repeat first
  [ apply em_log | apply em_ret | apply em_fail | apply em_act_bind; [|intro]
  | match goal with |- emits (match ?x with _ => _ end) _ => destruct x eqn:? end ].

(* The CTAP log as far as message and answer determine it. *)
Definition answered (r : res bytes) (b : bytes -> list entry) : list entry :=
  match r with Ok (0 :: d) => b d | _ => [] end.

Definition mc_lines (data : bytes) (r : res bytes) : list entry :=
  match unmarshal dec_mc data with
  | None => []
  | Some _ => debug (str "MAKE CREDENTIAL: %s") [ShArgs data] ::
      match r with
      | Ok [38] => [debug (str "ERROR: Unsupported Algorithm") []]
      | Ok [39] => [debug (str "ERROR: Unapproved action (Create account)") []]
      | _ => answered r (fun d => [debug (str "MAKE CREDENTIAL RESPONSE: %#v") [ShReply d]])
      end
  end.
Definition ga_lines (data : bytes) (r : res bytes) : list entry :=
  match unmarshal dec_ga data with
  | None => [debug (str "ERROR: %s") [ShError data]]
  | Some _ => debug (str "GET ASSERTION: %#v") [ShArgs data] ::
      match r with
      | Ok [46] => [debug (str "ERROR: No Credentials") []; debug (str "ERROR: No Credentials") []]
      | Ok [39] => [debug (str "ERROR: Unapproved action (Account login)") []]
      | _ => answered r (fun d => [debug (str "GET ASSERTION RESPONSE: %#v") [ShReply d]])
      end
  end.
Definition cp_lines (data : bytes) (r : res bytes) : list entry :=
  match r with
  | Ok [1] => []
  | _ =>
    match unmarshal dec_cp data with
    | None => [debug (str "ERROR: %s") [ShError data]]
    | Some a =>
      if pn_protocol a =? 1 then
        debug (str "CLIENT_PIN: %v") [ShArgs data] ::
        (if pn_sub a =? 1 then answered r (fun d => [debug (str "CLIENT_PIN_GET_RETRIES: %v") [ShReply d]])
         else if pn_sub a =? 2 then answered r (fun d => [debug (str "CLIENT_PIN_GET_KEY_AGREEMENT RESPONSE: %#v") [ShReply d]])
         else []) ++
        (if (pn_sub a =? 0) || (6 <=? pn_sub a) then [] else
         match r with Ok b => [debug (str "CLIENT_PIN RESPONSE: %#v") [ShBytes b]] | Panic => [] end)
      else []
    end
  end.
Definition ctap_lines (msg : bytes) (r : res bytes) : list entry :=
  match msg with
  | [] => []
  | cmd :: data => debug (str "CTAP COMMAND: %s") [ShNumber cmd] ::
    if cmd =? 1 then mc_lines data r
    else if cmd =? 4 then answered r (fun d => [debug (str "GET_INFO RESPONSE: %#v") [ShReply d]])
    else if cmd =? 2 then ga_lines data r
    else if cmd =? 6 then cp_lines data r
    else []
  end.

Ltac verdict :=
  repeat match goal with H : (match ?x with _ => _ end) = inr _ |- _ => destruct x; try discriminate H end;
  match goal with H : inr _ = inr _ |- _ => injection H as <- end; reflexivity.

Lemma mc_emits E data : emits (make_credential_l E data) (fun l r => visible l = mc_lines data r).
Proof.
  unfold make_credential_l, mc_lines, lstatus. cbv zeta. destruct (unmarshal dec_mc data) as [a|]; em; try reflexivity; verdict.
Qed.
Lemma info_emits : emits get_info_l (fun l r => visible l = answered r (fun d => [debug (str "GET_INFO RESPONSE: %#v") [ShReply d]])).
Proof. unfold get_info_l. cbv zeta. em; reflexivity. Qed.
Lemma ga_emits E data : emits (get_assertion_l E data) (fun l r => visible l = ga_lines data r).
Proof.
  unfold get_assertion_l, ga_lines, lstatus, get_assertion_source_l. cbv zeta. destruct (unmarshal dec_ga data) as [a|]; [|em; reflexivity].
  apply em_log. apply em_act_bind; [reflexivity|]. intro c.
  match goal with |- emits (match ?x with _ => _ end) _ => destruct x eqn:? end; [|em; verdict].
  apply em_bind. em; cbn beta iota; em; try reflexivity.
Qed.

Lemma reply_emits (m : L bytes) (F G : list entry -> res bytes -> Prop) :
  emits m F -> (forall l, F l Panic -> G l Panic) ->
  (forall l b, F l (Ok b) -> G (l ++ [debug (str "CLIENT_PIN RESPONSE: %#v") [ShBytes b]]) (Ok b)) ->
  emits (doL r <- m; log (debug (str "CLIENT_PIN RESPONSE: %#v") [ShBytes r]) ;l; lret r) G.
Proof.
  intros H P Q. apply em_bind. eapply em_weak; [exact H|]. intros l [b|] X; [|now apply P].
  apply em_log, em_ret. now apply Q.
Qed.
(* more *)
Definition outs {A} (m : M A) (F : res A -> Prop) : Prop := forall w w' r, m w = (w', r) -> F r.
Lemma out_ret A (a : A) (F : res A -> Prop) : F (Ok a) -> outs (ret a) F.
Proof. intros H w w' r X. injection X as <- <-. exact H. Qed.
Lemma out_bind A B (m : M A) (f : A -> M B) (F : res B -> Prop) : F Panic -> (forall a, outs (f a) F) -> outs (bind m f) F.
Proof.
  intros P H w w' r X. unfold bind in X. destruct (m w) as [w1 [a|]]; [|injection X as <- <-; exact P].
  apply (H a _ _ _ X).
Qed.
Lemma change_outs E a : outs (change_pin E a) (fun r => r <> Ok [1]).
Proof.
  unfold change_pin, status. repeat first
  [ apply out_ret; discriminate | apply out_bind; [discriminate|intro]
  | match goal with |- outs (match ?x with _ => _ end) _ => destruct x eqn:? end ].
Qed.

Definition sub_lines (n : N) (r : res bytes) : list entry :=
  if n =? 1 then answered r (fun d => [debug (str "CLIENT_PIN_GET_RETRIES: %v") [ShReply d]])
  else if n =? 2 then answered r (fun d => [debug (str "CLIENT_PIN_GET_KEY_AGREEMENT RESPONSE: %#v") [ShReply d]])
  else [].

Lemma retries_emits : emits get_retries_l (fun l r => r <> Ok [1] /\ visible l = sub_lines 1 r).
Proof. unfold get_retries_l. cbv zeta. em; split; try discriminate; reflexivity. Qed.
Lemma agreement_emits E : emits (get_key_agreement_l E) (fun l r => r <> Ok [1] /\ visible l = sub_lines 2 r).
Proof. unfold get_key_agreement_l. cbv zeta. em; split; try discriminate; reflexivity. Qed.
Lemma set_emits E a : emits (ctap_set_pin_l E a) (fun l r => r <> Ok [1] /\ (r <> Ok [0] -> visible l = sub_lines 3 r)).
Proof.
  unfold ctap_set_pin_l, lstatus. cbv zeta. em; (split; [discriminate|]); intro; try reflexivity. now destruct H.
Qed.
Lemma change_emits E a : emits (act (change_pin E a)) (fun l r => r <> Ok [1] /\ visible l = sub_lines 4 r).
Proof.
  intros w w' l r X. unfold act in X. destruct (change_pin E a w) as [w1 r1] eqn:Q. injection X as <- <- <-.
  split; [apply (change_outs E a _ _ _ Q)|reflexivity].
Qed.
Lemma token_emits E a : emits (get_pin_token_l E a) (fun l r => r <> Ok [1] /\
  (r <> Ok [49] -> (forall b, r <> Ok (0 :: b)) -> r <> Panic -> visible l = sub_lines 5 r)).
Proof.
  unfold get_pin_token_l, lstatus. cbv zeta. em; (split; [discriminate|]); intros X Y Z; try reflexivity; try congruence.
  all: exfalso; first [eapply Y; reflexivity|now apply X].
Qed.
(* worlds *)
Lemma act_bind A B (m : M A) (f : A -> L B) w : lbind (act m) f w =
  match m w with (w1, Ok a) => f a w1 | (w1, Panic) => (w1, [], Panic) end.
Proof. unfold lbind, act. destruct (m w) as [w1 [a|]]; [|reflexivity]. destruct (f a w1) as [[w2 l2] r]. reflexivity. Qed.
Lemma log_bind B e (f : unit -> L B) w : lbind (log e) f w = let '(w2, l2, r) := f tt w in (w2, e :: l2, r).
Proof. reflexivity. Qed.
Lemma log_run B e (f : unit -> L B) w w' l r : lbind (log e) f w = (w', l, r) -> exists l2, l = e :: l2 /\ f tt w = (w', l2, r).
Proof. rewrite log_bind. destruct (f tt w) as [[w2 l2] r2]. intro H. injection H as <- <- <-. eauto. Qed.
Lemma retries_run w : pin_retries w =
  if ((0 <? cl_retries (w_client w)) && (cl_retries (w_client w) <=? 8))%Z then (w, Ok (cl_retries (w_client w))) else (w, Panic).
Proof. unfold pin_retries, bind, get, ret, fail. destruct (_ && _)%Z; reflexivity. Qed.
Lemma set_retries_run n w : set_pin_retries n w = (mkw (set_retries (w_client w) n) (w_tick w) (w_trace w), Ok tt).
Proof. reflexivity. Qed.
Ltac done3 H := injection H as <- <- <-.
Ltac easy3 := (split; [|split]); intros; first [reflexivity|discriminate].

Lemma token_log E a w w' l r : env_ok E -> client_ok E (w_client w) -> get_pin_token_l E a w = (w', l, r) ->
  (r = Panic -> l = []) /\
  (r = Ok [49] -> exists dec, l = [debug (str "TRYING PIN HASH: %v") [ShBytes dec];
     debug (str "MISMATCH: Provided PIN %v doesn't match stored PIN %v") [ShBytes dec; ShBytes (or_nil (cl_hash (w_client w)))]]) /\
  (forall b, r = Ok (0 :: b) -> l = [debug (str "TRYING PIN HASH: %v") [ShBytes (or_nil (cl_hash (w_client w)))];
     debug (str "GET_PIN_TOKEN RESPONSE: %#v") [ShReply b]]).
Proof.
  intros EO K H. unfold get_pin_token_l, lstatus in H. destruct (pn_hash a) as [enc|].
  2:{ done3 H. easy3. }
  destruct (pn_key a) as [k|]. 2:{ done3 H. easy3. }
  destruct (e2_x k) as [x|]. 2:{ done3 H. easy3. }
  rewrite act_bind, retries_run in H.
  destruct ((0 <? cl_retries (w_client w)) && (cl_retries (w_client w) <=? 8))%Z eqn:R.
  2:{ done3 H. easy3. }
  destruct (cl_retries (w_client w) <=? 0)%Z eqn:R0. { done3 H. easy3. }
  rewrite act_bind in H. unfold get in H at 1. rewrite act_bind in H. unfold lift in H at 1.
  destruct (shared_cases E (w_client w) k) as [X|(s & X & Y)]; rewrite X in H. { done3 H. easy3. }
  rewrite act_bind, retries_run, R, act_bind, set_retries_run in H. rewrite act_bind in H. unfold lift in H at 1.
  destruct (decrypt_cbc (e_C E) s enc) as [dec|] eqn:D. 2:{ done3 H. easy3. }
  rewrite log_bind in H. destruct (bytes_eqb dec (or_nil (cl_hash (w_client w)))) eqn:B.
  - apply bytes_eqb_eq in B. subst dec. rewrite act_bind, set_retries_run, act_bind in H. unfold lift in H.
    destruct (encrypt_token (e_C E) s (cl_token (w_client w)) (eo_laws E EO) (secret_key E _ _ _ EO Y) (proj1 (co_token E _ K))) as (t & T & _).
    rewrite T in H. rewrite log_bind in H. done3 H. split; [discriminate|]. split; [discriminate|]. intros b Q. injection Q as <-. reflexivity.
  - rewrite log_bind in H. done3 H. split; [discriminate|]. split; [eauto|discriminate].
Qed.

Lemma bind_client A B (m : M A) (f : A -> M B) w w' r : (forall w w' r, m w = (w', r) -> w_client w' = w_client w) ->
  (forall a w w' r, f a w = (w', r) -> w_client w' = w_client w) -> bind m f w = (w', r) -> w_client w' = w_client w.
Proof.
  intros H F X. unfold bind in X. destruct (m w) as [w1 [a|]] eqn:Q; apply H in Q.
  - apply F in X. congruence.
  - injection X as <- _. exact Q.
Qed.
Lemma save_data_client E w w' r : save_data E w = (w', r) -> w_client w' = w_client w.
Proof.
  unfold save_data, export_data, random. revert w w' r.
  repeat first [apply bind_client|intro x; apply bind_client|intro].
  all: try (match goal with H : _ = (_, _) |- _ => now injection H as <- _ end).
  destruct (encrypt_fido_state _ _ _ _); match goal with H : _ = (_, _) |- _ => now injection H as <- _ end.
Qed.
Lemma set_log E a w w' l : ctap_set_pin_l E a w = (w', l, Ok [0]) ->
  exists h, l = [debug (str "SETTING PIN HASH: %v") [ShBytes h]] /\ cl_hash (w_client w') = Some h.
Proof.
  intro H. unfold ctap_set_pin_l, lstatus in H. rewrite act_bind in H. unfold get in H at 1.
  destruct (cl_hash (w_client w)); [discriminate|].
  destruct (pn_key a) as [k|]; [|discriminate]. destruct (pn_auth a) as [au|]; [|discriminate].
  destruct (pn_new a) as [enc|]; [|discriminate]. rewrite act_bind in H. unfold lift in H at 1.
  destruct (shared_secret E (w_client w) k) as [s|]; [|discriminate].
  destruct (bytes_eqb (pin_auth E s enc) au); [|discriminate]. rewrite act_bind in H. unfold lift in H at 1.
  destruct (decrypt_pin E s enc) as [pin|]; [|discriminate].
  destruct (len pin <? 4); [discriminate|]. rewrite act_bind, set_retries_run, act_bind in H.
  set (h := firstn 16 (sha256 (e_C E) pin)) in *. exists h.
  unfold set_pin_hash, bind, get, put in H. cbn [w_client] in H.
  destruct (save_data E _) as [w2 [u|]] eqn:S; [|discriminate]. rewrite log_bind in H. injection H as <- <-.
  split; [reflexivity|]. apply save_data_client in S. rewrite S. reflexivity.
Qed.
(* assembled *)
Lemma tail_run {A} (f : A -> entry) (m : L A) w w' l r : (doL x <- m; log (f x) ;l; lret x) w = (w', l, r) ->
  exists l0, m w = (w', l0, r) /\ l = l0 ++ match r with Ok b => [f b] | Panic => [] end.
Proof.
  unfold lbind, log, lret. destruct (m w) as [[w1 l1] [b|]]; intro H; injection H as <- <- <-; eexists; split; try reflexivity.
  now rewrite app_nil_r.
Qed.
Lemma visible_app a b : visible (a ++ b) = visible a ++ visible b.
Proof. apply filter_app. Qed.

(* The five subcommands. *)
Inductive pin_sub (E : Env) (a : cp_args) : L bytes -> Prop :=
| PS1 : pn_sub a = 1 -> pin_sub E a get_retries_l
| PS2 : pn_sub a = 2 -> pin_sub E a (get_key_agreement_l E)
| PS3 : pn_sub a = 3 -> pin_sub E a (ctap_set_pin_l E a)
| PS4 : pn_sub a = 4 -> pin_sub E a (act (change_pin E a))
| PS5 : pn_sub a = 5 -> pin_sub E a (get_pin_token_l E a).

Lemma client_pin_log E data w w' l r : client_pin_l E data w = (w', l, r) ->
  (l = [] /\ cl_pin (w_client w) = false /\ r = Ok [1]) \/
  (unmarshal dec_cp data = None /\ r = Ok [18] /\ l = [debug (str "ERROR: %s") [ShError data]]) \/
  exists a, unmarshal dec_cp data = Some a /\
   ((pn_protocol a <> 1 /\ r = Ok [2] /\ l = []) \/
    (pn_protocol a = 1 /\ (pn_sub a = 0 \/ 6 <= pn_sub a) /\ r = Ok [20] /\ l = [debug (str "CLIENT_PIN: %v") [ShArgs data]]) \/
    (pn_protocol a = 1 /\ exists m l0, pin_sub E a m /\ m w = (w', l0, r) /\
       l = debug (str "CLIENT_PIN: %v") [ShArgs data] :: l0 ++
           match r with Ok b => [debug (str "CLIENT_PIN RESPONSE: %#v") [ShBytes b]] | Panic => [] end)).
Proof.
  intro H. unfold client_pin_l, lstatus in H. rewrite act_bind in H. unfold get in H at 1.
  destruct (cl_pin (w_client w)) eqn:P; [|done3 H; auto].
  destruct (unmarshal dec_cp data) as [a|] eqn:U; [|rewrite log_bind in H; done3 H; auto].
  right. right. exists a. split; [reflexivity|]. destruct (pn_protocol a =? 1) eqn:Q; [|done3 H; left; split; [lia|auto]].
  right. apply N.eqb_eq in Q. rewrite log_bind in H. cbv zeta in H.
  assert (G : forall m, pin_sub E a m ->
    (let '(w2, l2, r0) := (doL x <- m; log (debug (str "CLIENT_PIN RESPONSE: %#v") [ShBytes x]) ;l; lret x) w in
     (w2, debug (str "CLIENT_PIN: %v") [ShArgs data] :: l2, r0)) = (w', l, r) ->
    exists m l0, pin_sub E a m /\ m w = (w', l0, r) /\
       l = debug (str "CLIENT_PIN: %v") [ShArgs data] :: l0 ++
           match r with Ok b => [debug (str "CLIENT_PIN RESPONSE: %#v") [ShBytes b]] | Panic => [] end).
  { intros m Pm X. destruct ((doL x <- m; log _ ;l; lret x) w) as [[w2 l2] r2] eqn:Y.
    injection X as <- <- <-. apply tail_run in Y as (l0 & Y1 & ->). eauto 6. }
  destruct (pn_sub a =? 1) eqn:S1; [right; split; [exact Q|]; eapply G; [apply PS1; lia|exact H]|].
  destruct (pn_sub a =? 2) eqn:S2; [right; split; [exact Q|]; eapply G; [apply PS2; lia|exact H]|].
  destruct (pn_sub a =? 3) eqn:S3; [right; split; [exact Q|]; eapply G; [apply PS3; lia|exact H]|].
  destruct (pn_sub a =? 4) eqn:S4; [right; split; [exact Q|]; eapply G; [apply PS4; lia|exact H]|].
  destruct (pn_sub a =? 5) eqn:S5; [right; split; [exact Q|]; eapply G; [apply PS5; lia|exact H]|].
  left. split; [exact Q|]. split; [lia|]. done3 H. auto.
Qed.

Lemma cp_lines_sub data a r : unmarshal dec_cp data = Some a -> pn_protocol a = 1 -> 1 <= pn_sub a <= 5 -> r <> Ok [1] ->
  cp_lines data r = debug (str "CLIENT_PIN: %v") [ShArgs data] :: sub_lines (pn_sub a) r ++
     match r with Ok b => [debug (str "CLIENT_PIN RESPONSE: %#v") [ShBytes b]] | Panic => [] end.
Proof.
  intros U P S R. unfold cp_lines. rewrite U, P. change (1 =? 1) with true.
  destruct (pn_sub a =? 0) eqn:S0; [lia|]. destruct (6 <=? pn_sub a) eqn:S6; [lia|]. cbn [orb].
  destruct r as [b|]; [|reflexivity]. destruct b as [|x b]; [reflexivity|].
  destruct x as [|[p|p|]]; try reflexivity. destruct b; [now destruct R|reflexivity].
Qed.

Lemma cp_log E data w w' l r : env_ok E -> client_ok E (w_client w) -> client_pin_l E data w = (w', l, r) ->
  ~ pin_exchange (6 :: data) r -> visible l = cp_lines data r.
Proof.
  intros EO K H N. apply client_pin_log in H as [(-> & _ & ->)|[(U & -> & ->)|(a & U & H)]].
  - reflexivity.
  - unfold cp_lines. now rewrite U.
  - destruct H as [(P & -> & ->)|[(P & S & -> & ->)|(P & m & l0 & S & H & ->)]].
    + unfold cp_lines. rewrite U. destruct (pn_protocol a =? 1) eqn:Q; [lia|reflexivity].
    + unfold cp_lines. rewrite U, P. change (1 =? 1) with true. cbv iota.
      destruct (pn_sub a =? 1) eqn:S1; [lia|]. destruct (pn_sub a =? 2) eqn:S2; [lia|].
      destruct (pn_sub a =? 0) eqn:S0; [reflexivity|]. destruct (6 <=? pn_sub a) eqn:S6; [reflexivity|lia].
    + assert (Q : 1 <= pn_sub a <= 5 /\ r <> Ok [1] /\ visible l0 = sub_lines (pn_sub a) r).
      { inversion S as [Z|Z|Z|Z|Z]; subst m; rewrite Z; (split; [lia|]).
        - now apply retries_emits in H.
        - now apply agreement_emits in H.
        - apply set_emits in H as [H1 H2]. split; [exact H1|]. apply H2. intros ->. apply N. exists data, a. auto.
        - now apply change_emits in H.
        - pose proof (token_log E a w w' l0 r EO K H) as (T & _). apply token_emits in H as [H1 H2]. split; [exact H1|].
          destruct r as [b|]; [|rewrite T by reflexivity; reflexivity]. apply H2; [| |discriminate].
          + intro X. apply N. exists data, a. split; [reflexivity|]. split; [exact U|]. right. split; [exact Z|]. now left.
          + intros b' X. apply N. exists data, a. split; [reflexivity|]. split; [exact U|]. right. split; [exact Z|]. right. eauto. }
      destruct Q as (Q1 & Q2 & Q3). rewrite (cp_lines_sub data a r U P Q1 Q2), <- Q3.
      change (visible (?e :: ?x)) with (e :: visible x). f_equal. rewrite visible_app. f_equal. destruct r; reflexivity.
Qed.

Lemma ctap_discreet : discreet ctap_logged (fun msg r => ~ pin_exchange msg r).
Proof.
  exists ctap_lines. intros E w msg w' l r EO K W H N. unfold ctap_logged, ctap_lines in *. destruct msg as [|cmd data].
  { injection H as <- <- <-. reflexivity. }
  apply log_run in H as (l2 & -> & X).
  change (visible (?e :: l2)) with (e :: visible l2). f_equal.
  destruct (cmd =? 1); [now apply mc_emits in X|]. destruct (cmd =? 4); [now apply info_emits in X|].
  destruct (cmd =? 2); [now apply ga_emits in X|]. destruct (cmd =? 6) eqn:C6; [|now injection X as <- <- <-].
  apply N.eqb_eq in C6. subst cmd. eapply cp_log; eauto.
Qed.

Lemma shows_in l e v : In e l -> en_level e <> 0 -> In v (en_shown e) -> shows l v.
Proof. intros H1 H2 H3. exists e. split; [|exact H3]. apply filter_In. split; [exact H1|]. apply negb_true_iff. lia. Qed.

Lemma pin_shown E data a w w' l r : env_ok E -> client_ok E (w_client w) ->
  unmarshal dec_cp data = Some a -> ctap_logged E (6 :: data) w = (w', l, r) ->
  (pn_sub a = 3 -> r = Ok [0] -> exists h, cl_hash (w_client w') = Some h /\ shows l (ShBytes h)) /\
  (pn_sub a = 5 -> r = Ok [49] \/ (exists b, r = Ok (0 :: b)) -> shows l (ShBytes (or_nil (cl_hash (w_client w))))).
Proof.
  intros EO K U H. unfold ctap_logged in H. rewrite log_bind in H. change (6 =? 1) with false in H.
  change (6 =? 4) with false in H. change (6 =? 2) with false in H. change (6 =? 6) with true in H. cbv iota in H.
  destruct (client_pin_l E data w) as [[w2 l2] r2] eqn:X. done3 H.
  apply client_pin_log in X as [(-> & _ & ->)|[(U' & -> & ->)|(a' & U' & X)]].
  { split; intros; [discriminate|]. destruct H0 as [H0|[b H0]]; discriminate. }
  { congruence. }
  assert (a' = a) by congruence. subst a'. clear U'.
  destruct X as [(P & -> & ->)|[(P & S & -> & ->)|(P & m & l0 & S & H & ->)]].
  { split; intros; [discriminate|]. destruct H0 as [H0|[b H0]]; discriminate. }
  { split; intros; [discriminate|]. destruct H0 as [H0|[b H0]]; discriminate. }
  split; intros Z; inversion S as [Z'|Z'|Z'|Z'|Z']; try (rewrite Z in Z'; discriminate); subst m.
  - intros ->. apply set_log in H as (h & -> & Hh). exists h. split; [exact Hh|].
    eapply shows_in; [right; right; left; reflexivity|discriminate|now left].
  - pose proof (token_log E a w w2 l0 r2 EO K H) as (_ & T1 & T2). intros [R|[b R]].
    + destruct (T1 R) as (dec & ->). eapply shows_in; [right; right; right; left; reflexivity|discriminate|]. right. now left.
    + rewrite (T2 b R). eapply shows_in; [right; right; left; reflexivity|discriminate|]. now left.
Qed.

(* Whoever knows the stored hash gets the PIN token. *)
Lemma hash_step E p z s w h v b : env_ok E -> valid_scalar p -> client_ok E (w_client w) -> cl_pin (w_client w) = true ->
  cl_hash (w_client w) = Some h -> (0 < cl_retries (w_client w))%Z ->
  shares E p z s (w_client w) -> hash_request (e_C E) p s h v -> canonical v b ->
  exists w' r enc, ctap_handle E (6 :: b) w = (w', Ok r) /\ response (token_doc enc) r /\
    enciphers (e_C E) s (cl_token (w_client w)) enc.
Proof.
  intros EO Vp K P HN R Sh (enc & Hen & ->) Hb. destruct (cp_read _ _ _ _ _ _ Hb) as [U W]; [reflexivity|]. clear Hb.
  assert (Wh : wfb h /\ len h = 16) by (pose proof (co_hash E _ K) as X; now rewrite HN in X).
  destruct Wh as [Wh Lh].
  destruct (decipher (e_C E) s _ _ (eo_laws E EO) (secret_aes E EO p z s _ Sh) Wh Hen) as (D & _ & Dl).
  destruct (ctap_handle E (6 :: b) w) as [w' r] eqn:H. pose proof H as H0. apply pin_run in H; auto.
  set (kk := {| e2_kty := 2; e2_alg := -25; e2_crv := 1; e2_x := Some (fst (platform_key (e_C E) p));
                e2_y := Some (snd (platform_key (e_C E) p)); e2_d := None |}) in *.
  assert (OC := on_the_curve E EO p Vp (w_client w) K).
  assert (SO := shared_once E EO p z s Vp (w_client w)).
  inversion H as [| | |a r0 Z1 U1 Q1 Q| |a k s1 ? ? ? ? ? ? S1|a k s1 d1 ? ? ? ? ? ? S1 D1 N1| | |a k e1 s1 d1 t ? ? ? ? ? ? ? S1 D1 N1]; subst; try congruence;
    same_args U; cbn [sent pn_sub pn_key pn_auth pn_new pn_hash pn_protocol option_map or_nil] in *; try congruence; try lia.
  - inversion Q; subst; cbn [sent pn_sub pn_key pn_auth pn_new pn_hash pn_protocol option_map or_nil] in *; try congruence; try lia.
    match goal with H : 5 = 5 -> _ |- _ => destruct (H eq_refl) as [X|(k & X & Y)]; [discriminate X|]; injection X as <-; discriminate Y end.
  - match goal with H : Some _ = Some ?k |- _ => injection H as <- end. apply SO in S1; auto. subst s1.
    rewrite D in D1. injection D1 as <-. rewrite HN in N1. now destruct N1.
  - match goal with H : Some _ = Some k |- _ => injection H as <- end. apply SO in S1; auto. subst s1.
    do 3 eexists. split; [reflexivity|]. split; [eexists; split; [reflexivity|now apply token_good]|].
    now apply encrypt_enciphers; [apply (eo_laws E EO)|].
Qed.
