(* What of the authenticators' log reaches the console. *)
From Verif Require Import Base M_Str M_Log S_Log P_Log M_Client S_Client M_Ctap M_U2f S_U2f M_Logged S_Logged P_Logged P_Logged2 M_Console.

(* The levels that the authenticators use. *)
Definition two_levels (e : entry) : Prop := en_level e = 0 \/ en_level e = 2.

Lemma unsafe_off cs s : M_Log.log_run cs log_start = Ok s -> enabled KUnsafe cs = false -> unsafe_on s = false.
Proof. intros R U. destruct (log_run_inv cs s R) as [[A B C D E F G H I] _]. change (unsafe_on s = enabled KUnsafe cs) in A. congruence. Qed.

Lemma enabled_write k cs l p : enabled k (cs ++ [LWrite l p]) = enabled k cs.
Proof. destruct k; cbn; try reflexivity; rewrite existsb_app; cbn; apply orb_false_r. Qed.

Lemma console_run render l : Forall two_levels l -> forall cs s o, M_Log.log_run cs log_start = Ok s -> writer cs None = Some o ->
  enabled KDebug cs = true -> enabled KUnsafe cs = false ->
  exists s', M_Log.log_run (map (print render) l) s = Ok s' /\
    sink s' = sink s ++ map (fun e => (o, render e)) (visible l).
Proof.
  induction 1 as [|e l He Hl IH]; intros cs s o R W D U.
  { exists s. split; [reflexivity|]. cbn. now rewrite app_nil_r. }
  assert (S1 : exists s1, log_step s (print render e) = Ok s1 /\
    sink s1 = sink s ++ if en_level e =? 0 then [] else [(o, render e)]).
  { destruct He as [He|He]; unfold print; rewrite He.
    - assert (X : unsafe_on s = false) by (eapply unsafe_off; eauto).
      exists (write_unsafe (render e) s). split; [reflexivity|]. unfold write_unsafe. rewrite X. symmetry. apply app_nil_r.
    - destruct (log_at_once cs s 2 (render e) o R W D) as (s1 & X & Y). exists s1. split; [exact X|exact Y]. }
  destruct S1 as (s1 & S1 & K1).
  destruct (IH (cs ++ [print render e]) s1 o) as (s' & R' & K').
  - rewrite log_run_app, R. cbn [M_Log.log_run]. now rewrite S1.
  - rewrite writer_app, W. reflexivity.
  - unfold print. now rewrite enabled_write.
  - unfold print. now rewrite enabled_write.
  - exists s'. split; [cbn [map M_Log.log_run]; now rewrite S1|]. rewrite K', K1, <- app_assoc. f_equal.
    cbn [visible filter]. destruct (en_level e =? 0); reflexivity.
Qed.

(* The authenticators use only these two levels. *)
Ltac lv := repeat first
  [ apply em_log | apply em_ret | apply em_act_bind; [|intro] | apply em_act; intro
  | match goal with |- emits (match ?x with _ => _ end) _ => destruct x eqn:? end ];
  repeat first [apply Forall_nil|apply Forall_cons]; try (left; reflexivity); try (right; reflexivity).
Definition tame {A} (m : L A) : Prop := emits m (fun l _ => Forall two_levels l).
Lemma tame_bind A B (m : L A) (f : A -> L B) : tame m -> (forall a, tame (f a)) -> tame (lbind m f).
Proof.
  intros H F. apply em_bind. eapply em_weak; [exact H|]. cbn beta. intros l [a|] X; [|exact X].
  eapply em_weak; [apply F|]. cbn beta. intros l' r' Y. apply Forall_app. now split.
Qed.
Lemma tame_act A (m : M A) : tame (act m).
Proof. apply em_act. constructor. Qed.
Lemma tame_log e : two_levels e -> tame (log e).
Proof. intros H w w' l r X. injection X as <- <- <-. constructor; [exact H|constructor]. Qed.
Lemma tame_ret A (a : A) : tame (lret a).
Proof. apply em_ret. constructor. Qed.
Ltac tame := repeat first
  [ apply tame_act | apply tame_ret | apply tame_log; first [left; reflexivity|right; reflexivity]
  | apply tame_bind; [|intro]
  | match goal with |- tame (match ?x with _ => _ end) => destruct x end ].

Lemma ctap_tame E msg : tame (ctap_logged E msg).
Proof.
  unfold ctap_logged, make_credential_l, get_info_l, get_assertion_l, get_assertion_source_l, client_pin_l, get_retries_l,
    get_key_agreement_l, ctap_set_pin_l, get_pin_token_l, lstatus. cbv zeta. tame.
Qed.
Lemma u2f_tame E msg : tame (u2f_logged E msg).
Proof. unfold u2f_logged, u2f_register_l, u2f_authenticate_l. cbv zeta. tame. Qed.

(* With the settings of the demo. *)
Definition demo_settings (cs : list log_call) (o : N) : Prop :=
  writer cs None = Some o /\ enabled KDebug cs = true /\ enabled KUnsafe cs = false.

Lemma demo_console (handler : Env -> bytes -> L bytes) P cs s o (tm : forall E msg, tame (handler E msg)) : discreet handler P ->
  M_Log.log_run cs log_start = Ok s -> demo_settings cs o ->
  forall render, exists pub : bytes -> res bytes -> list (N * bytes),
    forall E w msg w' l r, env_ok E -> client_ok E (w_client w) -> wfb msg -> handler E msg w = (w', l, r) -> P msg r ->
    exists s', M_Log.log_run (map (print render) l) s = Ok s' /\ sink s' = sink s ++ pub msg r.
Proof.
  intros (pub & D) R (W & E1 & E2) render. exists (fun msg r => map (fun e => (o, render e)) (pub msg r)).
  intros E w msg w' l r EO K Wm H Pm. destruct (console_run render l (tm E msg _ _ _ _ H) cs s o R W E1 E2) as (s' & R' & K').
  exists s'. split; [exact R'|]. rewrite K'. do 2 f_equal. eapply D; eauto.
Qed.

Lemma shown_console (handler : Env -> bytes -> L bytes) cs s o (tm : forall E msg, tame (handler E msg)) render E w msg w' l r v :
  M_Log.log_run cs log_start = Ok s -> demo_settings cs o -> handler E msg w = (w', l, r) -> shows l v ->
  exists s' e, M_Log.log_run (map (print render) l) s = Ok s' /\ In e l /\ In v (en_shown e) /\ In (o, render e) (sink s').
Proof.
  intros R (W & E1 & E2) H (e & I & S). destruct (console_run render l (tm E msg _ _ _ _ H) cs s o R W E1 E2) as (s' & R' & K').
  exists s', e. split; [exact R'|]. split; [apply filter_In in I; apply I|]. split; [exact S|]. rewrite K'. apply in_or_app. right.
  apply (in_map (fun e => (o, render e))). exact I.
Qed.

Lemma demo_log_settings v : exists s, M_Log.log_run (demo_log v) log_start = Ok s /\ demo_settings (demo_log v) 1.
Proof. destruct v; (eexists; split; [reflexivity|]; split; [reflexivity|]; split; reflexivity). Qed.
