From Verif Require Import Base M_Str M_Cbor M_Crypto M_Cose M_State M_Client M_Ctap M_U2f M_History.
From Verif Require Import S_Crypto S_Cose S_State S_Client S_Ctap S_Secret S_Secret2 P_Crypto P_Secret.

Section Setting.
  Variable E : Env.
  Hypothesis EO : env_ok E.
  Variable ka : N.

  Local Notation simK K := (sim true (fun _ => true) K ka).

  Lemma alike2_step (S' : client -> client -> Prop) i j is js w1 w2 :
    both S' w1 w2 (handle E i w1) (handle E j w2) ->
    (forall v1 v2, S' (w_client v1) (w_client v2) -> w_tick v1 = w_tick v2 -> alike2 E is js v1 v2) ->
    alike2 E (i :: is) (j :: js) w1 w2.
  Proof.
    intros X IH. unfold alike2, seen. cbn [talk].
    destruct (handle E i w1) as [v1 r1], (handle E j w2) as [v2 r2]. destruct X as (Q & S1 & T1 & e1 & e2 & X1 & X2 & X).
    cbn [fst snd] in *. subst r2. destruct r1 as [o|].
    - destruct (IH v1 v2 S1 T1) as (os & qs & (O1 & f1 & Y1 & Z1) & (O2 & f2 & Y2 & Z2)).
      destruct (talk E is v1) as [os1 z1], (talk E js v2) as [os2 z2]. cbn [fst snd] in *. subst os1 os2.
      exists (Ok o :: os), (asked e1 ++ qs). split; (split; [reflexivity|]).
      + exists (e1 ++ f1). rewrite Y1, X1, app_assoc, asked_app, Z1. auto.
      + exists (e2 ++ f2). rewrite Y2, X2, app_assoc, asked_app, <- Z2, X. auto.
    - exists [Panic], (asked e1). split; (split; [reflexivity|]); cbn [fst snd]; [exists e1|exists e2]; auto.
  Qed.

  Lemma both_set K t1 t2 p1 p2 w1 w2 : simK K (w_client w1) (w_client w2) ->
    cl_token (w_client w1) = t1 -> cl_token (w_client w2) = t2 -> w_tick w1 = w_tick w2 ->
    both (simK (Some (t1, t2, kept_of E p1, kept_of E p2))) w1 w2 (handle E (ISetPin p1) w1) (handle E (ISetPin p2) w2).
  Proof.
    intros S T1 T2 T. cbn [handle].
    set (K' := Some (t1, t2, kept_of E p1, kept_of E p2)).
    set (v1 := {| w_client := set_hash (w_client w1) (Some (kept_of E p1)); w_tick := w_tick w1; w_trace := w_trace w1 |}).
    set (v2 := {| w_client := set_hash (w_client w2) (Some (kept_of E p2)); w_tick := w_tick w2; w_trace := w_trace w2 |}).
    assert (S' : simK K' (w_client v1) (w_client v2)).
    { destruct S. constructor; auto. unfold pins, K'. cbn. auto. }
    pose proof (rel_save E EO true (fun _ => true) K' ka) as RS.
    assert (RR : rel (simK K') (fmapM (fun _ => OUnit) (save_data E)) (fmapM (fun _ => OUnit) (save_data E))).
    { unfold fmapM. apply rel_bind; [exact RS|]. intro. apply rel_ret. }
    exact (RR v1 v2 S' T).
  Qed.

  Lemma talk_set ps : forall t1 t2 h1 h2 w1 w2, simK (Some (t1, t2, h1, h2)) (w_client w1) (w_client w2) ->
    w_tick w1 = w_tick w2 -> unguessed E ka t1 t2 h1 h2 ps -> alike2 E (map fst ps) (map snd ps) w1 w2.
  Proof.
    induction ps as [|[i j] ps IH]; intros t1 t2 h1 h2 w1 w2 S T U.
    - exists [], []. split; (split; [reflexivity|]; exists []; rewrite app_nil_r; auto).
    - cbn [map fst snd].
      assert (Same : i = j -> fit E true (fun _ => true) (Some (t1, t2, h1, h2)) ka i ->
        unguessed E ka t1 t2 h1 h2 ps -> alike2 E (i :: map fst ps) (j :: map snd ps) w1 w2).
      { intros <- F U'. apply (alike2_step (simK (Some (t1, t2, h1, h2)))).
        - exact (rel_handle E EO true (fun _ => true) _ ka i F w1 w2 S T).
        - intros. eapply IH; eauto. }
      destruct i as [m|m|b|p1|id]; cbn [unguessed] in U.
      + destruct U as (Q & (A1 & A2 & A3 & A4) & U). apply Same; auto. cbn. unfold harmless. auto.
      + destruct U as (Q & _ & U). apply Same; auto. cbn. auto.
      + destruct U as (Q & _ & U). apply Same; auto. cbn. auto.
      + destruct j as [m|m|b|p2|id]; try (destruct U as (Q & _); discriminate Q).
        pose proof (sm_pins _ _ _ _ _ _ S) as (T1 & T2 & _).
        apply (alike2_step (simK (Some (t1, t2, kept_of E p1, kept_of E p2)))).
        * eapply both_set; eauto.
        * intros. eapply IH; eauto.
      + destruct U as (Q & _ & U). apply Same; auto. cbn. auto.
  Qed.

End Setting.

Lemma pin_set_secret E ps w1 w2 h1 h2 : env_ok E -> client_ok E (w_client w1) -> client_ok E (w_client w2) ->
  w_tick w1 = w_tick w2 -> same_but_pin (w_client w1) (w_client w2) ->
  cl_hash (w_client w1) = Some h1 -> cl_hash (w_client w2) = Some h2 ->
  unguessed E (cl_ka (w_client w1)) (cl_token (w_client w1)) (cl_token (w_client w2)) h1 h2 ps ->
  alike2 E (map fst ps) (map snd ps) w1 w2.
Proof.
  intros EO O1 O2 T [] H1 H2 U. eapply talk_set; eauto.
  constructor; auto; try (apply (ok_certkey _ _ O1)); try (apply (ok_writable _ _ O1)); try (apply (ok_writable _ _ O2)).
  - unfold pins. auto.
  - now rewrite sp_vault.
Qed.

Lemma pin_first_secret E p1 p2 ps w : env_ok E -> client_ok E (w_client w) ->
  unguessed E (cl_ka (w_client w)) (cl_token (w_client w)) (cl_token (w_client w)) (kept_of E p1) (kept_of E p2) ps ->
  alike2 E (ISetPin p1 :: map fst ps) (ISetPin p2 :: map snd ps) w w.
Proof.
  intros EO O U.
  eapply alike2_step.
  - apply (both_set E EO (cl_ka (w_client w)) None); auto.
    constructor; auto; try (apply (ok_certkey _ _ O)); try (apply (ok_writable _ _ O)). unfold pins. auto.
  - intros v1 v2 S T. eapply talk_set; eauto.
Qed.
