From Coq Require Import Permutation.
From Verif Require Import Base M_Str M_Util M_Utf8 M_Cbor M_Json M_Crypto M_Cose M_State M_Client M_Ctap M_U2f M_History.
From Verif Require Import S_Crypto S_Cbor S_Cose S_State S_Client S_Ctap S_CtapReq S_Pin S_U2f S_History.
From Verif Require Import P_Crypto P_Cbor P_Cbor2 P_Cbor3 P_Cose P_Cose2 P_Json P_State P_Client P_Ctap P_Ctap2 P_Ctap3 P_U2f P_U2f2 P_Vault P_History.

Lemma starts_ok_app E h h' : starts_ok E (h ++ h') -> starts_ok E h.
Proof. intros H p Q. apply H. rewrite !in_app_iff. tauto. Qed.

Definition same_saved (c c' : client) : Prop :=
  cl_key c = cl_key c' /\ cl_cert c = cl_cert c' /\ cl_certkey c = cl_certkey c' /\ cl_ctr c = cl_ctr c' /\
  cl_pin c = cl_pin c' /\ cl_hash c = cl_hash c' /\ cl_vault c = cl_vault c'.

Lemma saved_step E i w w' es rest c : step_ok E i w w' -> w_trace w' = w_trace w ++ es ++ rest ->
  saved_client E {| w_client := w_client w'; w_tick := w_tick w'; w_trace := w_trace w ++ es |} c ->
  (saves es = [] /\ saved_client E w c) \/ same_saved c (w_client w').
Proof.
  intros (K & _ & _ & _ & es' & Ev & S) T (d & H & St). unfold events in Ev. rewrite T in Ev. apply app_inv_head in Ev. subst es'.
  cbn [w_trace] in H. rewrite saved_app in H. unfold last_save in H. rewrite saves_app in S.
  destruct (saves es) as [|e l] eqn:Q; [left; split; [reflexivity|]; now exists d|]. right.
  destruct S as [[S _]|(d' & S & St')]; [discriminate S|]. cbn in S. injection S as <- S.
  apply app_eq_nil in S as [-> _]. cbn in H. injection H as <-. now apply (stored_same E e).
Qed.

(* The same for a completed request. *)
Lemma saved_done E i w w' c : step_ok E i w w' -> saved_client E w' c ->
  (saved_client E w c /\ exists n k, w_client w' = set_ctr (set_retries (w_client w) n) k) \/ same_saved c (w_client w').
Proof.
  intros S H. pose proof S as (_ & _ & _ & _ & es & Ev & Sv).
  assert (T : w_trace w' = w_trace w ++ es ++ []) by (rewrite app_nil_r; exact Ev).
  destruct (saved_step E i w w' es [] c S T) as [[Z X]|X]; auto.
  - destruct H as (d & A & B). exists d. cbn [w_trace]. rewrite app_nil_r in T. now rewrite <- T.
  - left. split; [assumption|]. destruct Sv as [[_ Sv]|(d & Sv & _)]; [assumption|congruence].
Qed.

Lemma start_saved E p w w' r h : env_ok E -> params_ok E p -> history E h false w -> starts_ok E h ->
  start E p (saved_in (w_trace w)) w = (w', r) ->
  (saved_in (w_trace w) = None /\ cl_vault (w_client w') = [] /\ cl_hash (w_client w') = None /\
     cl_ctr (w_client w') = 1 /\ cl_pin (w_client w') = pa_pin p /\ cl_key (w_client w') = pa_key p) \/
  (exists c, saved_client E w c /\ cl_vault (w_client w') = smeared (cl_vault c) /\
     cl_hash (w_client w') = cl_hash c /\ cl_ctr (w_client w') = cl_ctr c /\ cl_pin (w_client w') = cl_pin c /\
     cl_key (w_client w') = cl_key c).
Proof.
  intros L P H ST S. destruct (history_inv E h _ w L H ST) as (V & D & _).
  destruct (start_live E p w w' _ V L P D S) as (_ & _ & _ & _ & _ & X).
  destruct (saved_in (w_trace w)) as [d|] eqn:Q; [right|left; split; [reflexivity|exact X]].
  destruct X as (c & A & B & C & F & G). exists c. split; [exists d; auto|]. rewrite C. auto.
Qed.

Lemma start_trace E p w w' r h : env_ok E -> params_ok E p -> history E h false w -> starts_ok E h ->
  start E p (saved_in (w_trace w)) w = (w', r) -> w_trace w' = w_trace w /\ w_tick w <= w_tick w' /\ r = Ok tt.
Proof.
  intros L P H ST S. destruct (history_inv E h _ w L H ST) as (V & D & _).
  destruct (start_live E p w w' _ V L P D S) as (A & B & C & _). split; [assumption|]. split; [lia|assumption].
Qed.

(* Induction over the entries after some point. *)
Ltac hstep H := rewrite ?app_assoc in H; apply history_last in H as (? & ? & ? & _ & H).

(* ------------------------------------------------------------------ *)
(* C49                                                                 *)

Lemma key_kept E k h up w : env_ok E -> history E h up w -> starts_ok E h ->
  (forall p, In (HStart p) h -> pa_key p = k) ->
  (up = true -> cl_key (w_client w) = k) /\ forall c, saved_client E w c -> cl_key c = k.
Proof.
  intros L H. induction H as [c t|h w p w' H IH S|h w p w' H IH S|h w i w' o H IH G S|h w i w' H IH G S|h w i w' r es rest H IH G S T]; intros ST KS;
    try (destruct IH as [IH1 IH2]; [now apply starts_ok_app in ST|intros q Q; apply KS, in_app_iff; now left|]);
    try pose proof (starts_ok_app _ _ _ ST) as ST0.
  - split; [discriminate|]. intros c0 (d & A & _). discriminate A.
  - assert (P : params_ok E p) by (apply ST; left; apply in_elt).
    destruct (start_trace _ _ _ _ _ _ L P H ST0 S) as (T & _). split.
    + intros _. destruct (start_saved _ _ _ _ _ _ L P H ST0 S) as [(_ & _ & _ & _ & _ & ->)|(c & A & _ & _ & _ & _ & ->)]; auto.
      apply KS, in_elt.
    + intros c (d & A & B). apply IH2. exists d. now rewrite <- T.
  - assert (P : params_ok E p) by (apply ST; right; apply in_elt).
    destruct (start_trace _ _ _ _ _ _ L P H ST0 S) as (_ & _ & X). discriminate X.
  - destruct (history_inv E h _ w L H ST0) as (V & _ & LV & _). destruct (LV eq_refl) as [K _].
    pose proof (handle_step E i w w' _ L K G S) as SO. pose proof SO as (_ & _ & _ & (Q & _) & _).
    split; [intros _; rewrite Q; auto|]. intros c X.
    destruct (saved_done E i w w' c SO X) as [[Y _]|(Y & _)]; [now apply IH2|]. rewrite Y, Q. auto.
  - destruct (history_inv E h _ w L H ST0) as (V & _ & LV & _). destruct (LV eq_refl) as [K _].
    pose proof (handle_step E i w w' _ L K G S) as SO. pose proof SO as (_ & _ & _ & (Q & _) & _).
    split; [discriminate|]. intros c X.
    destruct (saved_done E i w w' c SO X) as [[Y _]|(Y & _)]; [now apply IH2|]. rewrite Y, Q. auto.
  - destruct (history_inv E h _ w L H ST0) as (V & _ & LV & _). destruct (LV eq_refl) as [K _].
    pose proof (handle_step E i w w' _ L K G S) as SO. pose proof SO as (_ & _ & _ & (Q & _) & _).
    split; [discriminate|]. intros c X.
    destruct (saved_step E i w w' es rest c SO T X) as [[_ Y]|(Y & _)]; [now apply IH2|]. rewrite Y, Q. auto.
Qed.

Lemma handle_u2f E m w w' o : handle E (IU2f m) w = (w', Ok o) ->
  exists r, o = OBytes r /\ u2f_handle E m w = (w', Ok r).
Proof.
  cbn [handle]. unfold fmapM, bind. destruct (u2f_handle E m w) as [w1 [r|]]; intro H; [|discriminate H].
  injection H as <- <-. eauto.
Qed.

Lemma u2f_handles_last E k h1 msg1 r h2 w cla1 p1 q1 chal1 app le1 pk hd cert sig cla control p2 chal le msg :
  env_ok E -> let h := h1 ++ HDone (IU2f msg1) (OBytes r) :: h2 in
  history E h true w -> starts_ok E h -> (forall p, In (HStart p) h -> pa_key p = k) ->
  len chal1 = 32 -> len app = 32 -> len chal = 32 -> len pk = 65 -> wfb msg ->
  apdu cla1 1 p1 q1 (chal1 ++ app) le1 msg1 -> r = registration_reply pk hd cert sig ->
  apdu cla 2 control p2 (authentication_data chal app hd) le msg ->
  (control = 8 \/ (control = 3 /\ e_approve E (w_tick w) ActU2FAuthenticate [] [] = true)) ->
  exists w' x y n sig2, encodes_point pk (x, y) /\ x < 2 ^ 256 /\ y < 2 ^ 256 /\
    handle E (IU2f msg) w = (w', Ok (OBytes (authentication_reply 1 n sig2))) /\
    ecdsa_verify (e_C E) (x, y) (sha256 (e_C E) (authentication_signed app 1 n chal)) sig2 = true.
Proof.
  intros L h H ST KS L1 L2 L3 L4 W A1 -> A2 CT. unfold h in *. clear h.
  destruct (key_kept E k _ _ _ L H ST KS) as [Kw _]. specialize (Kw eq_refl).
  destruct (history_inv _ _ _ _ L H ST) as (V & _ & LV & _). destruct (LV eq_refl) as [K _].
  change (HDone (IU2f msg1) (OBytes (registration_reply pk hd cert sig)) :: h2)
    with ([HDone (IU2f msg1) (OBytes (registration_reply pk hd cert sig))] ++ h2) in H, ST, KS.
  rewrite app_assoc in H, ST, KS.
  destruct (history_forward _ _ _ _ L H ST _ _ eq_refl) as (up1 & w1 & H1 & _).
  apply history_last in H1 as (up0 & w0 & H0 & _ & -> & -> & G & X).
  assert (ST0 : starts_ok E h1) by (rewrite <- app_assoc in ST; now apply starts_ok_app in ST).
  destruct (key_kept E k _ _ _ L H0 ST0) as [K0 _]; [intros p Q; apply KS; rewrite !in_app_iff; tauto|].
  specialize (K0 eq_refl). destruct (history_inv _ _ _ _ L H0 ST0) as (V0 & _ & LV0 & _). destruct (LV0 eq_refl) as [Kc _].
  apply handle_u2f in X as (r & Q & X). injection Q as <-.
  destruct (u2f_round_trip E w0 cla1 p1 q1 chal1 app le1 msg1 w1 pk hd cert sig w cla control p2 chal le msg)
    as (w2 & x & y & sig2 & B1 & B2 & B3 & B4 & B5); auto; [congruence|].
  exists w2, x, y, (cl_ctr (w_client w)), sig2. do 3 (split; [assumption|]). split; [|assumption].
  cbn [handle]. unfold fmapM, bind. rewrite B4. reflexivity.
Qed.

(* ------------------------------------------------------------------ *)
(* C51                                                                 *)

Lemma ctap_ctr E msg w w' r : env_ok E -> client_ok E (w_client w) -> wfb msg ->
  ctap_handle E msg w = (w', r) -> cl_ctr (w_client w') = cl_ctr (w_client w).
Proof.
  intros L K W H. apply ctap_run in H; auto.
  destruct H as [|data w' r H|data w' r H| |data w' r H|]; try reflexivity; destruct H; reflexivity.
Qed.

(* Everything but an authentication keeps the counter. *)
Lemma handle_ctr E i w w' r : env_ok E -> client_ok E (w_client w) -> good_input i -> handle E i w = (w', r) ->
  cl_ctr (w_client w') = cl_ctr (w_client w) \/
  (cl_ctr (w_client w') = (cl_ctr (w_client w) + 1) mod 4294967296 /\
   exists msg sig, i = IU2f msg /\ r = Ok (OBytes (authentication_reply 1 (cl_ctr (w_client w)) sig))).
Proof.
  intros L K G H. destruct i as [m|m|b|p|id]; cbn [handle good_input] in *; unfold fmapM, bind at 1 in H.
  - left. destruct (ctap_handle E m w) as [w1 r1] eqn:X. assert (w' = w1) as -> by (destruct r1; cbv [ret] in H; congruence).
    eapply ctap_ctr; eauto.
  - destruct (u2f_handle E m w) as [w1 r1] eqn:X. assert (w' = w1) as -> by (destruct r1; cbv [ret] in H; congruence).
    apply u2f_effect in X as (_ & _ & _ & [->|(-> & _ & sig & ->)]); auto. right. split; [reflexivity|].
    exists m, sig. split; [reflexivity|]. cbv [ret] in H. congruence.
  - left. destruct (enable_pin E b w) as [w1 r1] eqn:X. assert (w' = w1) as -> by (destruct r1; cbv [ret] in H; congruence).
    unfold enable_pin in X. unfold bind at 1 in X. cbn [get] in X.
    apply (save_step E (IEnablePin b) (set_pin (w_client w) b)) in X as (_ & -> & _); auto using client_ok_pin. unfold same_keys; auto.
  - left. destruct (set_pin_api E p w) as [w1 r1] eqn:X. assert (w' = w1) as -> by (destruct r1; cbv [ret] in H; congruence).
    unfold set_pin_api, set_pin_hash in X. unfold bind at 1 in X. cbn [get] in X.
    destruct (hash16 (e_C E) p (eo_laws E L)) as [A B].
    apply (save_step E (ISetPin p) (set_hash (w_client w) (Some (firstn 16 (sha256 (e_C E) p))))) in X as (_ & -> & _); auto using client_ok_hash.
    unfold same_keys; auto.
  - left. destruct (delete_identity_api E id w) as [w1 r1] eqn:X. assert (w' = w1) as -> by (destruct r1; cbv [ret] in H; congruence).
    apply delete_api in X as (_ & _ & [(_ & -> & _)|(v & d & _ & _ & -> & _)]); auto.
Qed.

Lemma ctr_bound E h up w : env_ok E -> history E h up w -> starts_ok E h ->
  (up = true -> cl_ctr (w_client w) <= len h + 1) /\ forall c, saved_client E w c -> cl_ctr c <= len h + 1.
Proof.
  intros L H. induction H as [c t|h w p w' H IH S|h w p w' H IH S|h w i w' o H IH G S|h w i w' H IH G S|h w i w' r es rest H IH G S T]; intros ST;
    try (destruct IH as [IH1 IH2]; [now apply starts_ok_app in ST|]);
    try pose proof (starts_ok_app _ _ _ ST) as ST0; try rewrite len_snoc.
  1: { split; [discriminate|]. intros c0 (d & A & _). discriminate A. }
  1: { assert (P : params_ok E p) by (apply ST; left; apply in_elt).
    destruct (start_trace _ _ _ _ _ _ L P H ST0 S) as (T & _).
    assert (IH3 : forall c, saved_client E w' c -> cl_ctr c <= len h + 1).
    { intros c (d & A & B). apply IH2. exists d. now rewrite <- T. }
    split; [|intros c X; apply IH3 in X; lia].
    intros _. destruct (start_saved _ _ _ _ _ _ L P H ST0 S) as [(_ & _ & _ & -> & _)|(c & A & _ & _ & -> & _)]; [lia|].
    apply IH2 in A. lia. }
  1: { assert (P : params_ok E p) by (apply ST; right; apply in_elt).
    destruct (start_trace _ _ _ _ _ _ L P H ST0 S) as (_ & _ & X). discriminate X. }
  all: destruct (history_inv E h _ w L H ST0) as (V & _ & LV & _); destruct (LV eq_refl) as [K _];
    pose proof (handle_step E i w w' _ L K G S) as SO;
    assert (Q : cl_ctr (w_client w') <= len h + 1 + 1)
     by (specialize (IH1 eq_refl); destruct (handle_ctr E i w w' _ L K G S) as [-> |[-> _]]; [lia|];
         pose proof (N.mod_le (cl_ctr (w_client w) + 1) 4294967296 ltac:(lia)); lia).
  - split; [auto|]. intros c X.
    destruct (saved_done E i w w' c SO X) as [[Y _]|(_ & _ & _ & Y & _)]; [apply IH2 in Y; lia|]. rewrite Y. auto.
  - split; [discriminate|]. intros c X.
    destruct (saved_done E i w w' c SO X) as [[Y _]|(_ & _ & _ & Y & _)]; [apply IH2 in Y; lia|]. rewrite Y. auto.
  - split; [discriminate|]. intros c X.
    destruct (saved_step E i w w' es rest c SO T X) as [[_ Y]|(_ & _ & _ & Y & _)]; [apply IH2 in Y; lia|]. rewrite Y. auto.
Qed.

Lemma reply_counter p n sig p' n' sig' : n < 4294967296 -> n' < 4294967296 ->
  authentication_reply p n sig = authentication_reply p' n' sig' -> n = n'.
Proof.
  intros A B H. unfold authentication_reply in H. cbn [app] in H.
  assert (H' : be 4 n ++ sig ++ [144; 0] = be 4 n' ++ sig' ++ [144; 0]) by congruence.
  apply app_inj_len in H' as [H1 _]; [|now rewrite !be_len]. apply (f_equal be_dec) in H1.
  now rewrite !be_dec_be_small in H1 by (change (256 ^ N.of_nat 4) with 4294967296; assumption).
Qed.

Lemma short_reply s p n sig : (length s <= 2)%nat -> s <> authentication_reply p n sig.
Proof.
  intros H ->. unfold authentication_reply in H. rewrite !app_length, be_length in H. cbn in H. lia.
Qed.

Lemma counter_entry E i o w w' n : env_ok E -> client_ok E (w_client w) -> good_input i ->
  handle E i w = (w', Ok o) -> u2f_counter (HDone i o) n ->
  n = cl_ctr (w_client w) /\ cl_ctr (w_client w') = (n + 1) mod 4294967296.
Proof.
  intros L K G H (msg & r & p & sig & Q & I & R & N). injection Q as -> ->.
  apply handle_u2f in H as (r' & Q & H). injection Q as <-. cbn [good_input] in G.
  apply u2f_signs in H as [X|[X|[X|X]]]; auto;
    try (exfalso; rewrite R in X; symmetry in X; revert X; apply short_reply; cbn; lia).
  destruct X as (control & chal & app & h & kb & k & m & rnd & es & _ & _ & _ & _ & _ & X1 & X2 & X3 & _).
  rewrite R in X2. apply reply_counter in X2; auto; [|rewrite X1; apply (co_ctr E _ K)].
  subst n. split; [assumption|]. now rewrite X3.
Qed.

Lemma u2f_counters_increase E h1 e1 h2 e2 h3 up w n1 n2 : env_ok E ->
  let h := h1 ++ e1 :: h2 ++ e2 :: h3 in
  history E h up w -> starts_ok E h -> no_start h2 -> len h < 4294967295 ->
  u2f_counter e1 n1 -> u2f_counter e2 n2 -> n1 < n2.
Proof.
  intros L h H ST NS LH C1 C2. unfold h in *. clear h.
  assert (X : forall h2 up w, history E ((h1 ++ [e1]) ++ h2) up w -> starts_ok E ((h1 ++ [e1]) ++ h2) ->
    no_start h2 -> len h1 + 1 + len h2 < 4294967295 -> up = true -> n1 < cl_ctr (w_client w)).
  { clear h2 h3 e2 up w H ST NS LH n2 C2. intros h2. induction h2 as [|e h2 IH] using rev_ind; intros up w H ST NS LH UP.
    - rewrite app_nil_r in H, ST. apply history_last in H as (up0 & w0 & H & _ & X).
      pose proof C1 as (msg & r & p & sig & -> & _). destruct X as (-> & _ & G & X).
      pose proof (starts_ok_app _ _ _ ST) as ST0.
      destruct (history_inv E h1 _ w0 L H ST0) as (V & _ & LV & _). destruct (LV eq_refl) as [K _].
      destruct (ctr_bound E h1 _ w0 L H ST0) as [B _]. specialize (B eq_refl).
      destruct (counter_entry E _ _ w0 w n1 L K G X C1) as [Q ->]. cbn in LH. rewrite N.mod_small; lia.
    - rewrite app_assoc in H, ST. rewrite len_snoc in LH. pose proof (starts_ok_app _ _ _ ST) as ST0.
      apply history_last in H as (up0 & w0 & H & _ & X).
      assert (NS0 : no_start h2) by (intros p I; apply (NS p), in_app_iff; now left).
      destruct e as [p|p|i o|i|i]; try (destruct X as (_ & X & _); congruence).
      + exfalso. apply (NS p), in_elt.
      + destruct X as (-> & _ & G & X). specialize (IH true w0 H ST0 NS0 ltac:(lia) eq_refl).
        destruct (history_inv E _ _ w0 L H ST0) as (V & _ & LV & _). destruct (LV eq_refl) as [K _].
        destruct (ctr_bound E _ _ w0 L H ST0) as [B _]. specialize (B eq_refl).
        assert (LB : len ((h1 ++ [e1]) ++ h2) = len h1 + 1 + len h2) by (unfold len; rewrite !app_length; cbn; lia).
        destruct (handle_ctr E i w0 w _ L K G X) as [-> |[-> _]]; [assumption|]. rewrite N.mod_small; lia. }
  assert (H' : history E (((h1 ++ [e1]) ++ h2) ++ [e2] ++ h3) up w).
  { rewrite <- !app_assoc. cbn. assumption. }
  assert (ST' : starts_ok E (((h1 ++ [e1]) ++ h2) ++ [e2] ++ h3)) by (rewrite <- !app_assoc; assumption).
  rewrite app_assoc in H', ST'.
  destruct (history_forward _ _ _ _ L H' ST' _ _ eq_refl) as (up1 & w1 & H1 & _).
  pose proof (starts_ok_app _ _ _ ST') as ST1. pose proof (starts_ok_app _ _ _ ST1) as ST0.
  apply history_last in H1 as (up0 & w0 & H1 & _ & Y). pose proof C2 as (msg & r & p & sig & -> & _).
  destruct Y as (-> & _ & G & Y).
  destruct (history_inv E _ _ w0 L H1 ST0) as (V & _ & LV & _). destruct (LV eq_refl) as [K _].
  destruct (counter_entry E _ _ w0 w1 n2 L K G Y C2) as [-> _].
  apply (X h2 true); auto. unfold len in *. rewrite !app_length in LH. cbn [length] in LH. rewrite app_length in LH. cbn [length] in LH. lia.
Qed.

(* ------------------------------------------------------------------ *)
(* C39                                                                 *)

Lemma retries_step E i w w' o : env_ok E -> client_ok E (w_client w) -> good_input i ->
  handle E i w = (w', Ok o) -> ~ right_pin (HDone i o) ->
  (cl_retries (w_client w') + (if wrong_guess (HDone i o) then 1 else 0) <= cl_retries (w_client w))%Z.
Proof.
  intros L K G H NR. pose proof (co_retries E _ K) as RR.
  assert (OTHER : cl_retries (w_client w') = cl_retries (w_client w) -> wrong_guess (HDone i o) = false ->
    (cl_retries (w_client w') + (if wrong_guess (HDone i o) then 1 else 0) <= cl_retries (w_client w))%Z)
    by (intros -> ->; lia).
  destruct i as [m|m|b|p|id]; cbn [good_input] in *.
  - apply handle_ctap in H as (r & -> & H). apply ctap_run in H; auto.
    assert (NW : forall c data, c <> 6 -> wrong_guess (HDone (ICtap (c :: data)) (OBytes r)) = false).
    { intros c data N. cbn. apply N.eqb_neq in N. rewrite N. destruct r as [|? [|]]; reflexivity. }
    remember (Ok r) as q eqn:Q.
    destruct H as [|data w' q H|data w' q H| |data w' q H|]; try discriminate Q;
      try (apply OTHER; [destruct H; reflexivity|apply NW; discriminate]); try (apply OTHER; [reflexivity|now apply NW]).
    assert (NX : forall s b, r = s :: b -> s <> 49 -> wrong_guess (HDone (ICtap (6 :: data)) (OBytes r)) = false).
    { intros s b -> N. cbn. apply N.eqb_neq in N. rewrite N. destruct b; reflexivity. }
    assert (BAD : forall a, unmarshal dec_cp data = Some a ->
      (((pn_sub a = 3 \/ pn_sub a = 4 \/ pn_sub a = 5) /\ exists b, r = 0 :: b) \/ (pn_sub a = 4 /\ r = [55])) -> False).
    { intros a U X. apply NR. exists data, a, r. auto. }
    destruct H; try discriminate Q.
    + apply OTHER; [reflexivity|]. apply (NX 1 []); congruence.
    + apply OTHER; [reflexivity|]. apply (NX 18 []); congruence.
    + apply OTHER; [reflexivity|]. apply (NX 2 []); congruence.
    + apply OTHER; [reflexivity|].
      match goal with X : pin_plain _ _ _ _ |- _ => destruct X end; try discriminate Q;
        match type of Q with Ok (?s :: ?b) = Ok r => apply (NX s b); [congruence|discriminate] end.
    + exfalso. apply (BAD a); auto. left. split; [auto|]. exists []. congruence.
    + assert (r = [49]) as -> by congruence. cbn. change ((6 =? 6) && (49 =? 49))%bool with true. cbn iota. lia.
    + match goal with X : _ \/ _ |- _ => destruct X as [[-> _]|[-> _]] end; [|discriminate Q].
      exfalso. apply (BAD a); auto. right. split; [assumption|congruence].
    + exfalso. apply (BAD a); auto. left. split; [auto|]. exists []. congruence.
    + exfalso. apply (BAD a); auto. left. split; [auto|]. eexists. symmetry in Q. injection Q as Q. exact Q.
  - apply handle_u2f in H as (r & -> & H). apply OTHER; [|reflexivity].
    apply u2f_effect in H as (_ & _ & _ & [->|(-> & _)]); auto.
  - apply OTHER; [|reflexivity]. cbn [handle] in H. unfold fmapM, bind at 1 in H.
    destruct (enable_pin E b w) as [w1 r1] eqn:X. assert (w' = w1) as -> by (destruct r1; cbv [ret] in H; congruence).
    unfold enable_pin in X. unfold bind at 1 in X. cbn [get] in X.
    apply (save_step E (IEnablePin b) (set_pin (w_client w) b)) in X as (_ & -> & _); auto using client_ok_pin. unfold same_keys; auto.
  - apply OTHER; [|reflexivity]. cbn [handle] in H. unfold fmapM, bind at 1 in H.
    destruct (set_pin_api E p w) as [w1 r1] eqn:X. assert (w' = w1) as -> by (destruct r1; cbv [ret] in H; congruence).
    unfold set_pin_api, set_pin_hash in X. unfold bind at 1 in X. cbn [get] in X.
    destruct (hash16 (e_C E) p (eo_laws E L)) as [A B].
    apply (save_step E (ISetPin p) (set_hash (w_client w) (Some (firstn 16 (sha256 (e_C E) p))))) in X as (_ & -> & _); auto using client_ok_hash.
    unfold same_keys; auto.
  - apply OTHER; [|reflexivity]. cbn [handle] in H. unfold fmapM, bind at 1 in H.
    destruct (delete_identity_api E id w) as [w1 r1] eqn:X. assert (w' = w1) as -> by (destruct r1; cbv [ret] in H; congruence).
    apply delete_api in X as (_ & _ & [(_ & -> & _)|(v & d & _ & _ & -> & _)]); auto.
Qed.


Lemma wrong_snoc h e : wrong_count (h ++ [e]) = (wrong_count h + (if wrong_guess e then 1 else 0))%Z.
Proof. unfold wrong_count. rewrite filter_app, app_length. cbn. destruct (wrong_guess e); cbn; lia. Qed.

Lemma guesses_limited E h1 h2 up w : env_ok E -> history E (h1 ++ h2) up w -> starts_ok E (h1 ++ h2) ->
  no_start h2 -> (forall e, In e h2 -> ~ right_pin e) ->
  (wrong_count h2 <= 8)%Z /\ (up = true -> wrong_count h2 + cl_retries (w_client w) <= 8)%Z.
Proof.
  intros L. revert up w. induction h2 as [|e h2 IH] using rev_ind; intros up w H ST NS NR.
  - rewrite app_nil_r in H, ST. split; [cbn; lia|]. intros ->.
    destruct (history_inv E _ _ w L H ST) as (V & _ & LV & _). destruct (LV eq_refl) as [K _].
    pose proof (co_retries E _ K). cbn. lia.
  - rewrite app_assoc in H, ST. pose proof (starts_ok_app _ _ _ ST) as ST0.
    apply history_last in H as (up0 & w0 & H & _ & X).
    assert (NS0 : no_start h2) by (intros p I; apply (NS p), in_app_iff; now left).
    assert (NR0 : forall e, In e h2 -> ~ right_pin e) by (intros e' I; apply NR, in_app_iff; now left).
    destruct (IH up0 w0 H ST0 NS0 NR0) as [B1 B2]. rewrite wrong_snoc.
    destruct e as [p|p|i o|i|i]; cbn [wrong_guess]; try (split; [lia|]; destruct X as (_ & X & _); intros ->; discriminate X).
    + exfalso. apply (NS p), in_elt.
    + destruct X as (-> & -> & G & X). specialize (B2 eq_refl).
      destruct (history_inv E _ _ w0 L H ST0) as (V & _ & LV & _). destruct (LV eq_refl) as [K _].
      pose proof (handle_step E i w0 w _ L K G X) as (K' & _). pose proof (co_retries E _ K').
      pose proof (retries_step E i w0 w o L K G X (NR _ (in_elt _ _ _))) as R.
      fold (wrong_guess (HDone i o)). split; lia.
Qed.

(* PIN_BLOCKED is never answered: the device crashes instead. *)
Lemma never_blocked E h up w : env_ok E -> history E h up w -> starts_ok E h ->
  forall data, ~ In (HDone (ICtap (6 :: data)) (OBytes [50])) h.
Proof.
  intros L. revert up w. induction h as [|e h IH] using rev_ind; intros up w H ST data I; [destruct I|].
  pose proof (starts_ok_app _ _ _ ST) as ST0. apply history_last in H as (up0 & w0 & H & _ & X).
  apply in_app_iff in I as [I|[->|[]]]; [now apply (IH _ _ H ST0 data)|].
  destruct X as (-> & -> & G & X). destruct (history_inv E _ _ w0 L H ST0) as (V & _ & LV & _). destruct (LV eq_refl) as [K _].
  apply handle_ctap in X as (r & Q & X). injection Q as <-. cbn [good_input] in G. apply wfb_cons in G as [_ G].
  apply pin_run in X; auto. remember (@Ok bytes [50]) as q eqn:Q. destruct X; try discriminate Q.
  - match goal with X : pin_plain _ _ _ _ |- _ => destruct X end; discriminate Q.
  - match goal with X : _ \/ _ |- _ => destruct X as [[-> _]|[-> _]] end; discriminate Q.
Qed.

Lemma exhausted_crashes E h1 h2 w data a : env_ok E -> history E (h1 ++ h2) true w -> starts_ok E (h1 ++ h2) ->
  no_start h2 -> (forall e, In e h2 -> ~ right_pin e) -> wrong_count h2 = 8%Z ->
  cl_pin (w_client w) = true -> wfb data -> unmarshal dec_cp data = Some a -> pn_protocol a = 1 ->
  pn_sub a = 5 -> pn_key a <> None -> (forall k, pn_key a = Some k -> e2_x k <> None) -> pn_hash a <> None ->
  ctap_handle E (6 :: data) w = (w, Panic).
Proof.
  intros L H ST NS NR C P W U PR SB NK NX NH.
  destruct (guesses_limited E h1 h2 _ _ L H ST NS NR) as [_ B]. specialize (B eq_refl).
  destruct (history_inv E _ _ w L H ST) as (V & _ & LV & _). destruct (LV eq_refl) as [K _].
  pose proof (co_retries E _ K) as RR. assert (R0 : cl_retries (w_client w) = 0%Z) by lia.
  destruct (ctap_handle E (6 :: data) w) as [w' r] eqn:X. apply pin_run in X; auto.
  destruct X; try congruence; try (match goal with X : unmarshal dec_cp data = Some ?b |- _ => assert (b = a) by congruence; subst b end); try congruence; try lia.
  match goal with X : pin_plain _ _ _ _ |- _ => destruct X end; try congruence; try lia.
  exfalso. match goal with X : pn_sub a = 5 -> _ |- _ => destruct (X SB) as [Y|(k & Y & Z)] end; [now apply NH|].
  now apply (NX k).
Qed.

(* ------------------------------------------------------------------ *)
(* C31                                                                 *)

Lemma owner_kept E h1 d1 r1 h2 w id x y a rp : env_ok E ->
  let h := h1 ++ HDone (ICtap (1 :: d1)) (OBytes r1) :: h2 in
  history E h true w -> starts_ok E h -> no_start h2 -> no_clash E (w_tick w) -> len h <= 4294967295 ->
  registered r1 id x y -> unmarshal dec_mc d1 = Some a -> mc_rp a = Some rp ->
  drawn E (w_tick w) id /\ forall s, In s (cl_vault (w_client w)) -> cs_id s = id -> cs_rp s = rp.
Proof.
  intros L h H ST NS NC LH R U RP. unfold h in *. clear h.
  change (HDone (ICtap (1 :: d1)) (OBytes r1) :: h2) with ([HDone (ICtap (1 :: d1)) (OBytes r1)] ++ h2) in H, ST, LH.
  rewrite app_assoc in H, ST, LH. remember true as up eqn:UP.
  revert up w H ST NS NC LH UP. induction h2 as [|e h2 IH] using rev_ind; intros up w H ST NS NC LH UP.
  - rewrite app_nil_r in H, ST, LH.
    destruct (history_inv E _ _ w L H ST) as (V & _ & LV & SV). destruct (LV UP) as [K Q].
    specialize (SV NC LH). apply (sound_core _ _ _ _ (cl_vault (w_client w))) in SV; [|now symmetry].
    destruct SV as (ND & _ & _ & SY). destruct (SY _ _ _ (in_elt _ _ _) (Says_reg d1 r1 id x y R)) as [DR _].
    split; [assumption|].
    apply history_last in H as (up0 & w0 & H & _ & -> & _ & G & X).
    pose proof (starts_ok_app _ _ _ ST) as ST0.
    destruct (history_inv E _ _ w0 L H ST0) as (V0 & _ & LV0 & _). destruct (LV0 eq_refl) as [K0 _].
    apply handle_ctap in X as (r & Q' & X). injection Q' as <-. destruct (registered_ok _ _ _ _ R) as (b & ->).
    cbn [good_input] in G. apply wfb_cons in G as [_ G].
    apply registration_verifies in X as (a' & rp' & u & au & sg & ce & ad & id1 & key & xb & yb & s1 & U' & RP' & _ & H1 & H2 & _ & _ & _ & _ & H3 & _ & H4 & _ & _ & H5 & H6 & H7 & _); auto.
    assert (a' = a) by congruence. subst a'. assert (rp' = rp) by congruence. subst rp'.
    assert (R1 : registered (0 :: b) id1 (be_dec xb) (be_dec yb)) by (exists au, sg, ce, ad, key, xb, yb; auto 10).
    destruct (registered_one _ _ _ _ _ _ _ R R1) as (-> & -> & ->).
    intros s I Qs. rewrite H5 in I, ND. rewrite map_app in ND. cbn in ND. apply NoDup_remove_2 in ND.
    apply in_app_iff in I as [I|[<-|[]]]; [|assumption]. exfalso. apply ND. rewrite app_nil_r, H6, <- Qs. now apply in_map.
  - rewrite app_assoc in H, ST, LH. rewrite len_snoc in LH. pose proof (starts_ok_app _ _ _ ST) as ST0.
    apply history_last in H as (up0 & w0 & H & _ & X).
    assert (NS0 : no_start h2) by (intros p I; apply (NS p), in_app_iff; now left).
    destruct e as [p|p|i o|i|i]; try (destruct X as (_ & X & _); congruence); [exfalso; apply (NS p), in_elt|].
    destruct X as (-> & _ & G & X).
    destruct (history_inv E _ _ w0 L H ST0) as (V & _ & LV & _). destruct (LV eq_refl) as [K _].
    pose proof (handle_step E i w0 w _ L K G X) as (_ & LE & VC & _).
    destruct (IH true w0 H ST0 NS0) as [DR OW]; auto; [intros k k' A B; apply NC; lia|lia|].
    split; [eapply drawn_le; eauto|]. intros s I Q. inversion VC as [EQ|k rp' u T1 T2 EQ|v1 z v2 V1 EQ|z v' Qi P EQ].
    + apply OW; auto. congruence.
    + rewrite <- EQ in I. apply in_app_iff in I as [I|[I|[]]]; [now apply OW|]. exfalso.
      destruct DR as (j & J & DR). rewrite <- I in Q. cbn in Q. rewrite DR in Q. apply NC in Q; lia.
    + rewrite <- EQ in I. apply in_app_iff in I as [I|[I|I]].
      * apply OW; [rewrite V1; apply in_app_iff; now left|assumption].
      * rewrite <- I in *. cbn in *. apply OW; [rewrite V1; apply in_elt|assumption].
      * apply OW; [rewrite V1; apply in_app_iff; right; now right|assumption].
    + apply OW; [|assumption]. eapply Permutation_in; [symmetry; exact P|]. right. congruence.
Qed.

Lemma scoped E h1 d1 r1 h2 d2 r2 h3 up w id x y n a rp : env_ok E ->
  let h := h1 ++ HDone (ICtap (1 :: d1)) (OBytes r1) :: h2 ++ HDone (ICtap (2 :: d2)) (OBytes r2) :: h3 in
  history E h up w -> starts_ok E h -> fresh E w -> len h < 4294967296 -> no_start h2 ->
  registered r1 id x y -> unmarshal dec_mc d1 = Some a -> mc_rp a = Some rp -> asserted r2 id n ->
  exists g, unmarshal dec_ga d2 = Some g /\ ga_rp g = rp_id rp.
Proof.
  intros L h H ST F LH NS R U RP A2. unfold h in *. clear h.
  rewrite app_comm_cons, app_assoc in H, ST, LH.
  destruct (at_request _ _ _ _ _ _ _ L H ST F ltac:(lia)) as (w0 & w1 & H0 & _ & T1 & G & X & K0 & S0 & _).
  pose proof (starts_ok_app _ _ _ ST) as ST0.
  pose proof (handle_step E _ w0 w1 _ L K0 G X) as (_ & LE & _).
  destruct (owner_kept E h1 d1 r1 h2 w0 id x y a rp L H0 ST0 NS) as [_ OW]; auto.
  { intros k k' A B. apply F; lia. }
  { unfold len in *. rewrite app_length in LH. cbn [length] in LH. lia. }
  apply handle_ctap in X as (r & Q & X). injection Q as <-. destruct (asserted_ok _ _ _ A2) as (b & ->).
  cbn [good_input] in G. apply wfb_cons in G as [_ G].
  apply assertion_facts in X as (g & au & sg & ad & v1 & s1 & v2 & s2 & xx & yy & es & Ug & Y1 & Y2 & _ & _ & Y3 & Y4 & AL & _); auto.
  assert (R1 : asserted (0 :: b) (cs_id s1) (ad_count ad)) by (exists au, sg, ad; auto).
  destruct (asserted_one _ _ _ _ _ A2 R1) as (-> & ->).
  assert (I1 : In s1 (cl_vault (w_client w0))) by (rewrite Y4; apply in_elt).
  exists g. split; [assumption|]. destruct AL as [AL _]. rewrite <- (OW s1 I1 eq_refl). now symmetry.
Qed.

(* The allow list is respected in every history. *)
Lemma allow_respected E h1 d2 r2 h3 up w id n : env_ok E ->
  let h := h1 ++ HDone (ICtap (2 :: d2)) (OBytes r2) :: h3 in
  history E h up w -> starts_ok E h -> fresh E w -> len h < 4294967296 -> asserted r2 id n ->
  exists g, unmarshal dec_ga d2 = Some g /\
    match ga_allow g with None => True | Some l => exists d, In d l /\ or_nil (de_id d) = id end.
Proof.
  intros L h H ST F LH A2. unfold h in *. clear h.
  destruct (at_request _ _ _ _ _ _ _ L H ST F ltac:(lia)) as (w0 & w1 & H0 & _ & T1 & G & X & K0 & S0 & _).
  apply handle_ctap in X as (r & Q & X). injection Q as <-. destruct (asserted_ok _ _ _ A2) as (b & ->).
  cbn [good_input] in G. apply wfb_cons in G as [_ G].
  apply assertion_facts in X as (g & au & sg & ad & v1 & s1 & v2 & s2 & xx & yy & es & Ug & Y1 & Y2 & _ & _ & Y3 & Y4 & AL & _); auto.
  assert (R1 : asserted (0 :: b) (cs_id s1) (ad_count ad)) by (exists au, sg, ad; auto).
  destruct (asserted_one _ _ _ _ _ A2 R1) as (-> & ->).
  exists g. split; [assumption|]. apply AL.
Qed.

(* ------------------------------------------------------------------ *)
(* Registered credentials stay                                         *)

Definition has_cred (id : bytes) (x y : N) (v : list source) : Prop :=
  exists s, In s v /\ cs_id s = id /\ public_of (cs_key s) x y.

Lemma has_core id x y v v' : map core v = map core v' -> has_cred id x y v -> has_cred id x y v'.
Proof.
  intros Q (s & I & A & B). destruct (core_in v v' s Q I) as (s' & I' & C). unfold core in C. injection C as _ C1 C2 _.
  exists s'. split; [assumption|]. rewrite C1, C2. auto.
Qed.

Lemma has_change E i t t' id x y v v' : vchange E i t t' v v' -> i <> IDelete id ->
  has_cred id x y v -> has_cred id x y v'.
Proof.
  intros VC N (s & I & A & B). destruct VC as [|k rp u T1 T2|v1 z v2 ->|z v' Qi P].
  - exists s. auto.
  - exists s. split; [apply in_app_iff; now left|auto].
  - apply in_app_iff in I as [I|[I|I]].
    + exists s. split; [apply in_app_iff; now left|auto].
    + exists (bump z). split; [apply in_elt|]. subst z. auto.
    + exists s. split; [apply in_app_iff; right; now right|auto].
  - apply (Permutation_in _ P) in I as [->|I]; [congruence|]. exists s. auto.
Qed.

Lemma credentials_stay E h1 d1 r1 h2 up w id x y : env_ok E ->
  let h := h1 ++ HDone (ICtap (1 :: d1)) (OBytes r1) :: h2 in
  history E h up w -> starts_ok E h -> registered r1 id x y ->
  (forall e, In e h2 -> input_of e <> Some (IDelete id)) ->
  (up = true -> has_cred id x y (cl_vault (w_client w))) /\
  exists c, saved_client E w c /\ has_cred id x y (cl_vault c).
Proof.
  intros L h H ST R ND. unfold h in *. clear h.
  change (HDone (ICtap (1 :: d1)) (OBytes r1) :: h2) with ([HDone (ICtap (1 :: d1)) (OBytes r1)] ++ h2) in H, ST.
  rewrite app_assoc in H, ST.
  revert up w H ST ND. induction h2 as [|e h2 IH] using rev_ind; intros up w H ST ND.
  - rewrite app_nil_r in H, ST. apply history_last in H as (up0 & w0 & H & _ & -> & _ & G & X).
    pose proof (starts_ok_app _ _ _ ST) as ST0.
    destruct (history_inv E _ _ w0 L H ST0) as (V0 & _ & LV0 & _). destruct (LV0 eq_refl) as [K0 _].
    pose proof (handle_step E _ w0 w _ L K0 G X) as SO.
    apply handle_ctap in X as (r & Q' & X). injection Q' as <-. destruct (registered_ok _ _ _ _ R) as (b & ->).
    cbn [good_input] in G. apply wfb_cons in G as [_ G]. pose proof X as X'.
    apply registration_verifies in X as (a' & rp' & u & au & sg & ce & ad & id1 & key & xb & yb & s1 & U' & RP' & _ & H1 & H2 & _ & _ & _ & _ & H3 & _ & H4 & _ & _ & H5 & H6 & _ & _ & _ & H7); auto.
    assert (R1 : registered (0 :: b) id1 (be_dec xb) (be_dec yb)) by (exists au, sg, ce, ad, key, xb, yb; auto 10).
    destruct (registered_one _ _ _ _ _ _ _ R R1) as (-> & -> & ->).
    assert (HC : has_cred id1 (be_dec xb) (be_dec yb) (cl_vault (w_client w))).
    { exists s1. split; [rewrite H5; apply in_elt|auto]. }
    split; [auto|]. exists (w_client w). split; [|assumption].
    apply mc_run in X'; auto. apply mc_success in X' as (a & f & rp & u' & d & cert & _ & _ & _ & _ & _ & _ & S & _ & -> & _).
    exists d. split; [|exact S]. cbn [w_trace]. now rewrite saved_app.
  - rewrite app_assoc in H, ST. pose proof (starts_ok_app _ _ _ ST) as ST0.
    apply history_last in H as (up0 & w0 & H & _ & X).
    assert (ND0 : forall e, In e h2 -> input_of e <> Some (IDelete id)) by (intros e' I; apply ND, in_app_iff; now left).
    destruct (IH up0 w0 H ST0 ND0) as [IH1 (c & IH2 & IH3)]. clear IH.
    pose proof (ND e (in_elt _ _ _)) as NE.
    assert (HOLD : w_trace w = w_trace w0 -> exists c, saved_client E w c /\ has_cred id x y (cl_vault c)).
    { intro T. exists c. split; [|assumption]. destruct IH2 as (d & A & B). exists d. now rewrite T. }
    assert (STEP : forall i w' es rest, step_ok E i w0 w' -> i <> IDelete id -> up0 = true ->
      w_trace w' = w_trace w0 ++ es ++ rest -> w_trace w = w_trace w0 ++ es ->
      has_cred id x y (cl_vault (w_client w')) /\ exists c, saved_client E w c /\ has_cred id x y (cl_vault c)).
    { intros i w' es rest SO Ni UP T1 T2. specialize (IH1 UP). pose proof SO as (K' & _ & VC & _ & es' & Ev & Sv).
      pose proof (has_change _ _ _ _ _ _ _ _ _ VC Ni IH1) as HC. split; [assumption|].
      unfold events in Ev. rewrite T1 in Ev. apply app_inv_head in Ev. subst es'. rewrite saves_app in Sv.
      destruct (saves es) as [|d l] eqn:Q.
      - exists c. split; [|assumption]. destruct IH2 as (d & A & B). exists d. split; [|assumption].
        rewrite T2, saved_app. unfold last_save. now rewrite Q.
      - destruct Sv as [[Sv _]|(d' & Sv & St)]; [discriminate Sv|]. cbn in Sv. injection Sv as <- Sv.
        apply app_eq_nil in Sv as [-> _]. exists (w_client w'). split; [|assumption]. exists d. split; [|assumption].
        rewrite T2, saved_app. unfold last_save. now rewrite Q. }
    destruct e as [p|p|i o|i|i]; cbn [input_of] in NE.
    + destruct X as (-> & -> & X). assert (P : params_ok E p) by (apply ST; left; apply in_elt).
      destruct (start_trace _ _ _ _ _ _ L P H ST0 X) as (T & _). split; [|now apply HOLD]. intros _.
      destruct (start_saved _ _ _ _ _ _ L P H ST0 X) as [(N & _)|(c' & A & -> & _)].
      * destruct IH2 as (d & A & _). congruence.
      * eapply has_core; [symmetry; apply smeared_core|]. destruct IH2 as (d & A1 & B1), A as (d' & A2 & B2).
        assert (d' = d) by congruence. subst d'. destruct (stored_same E d c c' B1 B2) as (_ & _ & _ & _ & _ & _ & <-). assumption.
    + destruct X as (-> & -> & X). assert (P : params_ok E p) by (apply ST; right; apply in_elt).
      destruct (start_trace _ _ _ _ _ _ L P H ST0 X) as (_ & _ & Y). discriminate Y.
    + destruct X as (-> & -> & G & X). destruct (history_inv E _ _ w0 L H ST0) as (V0 & _ & LV0 & _). destruct (LV0 eq_refl) as [K0 _].
      pose proof (handle_step E _ w0 w _ L K0 G X) as SO. pose proof SO as (_ & _ & _ & _ & es & Ev & _).
      destruct (STEP i w es []) as [A B]; [exact SO|congruence|reflexivity|rewrite app_nil_r; exact Ev|exact Ev|auto].
    + destruct X as (-> & -> & G & X). destruct (history_inv E _ _ w0 L H ST0) as (V0 & _ & LV0 & _). destruct (LV0 eq_refl) as [K0 _].
      pose proof (handle_step E _ w0 w _ L K0 G X) as SO. pose proof SO as (_ & _ & _ & _ & es & Ev & _).
      destruct (STEP i w es []) as [A B]; [exact SO|congruence|reflexivity|rewrite app_nil_r; exact Ev|exact Ev|split; [discriminate|assumption]].
    + destruct X as (-> & -> & G & w' & r & es & rest & X & T & ->).
      destruct (history_inv E _ _ w0 L H ST0) as (V0 & _ & LV0 & _). destruct (LV0 eq_refl) as [K0 _].
      pose proof (handle_step E _ w0 w' _ L K0 G X) as SO.
      destruct (STEP i w' es rest) as [A B]; [exact SO|congruence|reflexivity|exact T|reflexivity|split; [discriminate|assumption]].
Qed.

(* ------------------------------------------------------------------ *)
(* The PIN                                                             *)

Lemma handle_hash E i w w' r : env_ok E -> client_ok E (w_client w) -> good_input i -> handle E i w = (w', r) ->
  cl_hash (w_client w') = cl_hash (w_client w) \/ may_change_pin i.
Proof.
  intros L K G H. destruct i as [m|m|b|p|id]; cbn [handle good_input may_change_pin] in *; unfold fmapM, bind at 1 in H.
  - destruct (ctap_handle E m w) as [w1 r1] eqn:X. assert (w' = w1) as -> by (destruct r1; cbv [ret] in H; congruence).
    destruct (list_eq_dec N.eq_dec (or_nil (cl_hash (w_client w1))) (or_nil (cl_hash (w_client w)))) as [Q|Q].
    + clear H. apply ctap_run in X; auto.
      destruct X as [|data w' r' X|data w' r' X| |data w' r' X|]; try (left; reflexivity); destruct X; try (left; reflexivity);
      right; exists data, a; auto.
    + right. destruct (hash_change E m w w1 r1 L K G X) as (_ & data & a & k & s & pin & -> & U & _ & _ & _ & _ & _ & _ & _ & Z).
      { intro Z. apply Q. now rewrite Z. }
      exists data, a. split; [reflexivity|]. split; [assumption|]. destruct Z as [(Z & _)|(Z & _)]; auto.
  - left. destruct (u2f_handle E m w) as [w1 r1] eqn:X. assert (w' = w1) as -> by (destruct r1; cbv [ret] in H; congruence).
    apply u2f_effect in X as (_ & _ & _ & [->|(-> & _)]); auto.
  - left. destruct (enable_pin E b w) as [w1 r1] eqn:X. assert (w' = w1) as -> by (destruct r1; cbv [ret] in H; congruence).
    unfold enable_pin in X. unfold bind at 1 in X. cbn [get] in X.
    apply (save_step E (IEnablePin b) (set_pin (w_client w) b)) in X as (_ & -> & _); auto using client_ok_pin. unfold same_keys; auto.
  - now right.
  - left. destruct (delete_identity_api E id w) as [w1 r1] eqn:X. assert (w' = w1) as -> by (destruct r1; cbv [ret] in H; congruence).
    apply delete_api in X as (_ & _ & [(_ & -> & _)|(v & d & _ & _ & -> & _)]); auto.
Qed.

(* A PIN set through the local interface stays. *)
Lemma pin_stays E h1 pin h2 up w : env_ok E ->
  let h := h1 ++ HDone (ISetPin pin) OUnit :: h2 in
  history E h up w -> starts_ok E h ->
  (forall e i, In e h2 -> input_of e = Some i -> ~ may_change_pin i) ->
  (up = true -> cl_hash (w_client w) = Some (firstn 16 (sha256 (e_C E) pin))) /\
  exists c, saved_client E w c /\ cl_hash c = Some (firstn 16 (sha256 (e_C E) pin)).
Proof.
  intros L h H ST ND. unfold h in *. clear h.
  change (HDone (ISetPin pin) OUnit :: h2) with ([HDone (ISetPin pin) OUnit] ++ h2) in H, ST.
  rewrite app_assoc in H, ST.
  revert up w H ST ND. induction h2 as [|e h2 IH] using rev_ind; intros up w H ST ND.
  - rewrite app_nil_r in H, ST. apply history_last in H as (up0 & w0 & H & _ & -> & _ & G & X).
    pose proof (starts_ok_app _ _ _ ST) as ST0.
    destruct (history_inv E _ _ w0 L H ST0) as (V0 & _ & LV0 & _). destruct (LV0 eq_refl) as [K0 _].
    cbn [handle] in X. unfold fmapM, bind at 1 in X.
    destruct (set_pin_api E pin w0) as [w1 r1] eqn:Y. assert (w = w1) as -> by (destruct r1; cbv [ret] in X; congruence). clear X.
    unfold set_pin_api, set_pin_hash in Y. unfold bind at 1 in Y. cbn [get] in Y.
    destruct (hash16 (e_C E) pin (eo_laws E L)) as [A B].
    assert (Z : exists d, stored E d (w_client w1) /\ w_trace w1 = w_trace w0 ++ [EvSave d] /\
                cl_hash (w_client w1) = Some (firstn 16 (sha256 (e_C E) pin))).
    { pattern w1, r1. eapply wp_eq; [|exact Y]. clear w1 r1 Y. apply wp_bind, wp_put. apply wp_save; auto.
      - now apply client_ok_hash.
      - intros d D. exists d. auto. }
    destruct Z as (d & S & T & Q). split; [auto|]. exists (w_client w1). split; [|assumption]. exists d. split; [|assumption].
    now rewrite T, saved_app.
  - rewrite app_assoc in H, ST. pose proof (starts_ok_app _ _ _ ST) as ST0.
    apply history_last in H as (up0 & w0 & H & _ & X).
    assert (ND0 : forall e i, In e h2 -> input_of e = Some i -> ~ may_change_pin i) by (intros e' i I; apply ND, in_app_iff; now left).
    destruct (IH up0 w0 H ST0 ND0) as [IH1 (c & IH2 & IH3)]. clear IH.
    pose proof (fun i => ND e i (in_elt _ _ _)) as NE.
    assert (HOLD : w_trace w = w_trace w0 -> exists c, saved_client E w c /\ cl_hash c = Some (firstn 16 (sha256 (e_C E) pin))).
    { intro T. exists c. split; [|assumption]. destruct IH2 as (d & A & B). exists d. now rewrite T. }
    assert (STEP : forall i w' r es rest, client_ok E (w_client w0) -> good_input i -> handle E i w0 = (w', r) ->
      step_ok E i w0 w' -> ~ may_change_pin i -> up0 = true ->
      w_trace w' = w_trace w0 ++ es ++ rest -> w_trace w = w_trace w0 ++ es ->
      cl_hash (w_client w') = Some (firstn 16 (sha256 (e_C E) pin)) /\
      exists c, saved_client E w c /\ cl_hash c = Some (firstn 16 (sha256 (e_C E) pin))).
    { intros i w' r es rest K0 G Hh SO Ni UP T1 T2. specialize (IH1 UP). pose proof SO as (K' & _ & VC & _ & es' & Ev & Sv).
      assert (HC : cl_hash (w_client w') = Some (firstn 16 (sha256 (e_C E) pin))).
      { destruct (handle_hash E i w0 w' r L K0 G Hh) as [->|Z]; [assumption|contradiction]. }
      split; [assumption|].
      unfold events in Ev. rewrite T1 in Ev. apply app_inv_head in Ev. subst es'. rewrite saves_app in Sv.
      destruct (saves es) as [|d l] eqn:Q.
      - exists c. split; [|assumption]. destruct IH2 as (d & A & B). exists d. split; [|assumption].
        rewrite T2, saved_app. unfold last_save. now rewrite Q.
      - destruct Sv as [[Sv _]|(d' & Sv & St)]; [discriminate Sv|]. cbn in Sv. injection Sv as <- Sv.
        apply app_eq_nil in Sv as [-> _]. exists (w_client w'). split; [|assumption]. exists d. split; [|assumption].
        rewrite T2, saved_app. unfold last_save. now rewrite Q. }
    destruct e as [p|p|i o|i|i]; cbn [input_of] in NE.
    + destruct X as (-> & -> & X). assert (P : params_ok E p) by (apply ST; left; apply in_elt).
      destruct (start_trace _ _ _ _ _ _ L P H ST0 X) as (T & _). split; [|now apply HOLD]. intros _.
      destruct (start_saved _ _ _ _ _ _ L P H ST0 X) as [(N & _)|(c' & A & _ & -> & _)].
      * destruct IH2 as (d & A & _). congruence.
      * destruct IH2 as (d & A1 & B1), A as (d' & A2 & B2).
        assert (d' = d) by congruence. subst d'. destruct (stored_same E d c c' B1 B2) as (_ & _ & _ & _ & _ & <- & _). assumption.
    + destruct X as (-> & -> & X). assert (P : params_ok E p) by (apply ST; right; apply in_elt).
      destruct (start_trace _ _ _ _ _ _ L P H ST0 X) as (_ & _ & Y). discriminate Y.
    + destruct X as (-> & -> & G & X). destruct (history_inv E _ _ w0 L H ST0) as (V0 & _ & LV0 & _). destruct (LV0 eq_refl) as [K0 _].
      pose proof (handle_step E _ w0 w _ L K0 G X) as SO. pose proof SO as (_ & _ & _ & _ & es & Ev & _).
      destruct (STEP i w (Ok o) es []) as [A B]; [exact K0|exact G|exact X|exact SO|auto|reflexivity|rewrite app_nil_r; exact Ev|exact Ev|auto].
    + destruct X as (-> & -> & G & X). destruct (history_inv E _ _ w0 L H ST0) as (V0 & _ & LV0 & _). destruct (LV0 eq_refl) as [K0 _].
      pose proof (handle_step E _ w0 w _ L K0 G X) as SO. pose proof SO as (_ & _ & _ & _ & es & Ev & _).
      destruct (STEP i w Panic es []) as [A B]; [exact K0|exact G|exact X|exact SO|auto|reflexivity|rewrite app_nil_r; exact Ev|exact Ev|split; [discriminate|assumption]].
    + destruct X as (-> & -> & G & w' & r & es & rest & X & T & ->).
      destruct (history_inv E _ _ w0 L H ST0) as (V0 & _ & LV0 & _). destruct (LV0 eq_refl) as [K0 _].
      pose proof (handle_step E _ w0 w' _ L K0 G X) as SO.
      destruct (STEP i w' r es rest) as [A B]; [exact K0|exact G|exact X|exact SO|auto|reflexivity|exact T|reflexivity|split; [discriminate|assumption]].
Qed.

(* ------------------------------------------------------------------ *)
(* Running a script                                                    *)

Inductive move : Type := MvStart (p : params) | MvDo (i : input) | MvCrash (i : input) (k : nat).

Definition good_inputb (i : input) : bool :=
  match i with ICtap m | IU2f m => wfbb m | ISetPin p => wfbb p | IDelete id => wfbb id | IEnablePin _ => true end.

Fixpoint play (E : Env) (l : list move) (up : bool) (w : world) : option (list entry * bool * world) :=
  match l with
  | [] => Some ([], up, w)
  | MvStart p :: l =>
    if up then None else
      match start E p (saved_in (w_trace w)) w with
      | (w', Ok _) => match play E l true w' with Some (h, u, z) => Some (HStart p :: h, u, z) | None => None end
      | (w', Panic) => match play E l false w' with Some (h, u, z) => Some (HStartFailed p :: h, u, z) | None => None end
      end
  | MvDo i :: l =>
    if (up && good_inputb i)%bool then
      match handle E i w with
      | (w', Ok o) => match play E l true w' with Some (h, u, z) => Some (HDone i o :: h, u, z) | None => None end
      | (w', Panic) => match play E l false w' with Some (h, u, z) => Some (HPanic i :: h, u, z) | None => None end
      end
    else None
  | MvCrash i k :: l =>
    if (up && good_inputb i)%bool then
      let w' := fst (handle E i w) in
      let es := firstn k (skipn (length (w_trace w)) (w_trace w')) in
      match play E l false {| w_client := w_client w'; w_tick := w_tick w'; w_trace := w_trace w ++ es |} with
      | Some (h, u, z) => Some (HCrash i :: h, u, z)
      | None => None
      end
    else None
  end.

Lemma good_inputb_ok i : good_inputb i = true -> good_input i.
Proof. destruct i; cbn; auto; apply wfbb_iff. Qed.

Lemma play_history E l : env_ok E -> forall h up w h' up' w', history E h up w ->
  play E l up w = Some (h', up', w') -> starts_ok E (h ++ h') -> history E (h ++ h') up' w'.
Proof.
  intro L. induction l as [|m l IH]; intros h up w h' up' w' H P ST; cbn [play] in P.
  - injection P as <- <- <-. now rewrite app_nil_r.
  - destruct m as [p|i|i k].
    + destruct up; [discriminate|]. destruct (start E p _ w) as [w1 [[]|]] eqn:S.
      * destruct (play E l true w1) as [[[h1 u] z]|] eqn:Q; [|discriminate]. injection P as <- <- <-.
        change (HStart p :: h1) with ([HStart p] ++ h1) in *. rewrite app_assoc in *.
        eapply IH; [|exact Q|exact ST]. econstructor; eauto.
      * destruct (play E l false w1) as [[[h1 u] z]|] eqn:Q; [|discriminate]. injection P as <- <- <-.
        change (HStartFailed p :: h1) with ([HStartFailed p] ++ h1) in *. rewrite app_assoc in *.
        eapply IH; [|exact Q|exact ST]. econstructor; eauto.
    + destruct up; [|discriminate]. cbn [andb] in P. destruct (good_inputb i) eqn:G; [|discriminate].
      apply good_inputb_ok in G. destruct (handle E i w) as [w1 [o|]] eqn:S.
      * destruct (play E l true w1) as [[[h1 u] z]|] eqn:Q; [|discriminate]. injection P as <- <- <-.
        change (HDone i o :: h1) with ([HDone i o] ++ h1) in *. rewrite app_assoc in *.
        eapply IH; [|exact Q|exact ST]. econstructor; eauto.
      * destruct (play E l false w1) as [[[h1 u] z]|] eqn:Q; [|discriminate]. injection P as <- <- <-.
        change (HPanic i :: h1) with ([HPanic i] ++ h1) in *. rewrite app_assoc in *.
        eapply IH; [|exact Q|exact ST]. econstructor; eauto.
    + destruct up; [|discriminate]. cbn [andb] in P. destruct (good_inputb i) eqn:G; [|discriminate].
      apply good_inputb_ok in G. destruct (handle E i w) as [w1 r] eqn:S. cbn [fst] in P.
      match type of P with match play E l false ?x with _ => _ end = _ => destruct (play E l false x) as [[[h1 u] z]|] eqn:Q; [|discriminate] end.
      injection P as <- <- <-. change (HCrash i :: h1) with ([HCrash i] ++ h1) in *. rewrite app_assoc in *.
      eapply IH; [|exact Q|exact ST].
      pose proof (starts_ok_app _ _ _ (starts_ok_app _ _ _ ST)) as ST0.
      destruct (history_inv E _ _ w L H ST0) as (V0 & _ & LV0 & _). destruct (LV0 eq_refl) as [K0 _].
      pose proof (handle_step E _ w w1 _ L K0 G S) as (_ & _ & _ & _ & es & Ev & _). unfold events in Ev.
      eapply H_crash with (rest := skipn k es); eauto. rewrite Ev. rewrite skipn_app, skipn_all, Nat.sub_diag. cbn [app skipn].
      now rewrite firstn_skipn.
Qed.
