From Coq Require Import Permutation.
From Verif Require Import Base M_Str M_Util M_Utf8 M_Cbor M_Json M_Crypto M_Cose M_State M_Client M_Ctap M_U2f M_History.
From Verif Require Import S_Crypto S_Cbor S_Cose S_State S_Client S_Ctap S_CtapReq S_Pin S_U2f S_History.
From Verif Require Import P_Crypto P_Cbor P_Cbor2 P_Cbor3 P_Cose P_Cose2 P_Json P_State P_Client P_Ctap P_Ctap2 P_Ctap3 P_U2f P_U2f2 P_Vault.

(* ------------------------------------------------------------------ *)
(* Histories as lists                                                  *)

Lemma snoc_cases {A} (h : list A) e : h ++ [e] <> [].
Proof. destruct h; discriminate. Qed.

(* What the last entry says. *)
Lemma history_last E h e up w : history E (h ++ [e]) up w ->
  exists up0 w0, history E h up0 w0 /\ w_tick w0 <= w_tick w0 /\
  match e with
  | HStart p => up0 = false /\ up = true /\ start E p (saved_in (w_trace w0)) w0 = (w, Ok tt)
  | HStartFailed p => up0 = false /\ up = false /\ start E p (saved_in (w_trace w0)) w0 = (w, Panic)
  | HDone i o => up0 = true /\ up = true /\ good_input i /\ handle E i w0 = (w, Ok o)
  | HPanic i => up0 = true /\ up = false /\ good_input i /\ handle E i w0 = (w, Panic)
  | HCrash i => up0 = true /\ up = false /\ good_input i /\ exists w' r es rest, handle E i w0 = (w', r) /\
      w_trace w' = w_trace w0 ++ es ++ rest /\
      w = {| w_client := w_client w'; w_tick := w_tick w'; w_trace := w_trace w0 ++ es |}
  end.
Proof.
  intro H. remember (h ++ [e]) as l eqn:Q. destruct H; try (apply app_inj_tail in Q as [<- <-]);
    try (exists false, w; split; [assumption|]; split; [lia|]; auto; fail);
    try (exists true, w; split; [assumption|]; split; [lia|]; auto; fail).
  - symmetry in Q. now apply snoc_cases in Q.
  - exists true, w. split; [assumption|]. split; [lia|]. repeat (split; [solve [auto]|]). eauto 10.
Qed.

(* ------------------------------------------------------------------ *)
(* What one request does                                               *)

(* How a request that draws from ticks [t], [t'] may change the vault. *)
Inductive vchange (E : Env) (i : input) (t t' : N) (v : list source) : list source -> Prop :=
| VC_same : vchange E i t t' v v
| VC_new k rp u : t <= k -> k < t' -> vchange E i t t' v (v ++ [made E k rp u])
| VC_bump v1 x v2 : v = v1 ++ x :: v2 -> vchange E i t t' v (v1 ++ bump x :: v2)
| VC_delete s v' : i = IDelete (cs_id s) -> Permutation v (s :: v') -> vchange E i t t' v v'.

Definition same_keys (c c' : client) : Prop :=
  cl_key c' = cl_key c /\ cl_cert c' = cl_cert c /\ cl_certkey c' = cl_certkey c /\
  cl_token c' = cl_token c /\ cl_ka c' = cl_ka c.

Definition step_ok (E : Env) (i : input) (w w' : world) : Prop :=
  client_ok E (w_client w') /\ w_tick w <= w_tick w' /\
  vchange E i (w_tick w) (w_tick w') (cl_vault (w_client w)) (cl_vault (w_client w')) /\
  same_keys (w_client w) (w_client w') /\
  exists es, events w w' es /\
    ((saves es = [] /\ exists n k, w_client w' = set_ctr (set_retries (w_client w) n) k) \/
     (exists d, saves es = [d] /\ stored E d (w_client w'))).

Lemma same_ctr c : set_ctr (set_retries c (cl_retries c)) (cl_ctr c) = c.
Proof. destruct c; reflexivity. Qed.

Lemma ctap_step E msg w w' r : env_ok E -> client_ok E (w_client w) -> wfb msg ->
  ctap_handle E msg w = (w', r) -> step_ok E (ICtap msg) w w'.
Proof.
  intros L K W H. pose proof (ctap_effect E msg w w' r L K W H) as (K' & T & es & Ev & Sv).
  split; [assumption|]. split; [assumption|].
  assert (X : vchange E (ICtap msg) (w_tick w) (w_tick w') (cl_vault (w_client w)) (cl_vault (w_client w')) /\
              same_keys (w_client w) (w_client w')).
  { clear es Ev Sv. apply ctap_run in H; auto.
    assert (R : same_keys (w_client w) (w_client w)) by (unfold same_keys; auto).
    destruct H as [|data w' r H|data w' r H| |data w' r H|]; try (split; [apply VC_same|assumption]);
      destruct H; try (split; [apply VC_same|assumption]); try (split; [apply VC_same|unfold same_keys; auto; fail]);
      (split; [|unfold same_keys; auto]).
    - apply VC_new; cbn; lia.
    - apply VC_new; cbn; lia.
    - now apply VC_bump.
    - now apply VC_bump. }
  destruct X as [X1 X2]. split; [assumption|]. split; [assumption|]. exists es. split; [assumption|].
  destruct Sv as [[S (n & N)]|S]; [left|right; assumption]. split; [assumption|].
  exists n, (cl_ctr (w_client w)). rewrite N. now destruct (w_client w).
Qed.

Lemma u2f_step E msg w w' r : env_ok E -> client_ok E (w_client w) -> wfb msg ->
  u2f_handle E msg w = (w', r) -> step_ok E (IU2f msg) w w'.
Proof.
  intros L K W H. apply u2f_effect in H as (K' & T & (es & Ev & S & _) & C); auto.
  split; [assumption|]. split; [assumption|].
  assert (X : exists n, w_client w' = set_ctr (w_client w) n).
  { destruct C as [->|(-> & _)]; [exists (cl_ctr (w_client w)); now destruct (w_client w)|eauto]. }
  destruct X as (n & X). rewrite X. split; [apply VC_same|]. split; [unfold same_keys; auto|].
  exists es. split; [assumption|]. left. split; [assumption|]. exists (cl_retries (w_client w)), n. now destruct (w_client w).
Qed.

Lemma save_step E i c w w' r : env_ok E -> client_ok E c -> cl_vault c = cl_vault (w_client w) ->
  same_keys (w_client w) c ->
  (put c;; save_data E) w = (w', r) -> step_ok E i w w' /\ w_client w' = c /\ r = Ok tt.
Proof.
  intros L K V S H. pattern w', r. eapply wp_eq; [|exact H]. clear w' r H.
  apply wp_bind, wp_put. apply wp_save; auto. intros d D. wcbn. split; [|auto].
  split; [assumption|]. cbn. split; [lia|]. split; [rewrite V; apply VC_same|]. split; [assumption|].
  exists [EvSave d]. split; [reflexivity|]. right. exists d. split; [reflexivity|exact D].
Qed.

Lemma client_ok_pin E c b : client_ok E c -> client_ok E (set_pin c b).
Proof. intros []. constructor; auto. Qed.

Lemma handle_step E i w w' r : env_ok E -> client_ok E (w_client w) -> good_input i ->
  handle E i w = (w', r) -> step_ok E i w w'.
Proof.
  intros L K G H. destruct i as [m|m|b|p|id]; cbn [handle good_input] in *; unfold fmapM, bind at 1 in H.
  - destruct (ctap_handle E m w) as [w1 r1] eqn:X. assert (w' = w1) as -> by (destruct r1; cbv [ret] in H; congruence).
    eapply ctap_step; eauto.
  - destruct (u2f_handle E m w) as [w1 r1] eqn:X. assert (w' = w1) as -> by (destruct r1; cbv [ret] in H; congruence).
    eapply u2f_step; eauto.
  - destruct (enable_pin E b w) as [w1 r1] eqn:X. assert (w' = w1) as -> by (destruct r1; cbv [ret] in H; congruence).
    unfold enable_pin in X. unfold bind at 1 in X. cbn [get] in X.
    apply (save_step E (IEnablePin b) (set_pin (w_client w) b)) in X as (X & _); auto using client_ok_pin. unfold same_keys; auto.
  - destruct (set_pin_api E p w) as [w1 r1] eqn:X. assert (w' = w1) as -> by (destruct r1; cbv [ret] in H; congruence).
    unfold set_pin_api, set_pin_hash in X. unfold bind at 1 in X. cbn [get] in X.
    destruct (hash16 (e_C E) p (eo_laws E L)) as [A B].
    apply (save_step E (ISetPin p) (set_hash (w_client w) (Some (firstn 16 (sha256 (e_C E) p))))) in X as (X & _); auto using client_ok_hash.
    unfold same_keys; auto.
  - destruct (delete_identity_api E id w) as [w1 r1] eqn:X. assert (w' = w1) as -> by (destruct r1; cbv [ret] in H; congruence).
    apply delete_api in X as (K' & T & X); auto. split; [assumption|]. split; [assumption|].
    destruct X as [(-> & -> & _)|(v & d & -> & D & V & Tr & S)].
    + split; [apply VC_same|]. split; [unfold same_keys; auto|]. exists []. split; [unfold events; now rewrite app_nil_r|].
      left. split; [reflexivity|]. exists (cl_retries (w_client w)), (cl_ctr (w_client w)). now rewrite same_ctr.
    + rewrite V. split.
      { apply delete_spec in D as [(_ & s & _ & Qs & P)|[X _]]; [|discriminate X]. eapply VC_delete; [rewrite Qs; reflexivity|exact P]. }
      split; [unfold same_keys; auto|]. exists [EvSave d]. split; [assumption|]. right. exists d. rewrite <- V. auto.
Qed.

(* ------------------------------------------------------------------ *)
(* Saved data                                                          *)

Definition last_save (es : list event) (acc : option bytes) : option bytes :=
  match rev (saves es) with d :: _ => Some d | [] => acc end.

Lemma saved_fold es acc :
  fold_left (fun acc e => match e with EvSave d => Some d | EvAsk _ _ _ _ => acc end) es acc = last_save es acc.
Proof.
  revert acc. induction es as [|e es IH] using rev_ind; intro acc; [reflexivity|].
  rewrite fold_left_app, IH. unfold last_save, saves. rewrite flat_map_app. destruct e; cbn.
  - now rewrite app_nil_r.
  - rewrite rev_app_distr. reflexivity.
Qed.

Lemma saved_app tr es : saved_in (tr ++ es) = last_save es (saved_in tr).
Proof. unfold saved_in. now rewrite fold_left_app, saved_fold. Qed.

Lemma saves_app a b : saves (a ++ b) = saves a ++ saves b.
Proof. unfold saves. apply flat_map_app. Qed.

(* Saved data determine what they store. *)
Lemma stored_same E d c c' : stored E d c -> stored E d c' ->
  cl_key c = cl_key c' /\ cl_cert c = cl_cert c' /\ cl_certkey c = cl_certkey c' /\ cl_ctr c = cl_ctr c' /\
  cl_pin c = cl_pin c' /\ cl_hash c = cl_hash c' /\ cl_vault c = cl_vault c'.
Proof.
  intros (_ & cf & A & D1 & D2 & (b & D3 & D4) & D5 & D6 & D7 & D8) (_ & cf' & A' & D1' & D2' & (b' & D3' & D4') & D5' & D6' & D7' & D8').
  assert (cf' = cf) by congruence. subst cf'. assert (b' = b) by congruence. subst b'.
  repeat (split; [congruence|]).
  clear - D8 D8'. revert D8'. generalize (cl_vault c'). induction D8 as [|s x ss v Hs Hv IH]; intros v' H'; inversion H' as [|? x' ? v1 Hs' Hv']; subst; [reflexivity|].
  f_equal; auto. destruct Hs as (A1 & A2 & (b & A3 & A4) & A5 & A6 & A7), Hs' as (B1 & B2 & (b' & B3 & B4) & B5 & B6 & B7).
  assert (b' = b) by congruence. subst b'. destruct x, x'. cbn in *. congruence.
Qed.

(* ------------------------------------------------------------------ *)
(* The life of the device                                              *)

(* [V]: the identities in the saved data. *)
Definition disk (E : Env) (w : world) (V : list source) : Prop :=
  match saved_in (w_trace w) with
  | None => V = []
  | Some d => exists c, stored E d c /\ client_ok E c /\ cl_vault c = V
  end.

Lemma core_ids v v' : map core v = map core v' -> map cs_id v = map cs_id v'.
Proof.
  intro H. assert (X : forall l, map cs_id l = map (fun c => snd (fst (fst c))) (map core l)).
  { intro l. rewrite map_map. reflexivity. }
  now rewrite !X, H.
Qed.

Lemma core_in v v' s : map core v = map core v' -> In s v -> exists s', In s' v' /\ core s' = core s.
Proof.
  intros H I. apply (in_map core) in I. rewrite H in I. apply in_map_iff in I as (s' & A & B). eauto.
Qed.

(* What an entry says about the credential with some id: [P] holds of it from then on. *)
Definition uctr (s : source) : N := Z.to_N (cs_ctr s mod 4294967296).

Inductive says : entry -> bytes -> (source -> Prop) -> Prop :=
| Says_reg d r id x y : registered r id x y ->
    says (HDone (ICtap (1 :: d)) (OBytes r)) id (fun s => public_of (cs_key s) x y)
| Says_ga d r id n : asserted r id n ->
    says (HDone (ICtap (2 :: d)) (OBytes r)) id (fun s => n <= uctr s)
| Says_delete id : says (HDone (IDelete id) (OBool true)) id (fun _ => False).

Lemma uctr_bump s : uctr s < 4294967295 -> uctr (bump s) = uctr s + 1.
Proof. unfold uctr, bump. cbn [cs_ctr]. intro H. rewrite wrap32_mod. lia. Qed.

Lemma says_core e id P s s' : says e id P -> core s = core s' -> P s -> P s'.
Proof. intros H Q. unfold core in Q. injection Q as Q1 Q2 Q3 Q4. destruct H; cbn; auto; unfold uctr; now rewrite ?Q3, ?Q4. Qed.

Lemma says_bump e id P s : says e id P -> uctr s < 4294967295 -> P s -> P (bump s).
Proof. intros H B. destruct H; auto. intro X. rewrite uctr_bump by assumption. lia. Qed.

Definition drawn (E : Env) (t : N) (id : bytes) : Prop := exists k, k < t /\ id = e_rand E k 16.

(* What the history so far says about the identities. *)
Definition sound (E : Env) (h : list entry) (t : N) (V : list source) : Prop :=
  NoDup (map cs_id V) /\ (forall s, In s V -> drawn E t (cs_id s)) /\ (forall s, In s V -> uctr s <= len h) /\
  forall e id P, In e h -> says e id P -> drawn E t id /\ forall s, In s V -> cs_id s = id -> P s.

Lemma drawn_le E t t' id : drawn E t id -> t <= t' -> drawn E t' id.
Proof. intros (k & A & B) L. exists k. split; [lia|assumption]. Qed.

Lemma sound_core E h t V V' : map core V = map core V' -> sound E h t V -> sound E h t V'.
Proof.
  intros Q (A & B & D & F). split; [rewrite <- (core_ids _ _ Q); assumption|].
  assert (X : forall s, In s V' -> exists s', In s' V /\ core s' = core s) by (intros s I; exact (core_in V' V s (eq_sym Q) I)).
  split; [|split].
  - intros s I. destruct (X s I) as (s' & I' & C). apply B in I'. unfold core in C. injection C as _ C _ _. now rewrite <- C.
  - intros s I. destruct (X s I) as (s' & I' & C). apply D in I'. unfold core in C. injection C as _ _ _ C.
    unfold uctr in *. now rewrite <- C.
  - intros e id P I S. destruct (F e id P I S) as [F1 F2]. split; [assumption|]. intros s J Q1.
    destruct (X s J) as (s' & I' & C). eapply says_core; [exact S|exact C|]. apply F2; auto.
    unfold core in C. injection C as _ C _ _. congruence.
Qed.

Definition no_clash (E : Env) (t : N) : Prop :=
  forall k k', k < t -> k' < t -> e_rand E k 16 = e_rand E k' 16 -> k = k'.

(* A request keeps what earlier entries say. *)
Lemma sound_change E i h t t' V V' : sound E h t V -> vchange E i t t' V V' -> t <= t' -> no_clash E t' ->
  len h < 4294967295 ->
  NoDup (map cs_id V') /\ (forall s, In s V' -> drawn E t' (cs_id s)) /\ (forall s, In s V' -> uctr s <= len h + 1) /\
  forall e id P, In e h -> says e id P -> drawn E t' id /\ forall s, In s V' -> cs_id s = id -> P s.
Proof.
  intros (A & B & D & F) C LE NC LH. destruct C as [|k rp u Tk Tk'|v1 x v2 ->|s V' Qi P].
  - split; [assumption|]. split; [intros s I; eapply drawn_le; eauto|]. split; [intros s I; apply D in I; lia|].
    intros e id P I S. destruct (F e id P I S). split; [eapply drawn_le; eauto|assumption].
  - assert (NEW : forall id, drawn E t id -> id <> e_rand E k 16).
    { intros id (j & J1 & ->) Q. apply NC in Q; lia. }
    split; [|split; [|split]].
    + rewrite map_app. cbn. eapply Permutation_NoDup; [apply Permutation_cons_append|]. constructor; auto.
      intro I. apply in_map_iff in I as (s & Q & I). apply B in I. apply NEW in I. now apply I.
    + intros s I. apply in_app_iff in I as [I|[<-|[]]]; [eapply drawn_le; eauto|]. exists k. auto.
    + intros s I. apply in_app_iff in I as [I|[<-|[]]]; [apply D in I; lia|]. unfold uctr. cbn. lia.
    + intros e id P I S. destruct (F e id P I S) as [F1 F2]. split; [eapply drawn_le; eauto|].
      intros s J Q. apply in_app_iff in J as [J|[<-|[]]]; [now apply F2|]. cbn in Q. exfalso. now apply (NEW id).
  - assert (IN : forall s, In s (v1 ++ bump x :: v2) -> In s (v1 ++ x :: v2) \/ s = bump x).
    { intros s I. apply in_app_iff in I as [I|[I|I]]; rewrite in_app_iff; cbn; auto. }
    assert (Ix : In x (v1 ++ x :: v2)) by apply in_elt.
    assert (Bx : uctr x < 4294967295) by (apply D in Ix; lia).
    split; [|split; [|split]].
    + rewrite map_app in *. cbn in *. assumption.
    + intros s I. apply IN in I as [I| ->]; (eapply drawn_le; [|exact LE]); [now apply B|now apply (B x)].
    + intros s I. apply IN in I as [I| ->]; [apply D in I; lia|]. rewrite uctr_bump by assumption. apply D in Ix. lia.
    + intros e id P I S. destruct (F e id P I S) as [F1 F2]. split; [eapply drawn_le; eauto|].
      intros s J Q. apply IN in J as [J| ->]; [now apply F2|]. eapply says_bump; eauto.
  - pose proof (Permutation_map cs_id P) as PM. cbn in PM. pose proof (Permutation_NoDup PM A) as D'.
    assert (IN : forall x, In x V' -> In x V) by (intros x I; eapply Permutation_in; [symmetry; exact P|now right]).
    inversion D'; subst. split; [assumption|]. split; [intros x I; eapply drawn_le; eauto|].
    split; [intros x I; apply IN, D in I; lia|].
    intros e id Q I S. destruct (F e id Q I S) as [F1 F2]. split; [eapply drawn_le; eauto|]. auto.
Qed.

(* ------------------------------------------------------------------ *)
(* Reading answers                                                     *)

Lemma auth_data_one auth a b : has_auth_data auth a -> has_auth_data auth b ->
  ad_rp_hash a = ad_rp_hash b /\ ad_flags a = ad_flags b /\ ad_count a = ad_count b /\ ad_rest a = ad_rest b.
Proof.
  intros (A & A1 & A2 & A3) (B & B1 & B2 & B3). rewrite A in B.
  apply app_inj_len in B as [H1 B]; [|unfold len in *; lia]. cbn [app] in B.
  assert (F : ad_flags a = ad_flags b) by congruence. split; [assumption|]. split; [assumption|].
  assert (B' : be 4 (ad_count a) ++ ad_rest a = be 4 (ad_count b) ++ ad_rest b) by congruence.
  apply app_inj_len in B' as [H2 B']; [|now rewrite !be_len]. split; [|assumption].
  apply (f_equal be_dec) in H2. rewrite !be_dec_be_small in H2 by (change (256 ^ N.of_nat 4) with 4294967296; assumption). assumption.
Qed.

Lemma asserted_one r id n id' n' : asserted r id n -> asserted r id' n' -> id = id' /\ n = n'.
Proof.
  intros (au & sg & ad & (b & -> & R) & A & <-) (au' & sg' & ad' & (b' & Q & R') & A' & <-).
  injection Q as <-. pose proof (canonical_one _ _ _ R R') as Q. unfold assertion_doc in Q. injection Q as <- <- <-.
  split; [reflexivity|]. now destruct (auth_data_one _ _ _ A A') as (_ & _ & ? & _).
Qed.

Lemma registered_one r id x y id' x' y' : registered r id x y -> registered r id' x' y' -> id = id' /\ x = x' /\ y = y'.
Proof.
  intros (au & sg & ce & ad & key & xb & yb & (b & -> & R) & A & T & K & -> & ->)
         (au' & sg' & ce' & ad' & key' & xb' & yb' & (b' & Q & R') & A' & T' & K' & -> & ->).
  injection Q as <-. pose proof (canonical_one _ _ _ R R') as Q. unfold attestation_doc in Q. injection Q as <- <- <-.
  destruct (auth_data_one _ _ _ A A') as (_ & _ & _ & Z). destruct T as (T & L1 & L2), T' as (T' & L1' & L2').
  rewrite Z, T' in T. apply app_inv_head in T.
  apply app_inj_len in T as [H1 T]; [|now rewrite !be_len].
  apply (f_equal be_dec) in H1. rewrite !be_dec_be_small in H1 by (change (256 ^ N.of_nat 2) with 65536; assumption).
  apply app_inj_len in T as [H2 T]; [|unfold len in *; lia]. subst id' key'.
  pose proof (canonical_one _ _ _ K K') as Q. unfold cose_es256 in Q. injection Q as <- <-. auto.
Qed.

Lemma asserted_ok r id n : asserted r id n -> exists b, r = 0 :: b.
Proof. intros (au & sg & ad & (b & -> & _) & _). eauto. Qed.

Lemma registered_ok r id x y : registered r id x y -> exists b, r = 0 :: b.
Proof. intros (au & sg & ce & ad & key & xb & yb & (b & -> & _) & _). eauto. Qed.

Lemma handle_ctap E m w w' o : handle E (ICtap m) w = (w', Ok o) ->
  exists r, o = OBytes r /\ ctap_handle E m w = (w', Ok r).
Proof.
  cbn [handle]. unfold fmapM, bind. destruct (ctap_handle E m w) as [w1 [r|]]; intro H; [|discriminate H].
  injection H as <- <-. eauto.
Qed.

(* What an entry says is true of the identities after it. *)
Lemma said E i o w w' h t : env_ok E -> client_ok E (w_client w) -> good_input i -> handle E i w = (w', Ok o) ->
  sound E h t (cl_vault (w_client w)) -> t = w_tick w -> no_clash E (w_tick w') -> len h < 4294967295 ->
  forall id P, says (HDone i o) id P ->
    drawn E (w_tick w') id /\ forall s, In s (cl_vault (w_client w')) -> cs_id s = id -> P s.
Proof.
  intros L K G H SO -> NC LH id P S.
  pose proof (handle_step E i w w' _ L K G H) as (K' & LE & VC & _).
  pose proof (sound_change E i h _ _ _ _ SO VC LE NC LH) as (ND & DR & _).
  inversion S as [d r id' x y R Q1 Q2 Q3|d r id' n R Q1 Q2 Q3|id' Q1 Q2 Q3]; subst.
  - apply handle_ctap in H as (r' & Q & H). injection Q as <-. destruct (registered_ok _ _ _ _ R) as (b & ->).
    cbn [good_input] in G. apply wfb_cons in G as [_ G].
    apply registration_verifies in H as (a & rp & u & au & sg & ce & ad & id1 & key & xb & yb & s1 & _ & _ & _ & H1 & H2 & _ & _ & _ & _ & H3 & _ & H4 & _ & _ & H5 & H6 & _ & _ & _ & H7); auto.
    assert (R1 : registered (0 :: b) id1 (be_dec xb) (be_dec yb)) by (exists au, sg, ce, ad, key, xb, yb; auto 10).
    destruct (registered_one _ _ _ _ _ _ _ R R1) as (-> & -> & ->).
    assert (I1 : In s1 (cl_vault (w_client w'))) by (rewrite H5; apply in_elt).
    split; [rewrite <- H6; now apply DR|]. intros s I Q.
    assert (s = s1) as ->; [|assumption].
    { destruct (in_split _ _ I1) as (a1 & a2 & V). rewrite V in *. rewrite map_app in ND. cbn in ND.
      apply NoDup_remove_2 in ND. apply in_app_iff in I as [I|[I|I]]; [|congruence|]; exfalso; apply ND;
      rewrite H6, <- Q, in_app_iff; [left|right]; now apply in_map. }
  - apply handle_ctap in H as (r' & Q & H). injection Q as <-. destruct (asserted_ok _ _ _ R) as (b & ->).
    cbn [good_input] in G. apply wfb_cons in G as [_ G].
    apply assertion_facts in H as (a & au & sg & ad & v1 & s1 & v2 & s2 & x & y & es & _ & H1 & H2 & _ & _ & H3 & H4 & _ & _ & _ & _ & H5 & H6 & H7 & _); auto.
    assert (R1 : asserted (0 :: b) (cs_id s1) (ad_count ad)) by (exists au, sg, ad; auto).
    destruct (asserted_one _ _ _ _ _ R R1) as (-> & ->).
    assert (I1 : In s2 (cl_vault (w_client w'))) by (rewrite H5; apply in_elt).
    assert (Q2 : cs_id s2 = cs_id s1) by (rewrite H6; reflexivity).
    split; [rewrite <- Q2; now apply DR|]. intros s I Q.
    assert (s = s2) as ->.
    { destruct (in_split _ _ I1) as (a1 & a2 & V). rewrite V in *. rewrite map_app in ND. cbn in ND.
      apply NoDup_remove_2 in ND. apply in_app_iff in I as [I|[I|I]]; [|congruence|]; exfalso; apply ND;
      rewrite Q2, <- Q, in_app_iff; [left|right]; now apply in_map. }
    unfold uctr. rewrite H3, H7. lia.
  - cbn [handle] in H. unfold fmapM, bind in H. destruct (delete_identity_api E id w) as [w1 r1] eqn:X.
    destruct r1 as [b|]; [|discriminate H]. assert (w1 = w' /\ b = true) as [-> ->] by (cbv [ret] in H; split; congruence).
    apply delete_api in X as (_ & _ & [(X & _)|(v & d & _ & D & V & _)]); auto; [discriminate X|].
    destruct SO as (N0 & B0 & _). rewrite V. cbn [set_vault cl_vault].
    destruct (delete_nodup _ _ _ _ N0 D) as [_ S'].
    apply delete_spec in D as [(_ & s & I & Q & _)|[D _]]; [|discriminate D].
    split; [rewrite <- Q; eapply drawn_le; eauto|]. intros z Iz Qz. apply S' in Iz as [_ Iz]. contradiction.
Qed.

(* ------------------------------------------------------------------ *)
(* The invariant                                                       *)

Lemma start_live E p w w' r V : env_ok E -> params_ok E p -> disk E w V ->
  start E p (saved_in (w_trace w)) w = (w', r) ->
  r = Ok tt /\ w_tick w' = w_tick w + 2 /\ w_trace w' = w_trace w /\
  client_ok E (w_client w') /\ cl_retries (w_client w') = 8%Z /\
  match saved_in (w_trace w) with
  | None => cl_vault (w_client w') = [] /\ cl_hash (w_client w') = None /\ cl_ctr (w_client w') = 1 /\
            cl_pin (w_client w') = pa_pin p /\ cl_key (w_client w') = pa_key p
  | Some d => exists c, stored E d c /\ client_ok E c /\ cl_vault c = V /\ cl_vault (w_client w') = smeared V /\
            cl_hash (w_client w') = cl_hash c /\ cl_ctr (w_client w') = cl_ctr c /\ cl_pin (w_client w') = cl_pin c /\
            cl_key (w_client w') = cl_key c
  end.
Proof.
  intros L P D H. pattern w', r. eapply wp_eq; [|exact H]. clear w' r H.
  assert (N : client_ok E (new_client p (e_rand E (w_tick w) 16) (e_scalar E (w_tick w + 1)))).
  { apply new_client_ok; auto; [apply (eo_rand_len E L)|apply (eo_rand_wf E L)|apply (eo_scalar E L)]. }
  apply wp_start. unfold disk in D. destruct (saved_in (w_trace w)) as [d|].
  - destruct D as (c & S & K & <-). exists c. split; [assumption|]. split; [apply (co_cert E _ K)|]. wcbn.
    do 3 (split; [reflexivity|]). split; [now apply reloaded_ok|]. split; [reflexivity|]. exists c. cbn. auto 10.
  - wcbn. do 3 (split; [reflexivity|]). split; [assumption|]. split; [reflexivity|]. cbn. auto 10.
Qed.

Lemma sound_entry E h t V e : sound E h t V -> (forall id P, ~ says e id P) -> sound E (h ++ [e]) t V.
Proof.
  intros (A & B & D & F) N. split; [assumption|]. split; [assumption|]. split.
  - intros s I. apply D in I. unfold len in *. rewrite app_length. cbn. lia.
  - intros e' id P I S. apply in_app_iff in I as [I|[<-|[]]]; [eapply F; eauto|now apply N in S].
Qed.

Lemma sound_ticks E h t t' V : sound E h t V -> t <= t' -> sound E h t' V.
Proof.
  intros (A & B & D & F) L. split; [assumption|]. split; [intros s I; eapply drawn_le; eauto|]. split; [assumption|].
  intros e id P I S. destruct (F e id P I S). split; [eapply drawn_le; eauto|assumption].
Qed.

Lemma len_snoc {A} (h : list A) e : len (h ++ [e]) = len h + 1.
Proof. unfold len. rewrite app_length. cbn. lia. Qed.

(* The disk after a request or part of it. *)
Lemma disk_step E i w w' V es rest : disk E w V -> step_ok E i w w' -> w_trace w' = w_trace w ++ es ++ rest ->
  let w1 := {| w_client := w_client w'; w_tick := w_tick w'; w_trace := w_trace w ++ es |} in
  (saves es = [] /\ disk E w1 V) \/ disk E w1 (cl_vault (w_client w')).
Proof.
  intros D (K & _ & _ & _ & es' & Ev & S) T w1. unfold events in Ev. rewrite T in Ev. apply app_inv_head in Ev. subst es'.
  rewrite saves_app in S. unfold disk, w1. cbn [w_trace]. rewrite saved_app. unfold last_save.
  destruct (saves es) as [|d l] eqn:Q; [left; split; [reflexivity|]; exact D|]. right.
  destruct S as [[S _]|(d' & S & St)]; [discriminate S|]. cbn in S. injection S as <- S.
  apply app_eq_nil in S as [-> _]. cbn. exists (w_client w'). auto.
Qed.

(* One request, or part of it, seen from the identities. *)
Lemma sound_step E i h w w' V : sound E h (w_tick w) V -> map core (cl_vault (w_client w)) = map core V ->
  step_ok E i w w' -> no_clash E (w_tick w') -> len h < 4294967295 ->
  forall e, (forall id P, says e id P -> drawn E (w_tick w') id /\ forall s, In s (cl_vault (w_client w')) -> cs_id s = id -> P s) ->
  sound E (h ++ [e]) (w_tick w') (cl_vault (w_client w')).
Proof.
  intros S Q (_ & LE & VC & _) NC LH e He.
  apply (sound_core E h _ V (cl_vault (w_client w))) in S; [|now symmetry].
  destruct (sound_change E i h _ _ _ _ S VC LE NC LH) as (A & B & D & F).
  split; [assumption|]. split; [assumption|]. split; [intros s I; rewrite len_snoc; now apply D|].
  intros e' id P I X. apply in_app_iff in I as [I|[<-|[]]]; [eapply F; eauto|now apply He].
Qed.

Lemma history_inv E h up w : env_ok E -> history E h up w -> starts_ok E h ->
  exists V, disk E w V /\
    (up = true -> client_ok E (w_client w) /\ map core (cl_vault (w_client w)) = map core V) /\
    (no_clash E (w_tick w) -> len h <= 4294967295 -> sound E h (w_tick w) V).
Proof.
  intros L H. induction H as [c t|h w p w' H IH S|h w p w' H IH S|h w i w' o H IH G S|h w i w' H IH G S|h w i w' r es rest H IH G S T]; intro ST;
    try (destruct IH as (V & D & LV & SV); [intros q Q; apply ST; rewrite !in_app_iff; tauto|]).
  - exists []. split; [reflexivity|]. split; [discriminate|]. intros _ _. split; [constructor|].
    split; [intros s []|]. split; [intros s []|]. intros e id P [].
  - assert (P : params_ok E p) by (apply ST; left; apply in_elt).
    destruct (start_live E p w w' _ V L P D S) as (_ & T & Tr & K & _ & X). exists V.
    split; [unfold disk in *; now rewrite Tr|]. split.
    + intros _. split; [assumption|]. unfold disk in D. destruct (saved_in (w_trace w)) as [d|].
      * destruct X as (c & _ & _ & _ & -> & _). apply smeared_core.
      * destruct X as (-> & _). now rewrite D.
    + rewrite T. intros NC LH. rewrite len_snoc in LH. apply sound_entry; [|intros id Q Z; inversion Z].
      apply sound_ticks with (w_tick w); [|lia]. apply SV; [|lia]. intros k k' A B. apply NC; lia.
  - assert (P : params_ok E p) by (apply ST; right; apply in_elt).
    destruct (start_live E p w w' _ V L P D S) as (X & _). discriminate X.
  - destruct (LV eq_refl) as [K Q].
    pose proof (handle_step E i w w' _ L K G S) as SO. pose proof SO as (K' & LE & _ & _ & es & Ev & Sv).
    assert (SD : no_clash E (w_tick w') -> len (h ++ [HDone i o]) <= 4294967295 ->
      sound E (h ++ [HDone i o]) (w_tick w') (cl_vault (w_client w'))).
    { intros NC LH. rewrite len_snoc in LH. assert (S0 : sound E h (w_tick w) V) by (apply SV; [intros k k' A B; apply NC; lia|lia]).
      apply sound_step with (i := i) (w := w) (V := V); auto; [lia|]. intros id P X.
      apply (said E i o w w' h (w_tick w)); auto; [|lia]. eapply sound_core; [symmetry; exact Q|exact S0]. }
    assert (T : w_trace w' = w_trace w ++ es ++ []) by now rewrite app_nil_r.
    destruct (disk_step E i w w' V es [] D SO T) as [[Z X]|X]; unfold disk in X; cbn [w_trace] in X; rewrite app_nil_r in T; rewrite <- T in X.
    + assert (Q' : map core (cl_vault (w_client w')) = map core V).
      { destruct Sv as [(_ & n & k & ->)|(d & Y & _)]; [exact Q|congruence]. }
      exists V. split; [exact X|]. split; [auto|]. intros NC LH. eapply sound_core; [exact Q'|]. auto.
    + exists (cl_vault (w_client w')). split; [exact X|]. auto.
  - destruct (LV eq_refl) as [K Q].
    pose proof (handle_step E i w w' _ L K G S) as SO. pose proof SO as (K' & LE & _ & _ & es & Ev & Sv).
    assert (T : w_trace w' = w_trace w ++ es ++ []) by now rewrite app_nil_r.
    destruct (disk_step E i w w' V es [] D SO T) as [[Z X]|X]; unfold disk in X; cbn [w_trace] in X; rewrite app_nil_r in T; rewrite <- T in X;
      eexists; (split; [exact X|]); (split; [discriminate|]); intros NC LH; rewrite len_snoc in LH.
    + apply sound_entry; [|intros id P Y; inversion Y]. apply sound_ticks with (w_tick w); [|lia].
      apply SV; [intros k k' A B; apply NC; lia|lia].
    + apply sound_step with (i := i) (w := w) (V := V); auto; [|lia|intros id P Y; inversion Y].
      apply SV; [intros k k' A B; apply NC; lia|lia].
  - destruct (LV eq_refl) as [K Q].
    pose proof (handle_step E i w w' _ L K G S) as SO. pose proof SO as (K' & LE & _).
    destruct (disk_step E i w w' V es rest D SO T) as [[Z X]|X];
      eexists; (split; [exact X|]); (split; [discriminate|]); cbn [w_tick]; intros NC LH; rewrite len_snoc in LH.
    + apply sound_entry; [|intros id P Y; inversion Y]. apply sound_ticks with (w_tick w); [|lia].
      apply SV; [intros k k' A B; apply NC; lia|lia].
    + apply sound_step with (i := i) (w := w) (V := V); auto; [|lia|intros id P Y; inversion Y].
      apply SV; [intros k k' A B; apply NC; lia|lia].
Qed.

(* The world only moves forward. *)
Lemma history_forward E h up w : env_ok E -> history E h up w -> starts_ok E h ->
  forall h1 h2, h = h1 ++ h2 -> exists up1 w1, history E h1 up1 w1 /\ w_tick w1 <= w_tick w.
Proof.
  intros L H. induction H as [c t|h w p w' H IH S|h w p w' H IH S|h w i w' o H IH G S|h w i w' H IH G S|h w i w' r es rest H IH G S T]; intros ST h1 h2 Q.
  1: { symmetry in Q. apply app_eq_nil in Q as [-> ->]. exists false, {| w_client := c; w_tick := t; w_trace := [] |}. split; [constructor|]. cbn. lia. }
  all: assert (ST0 : starts_ok E h) by (intros q Z; apply ST; rewrite !in_app_iff; tauto).
  all: destruct (history_inv E h _ w L H ST0) as (V & D & LV & _).
  all: destruct h2 as [|e h2 _] using rev_ind;
    [rewrite app_nil_r in Q; subst h1; do 2 eexists; split; [solve [econstructor; eauto]|lia]|].
  all: rewrite app_assoc in Q; apply app_inj_tail in Q as [Q _]; destruct (IH ST0 _ _ Q) as (up1 & w1 & H1 & LE);
    exists up1, w1; (split; [assumption|]); cbn [w_tick].
  - assert (P : params_ok E p) by (apply ST; left; apply in_elt).
    destruct (start_live E p w w' _ V L P D S) as (_ & T & _). lia.
  - assert (P : params_ok E p) by (apply ST; right; apply in_elt).
    destruct (start_live E p w w' _ V L P D S) as (_ & T & _). lia.
  - destruct (LV eq_refl) as [K _]. destruct (handle_step E i w w' _ L K G S) as (_ & LE' & _). lia.
  - destruct (LV eq_refl) as [K _]. destruct (handle_step E i w w' _ L K G S) as (_ & LE' & _). lia.
  - destruct (LV eq_refl) as [K _]. destruct (handle_step E i w w' _ L K G S) as (_ & LE' & _). lia.
Qed.

(* At a request somewhere in a history. *)
Lemma at_request E h1 i o h2 up w : env_ok E -> history E (h1 ++ HDone i o :: h2) up w ->
  starts_ok E (h1 ++ HDone i o :: h2) -> fresh E w -> len (h1 ++ HDone i o :: h2) <= 4294967295 ->
  exists w0 w1, history E h1 true w0 /\ history E (h1 ++ [HDone i o]) true w1 /\ w_tick w1 <= w_tick w /\
    good_input i /\ handle E i w0 = (w1, Ok o) /\ client_ok E (w_client w0) /\
    sound E h1 (w_tick w0) (cl_vault (w_client w0)) /\
    sound E (h1 ++ [HDone i o]) (w_tick w1) (cl_vault (w_client w1)).
Proof.
  intros L H ST F LH. change (HDone i o :: h2) with ([HDone i o] ++ h2) in H. rewrite app_assoc in H.
  assert (ST' : starts_ok E ((h1 ++ [HDone i o]) ++ h2)) by now rewrite <- app_assoc.
  destruct (history_forward _ _ _ _ L H ST' _ _ eq_refl) as (up1 & w1 & H1 & T1).
  pose proof (history_last _ _ _ _ _ H1) as (up0 & w0 & H0 & _ & -> & -> & G & X).
  assert (LN : len (h1 ++ HDone i o :: h2) = len h1 + 1 + len h2).
  { unfold len. rewrite app_length. cbn [length]. lia. }
  assert (S1 : starts_ok E (h1 ++ [HDone i o])).
  { intros p Q. apply ST'. rewrite (in_app_iff (h1 ++ [HDone i o])), (in_app_iff (h1 ++ [HDone i o])). tauto. }
  assert (S0 : starts_ok E h1) by (intros p Q; apply S1; rewrite !in_app_iff; tauto).
  destruct (history_inv _ _ _ _ L H1 S1) as (V1 & _ & LV1 & SV1). destruct (LV1 eq_refl) as [K1 Q1].
  destruct (history_inv _ _ _ _ L H0 S0) as (V0 & _ & LV0 & SV0). destruct (LV0 eq_refl) as [K0 Q0].
  pose proof (handle_step E i w0 w1 _ L K0 G X) as (_ & LE & _).
  exists w0, w1. split; [assumption|]. split; [assumption|]. split; [assumption|]. split; [assumption|].
  split; [assumption|]. split; [assumption|].
  split; (eapply sound_core; [symmetry; eassumption|]).
  - apply SV0; [intros k k' A B; apply F; lia|lia].
  - apply SV1; [intros k k' A B; apply F; lia|rewrite len_snoc; lia].
Qed.

(* C34 *)
Lemma counters_increase E h1 d1 r1 h2 d2 r2 h3 up w id n1 n2 : env_ok E ->
  history E (h1 ++ HDone (ICtap (2 :: d1)) (OBytes r1) :: h2 ++ HDone (ICtap (2 :: d2)) (OBytes r2) :: h3) up w ->
  let h := h1 ++ HDone (ICtap (2 :: d1)) (OBytes r1) :: h2 ++ HDone (ICtap (2 :: d2)) (OBytes r2) :: h3 in
  starts_ok E h -> fresh E w -> len h < 4294967296 ->
  asserted r1 id n1 -> asserted r2 id n2 -> n1 < n2.
Proof.
  intros L H h ST F LH A1 A2. unfold h in *. clear h.
  rewrite app_comm_cons, app_assoc in H, ST, LH.
  destruct (at_request _ _ _ _ _ _ _ L H ST F ltac:(lia)) as (w0 & w1 & H0 & _ & _ & G & X & K0 & S0 & _).
  assert (LH0 : len (h1 ++ HDone (ICtap (2 :: d1)) (OBytes r1) :: h2) < 4294967295).
  { unfold len in *. rewrite app_length in LH. cbn [length] in LH. lia. }
  destruct S0 as (ND & _ & B & SY).
  apply handle_ctap in X as (r & Q & X). injection Q as <-. destruct (asserted_ok _ _ _ A2) as (b & ->).
  cbn [good_input] in G. apply wfb_cons in G as [_ G].
  apply assertion_facts in X as (a & au & sg & ad & v1 & s1 & v2 & s2 & x & y & es & _ & Y1 & Y2 & _ & _ & Y3 & Y4 & _); auto.
  assert (R1 : asserted (0 :: b) (cs_id s1) (ad_count ad)) by (exists au, sg, ad; auto).
  destruct (asserted_one _ _ _ _ _ A2 R1) as (-> & ->).
  assert (I1 : In s1 (cl_vault (w_client w0))) by (rewrite Y4; apply in_elt).
  destruct (SY _ _ _ (in_elt _ _ _) (Says_ga d1 r1 _ _ A1)) as [_ Z]. specialize (Z s1 I1 eq_refl). cbn in Z.
  apply B in I1. rewrite Y3. unfold uctr in *. lia.
Qed.

(* C32 *)
Lemma assertion_verifies E h1 d1 r1 h2 d2 r2 h3 up w id x y auth sig : env_ok E ->
  let h := h1 ++ HDone (ICtap (1 :: d1)) (OBytes r1) :: h2 ++ HDone (ICtap (2 :: d2)) (OBytes r2) :: h3 in
  history E h up w -> starts_ok E h -> fresh E w -> len h < 4294967296 ->
  registered r1 id x y -> response (assertion_doc id auth sig) r2 ->
  exists a ad w2 s, unmarshal dec_ga d2 = Some a /\
    ecdsa_verify (e_C E) (x, y) (sha256 (e_C E) (auth ++ or_nil (ga_hash a))) sig = true /\
    has_auth_data auth ad /\ ad_rp_hash ad = sha256 (e_C E) (ga_rp a) /\
    history E (h1 ++ HDone (ICtap (1 :: d1)) (OBytes r1) :: h2 ++ [HDone (ICtap (2 :: d2)) (OBytes r2)]) true w2 /\
    In s (cl_vault (w_client w2)) /\ cs_id s = id /\ ad_count ad = Z.to_N (cs_ctr s mod 4294967296).
Proof.
  intros L h H ST F LH R1 R2. unfold h in *. clear h.
  rewrite app_comm_cons, app_assoc in H, ST, LH.
  destruct (at_request _ _ _ _ _ _ _ L H ST F ltac:(lia)) as (w0 & w1 & H0 & H1 & _ & G & X & K0 & S0 & _).
  destruct S0 as (ND & _ & B & SY).
  apply handle_ctap in X as (r & Q & X). injection Q as <-. destruct R2 as (b & -> & R2).
  cbn [good_input] in G. apply wfb_cons in G as [_ G].
  apply assertion_facts in X as (a & au & sg & ad & v1 & s1 & v2 & s2 & x1 & y1 & es & U & Y1 & Y2 & Yh & _ & Y3 & Y4 & _ & _ & P & Vf & V' & Q2 & C2 & _); auto.
  destruct Y1 as (b' & Q & Y1). injection Q as <-. pose proof (canonical_one _ _ _ R2 Y1) as Q. unfold assertion_doc in Q.
  injection Q as -> -> ->.
  assert (I1 : In s1 (cl_vault (w_client w0))) by (rewrite Y4; apply in_elt).
  destruct (SY _ _ _ (in_elt _ _ _) (Says_reg d1 r1 _ _ _ R1)) as [_ Z]. specialize (Z s1 I1 eq_refl). cbn in Z.
  destruct P as (k & P), Z as (k' & Z). rewrite P in Z. injection Z as -> -> _.
  exists a, ad, w1, s2. split; [assumption|]. split; [assumption|]. split; [assumption|]. split; [assumption|].
  split. { rewrite app_comm_cons, app_assoc. assumption. }
  split; [rewrite V'; apply in_elt|]. split; [now rewrite Q2|]. rewrite Y3. now rewrite C2.
Qed.

(* Deleted credentials are gone. *)
Lemma deleted_gone E h1 h2 d2 r2 h3 up w id n : env_ok E ->
  let h := h1 ++ HDone (IDelete id) (OBool true) :: h2 ++ HDone (ICtap (2 :: d2)) (OBytes r2) :: h3 in
  history E h up w -> starts_ok E h -> fresh E w -> len h < 4294967296 -> ~ asserted r2 id n.
Proof.
  intros L h H ST F LH A2. unfold h in *. clear h.
  rewrite app_comm_cons, app_assoc in H, ST, LH.
  destruct (at_request _ _ _ _ _ _ _ L H ST F ltac:(lia)) as (w0 & w1 & H0 & _ & _ & G & X & K0 & S0 & _).
  destruct S0 as (ND & _ & B & SY).
  apply handle_ctap in X as (r & Q & X). injection Q as <-. destruct (asserted_ok _ _ _ A2) as (b & ->).
  cbn [good_input] in G. apply wfb_cons in G as [_ G].
  apply assertion_facts in X as (a & au & sg & ad & v1 & s1 & v2 & s2 & x & y & es & _ & Y1 & Y2 & _ & _ & Y3 & Y4 & _); auto.
  assert (R1 : asserted (0 :: b) (cs_id s1) (ad_count ad)) by (exists au, sg, ad; auto).
  destruct (asserted_one _ _ _ _ _ A2 R1) as (-> & ->).
  assert (I1 : In s1 (cl_vault (w_client w0))) by (rewrite Y4; apply in_elt).
  destruct (SY _ _ _ (in_elt _ _ _) (Says_delete (cs_id s1))) as [_ Z]. exact (Z s1 I1 eq_refl).
Qed.

(* A start never fails. *)
Lemma starts_succeed E h up w p : env_ok E -> history E h up w -> starts_ok E h -> ~ In (HStartFailed p) h.
Proof.
  intros L H. induction H as [c t|h w q w' H IH S|h w q w' H IH S|h w i w' o H IH G S|h w i w' H IH G S|h w i w' r es rest H IH G S T]; intros ST I.
  1: destruct I.
  all: assert (ST0 : starts_ok E h) by (intros z Z; apply ST; rewrite !in_app_iff; tauto).
  all: apply in_app_iff in I as [I|[I|[]]]; [now apply IH|]; try discriminate I.
  destruct (history_inv E h _ w L H ST0) as (V & D & _).
  assert (P : params_ok E q) by (apply ST; right; apply in_elt).
  destruct (start_live E q w w' _ V L P D S) as (X & _). discriminate X.
Qed.
