From Coq Require Import Permutation.
From Verif Require Import Base M_Str M_Utf8 M_Cbor M_Json M_Crypto M_Cose M_State M_Client.
From Verif Require Import S_Crypto S_Cbor S_Cose S_State S_Client P_Crypto P_Cbor P_Cbor2 P_Cose P_Cose2 P_Json P_State.

(* ------------------------------------------------------------------ *)
(* Symbolic execution                                                  *)

Definition wp {A} (m : M A) (Q : world -> res A -> Prop) (w : world) : Prop :=
  Q (fst (m w)) (snd (m w)).

Notation mkw c t tr := {| w_client := c; w_tick := t; w_trace := tr |}.

Lemma wp_eq {A} (m : M A) Q w w' r : wp m Q w -> m w = (w', r) -> Q w' r.
Proof. unfold wp. intros H E. rewrite E in H. exact H. Qed.

Lemma wp_mono {A} (m : M A) (Q Q' : world -> res A -> Prop) w :
  wp m Q w -> (forall w' r, Q w' r -> Q' w' r) -> wp m Q' w.
Proof. unfold wp. auto. Qed.

Lemma wp_bind {A B} (m : M A) (f : A -> M B) Q w :
  wp m (fun w' r => match r with Ok a => wp (f a) Q w' | Panic => Q w' Panic end) w -> wp (bind m f) Q w.
Proof. unfold wp, bind. destruct (m w) as [w' [a|]]; cbn; auto. Qed.

Lemma wp_ret {A} (a : A) (Q : world -> res A -> Prop) w : Q w (Ok a) -> wp (ret a) Q w.
Proof. auto. Qed.
Lemma wp_fail {A} (Q : world -> res A -> Prop) w : Q w Panic -> wp fail Q w.
Proof. auto. Qed.
Lemma wp_lift {A} (r : res A) (Q : world -> res A -> Prop) w : Q w r -> wp (lift r) Q w.
Proof. auto. Qed.
Lemma wp_get (Q : world -> res client -> Prop) w : Q w (Ok (w_client w)) -> wp get Q w.
Proof. auto. Qed.
Lemma wp_put c (Q : world -> res unit -> Prop) w :
  Q (mkw c (w_tick w) (w_trace w)) (Ok tt) -> wp (put c) Q w.
Proof. auto. Qed.
Lemma wp_emit e (Q : world -> res unit -> Prop) w :
  Q (mkw (w_client w) (w_tick w) (w_trace w ++ [e])) (Ok tt) -> wp (emit e) Q w.
Proof. auto. Qed.
Lemma wp_random E n (Q : world -> res bytes -> Prop) w :
  Q (mkw (w_client w) (w_tick w + 1) (w_trace w)) (Ok (e_rand E (w_tick w) n)) -> wp (random E n) Q w.
Proof. auto. Qed.
Lemma wp_scalar E (Q : world -> res N -> Prop) w :
  Q (mkw (w_client w) (w_tick w + 1) (w_trace w)) (Ok (e_scalar E (w_tick w))) -> wp (new_scalar E) Q w.
Proof. auto. Qed.
Lemma wp_ask E a rp u (Q : world -> res bool -> Prop) w :
  Q (mkw (w_client w) (w_tick w + 1) (w_trace w ++ [EvAsk a rp u (e_approve E (w_tick w) a rp u)]))
    (Ok (e_approve E (w_tick w) a rp u)) -> wp (ask E a rp u) Q w.
Proof. auto. Qed.

Ltac wcbn := cbn [w_client w_tick w_trace].

(* ------------------------------------------------------------------ *)
(* Vault                                                               *)

Lemma in_list_iff id l : in_list id l = true <-> exists d, In d l /\ or_nil (de_id d) = id.
Proof.
  induction l as [|d l IH]; cbn [in_list]; [split; [discriminate|intros (x & [] & _)]|].
  destruct (bytes_eqb (or_nil (de_id d)) id) eqn:K.
  - apply bytes_eqb_eq in K. split; auto. intros _. exists d. cbn; auto.
  - rewrite IH. split; intros (x & I & J); exists x; (split; [|exact J]).
    + cbn; auto.
    + destruct I as [<-|I]; auto. rewrite J, bytes_eqb_refl in K. discriminate.
Qed.

Definition matches (rp : bytes) (allow : option (list descriptor)) (s : source) : bool :=
  (bytes_eqb (rp_id (cs_rp s)) rp && match allow with Some l => in_list (cs_id s) l | None => true end)%bool.

Lemma matches_iff rp allow s : matches rp allow s = true <->
  rp_id (cs_rp s) = rp /\
  match allow with Some l => exists d, In d l /\ or_nil (de_id d) = cs_id s | None => True end.
Proof.
  unfold matches. rewrite andb_true_iff, bytes_eqb_eq. destruct allow as [l|].
  - now rewrite in_list_iff.
  - tauto.
Qed.

Lemma matching_filter v rp allow : matching v rp allow = filter (matches rp allow) v.
Proof.
  induction v as [|s v IH]; [reflexivity|]. cbn [matching filter]. unfold matches at 1.
  destruct (bytes_eqb (rp_id (cs_rp s)) rp); cbn [andb]; [|exact IH].
  destruct allow as [l|]; [|now rewrite IH]. destruct (in_list (cs_id s) l); now rewrite IH.
Qed.

Lemma find_id_none v id : find_id v id = None -> forall s, In s v -> cs_id s <> id.
Proof.
  induction v as [|s v IH]; cbn [find_id]; [intros _ s []|].
  destruct (bytes_eqb (cs_id s) id) eqn:K; [discriminate|].
  destruct (find_id v id); [discriminate|]. intros _ x [<-|I].
  - intros H0. rewrite H0, bytes_eqb_refl in K. discriminate.
  - now apply IH.
Qed.

Lemma find_id_some v id i : find_id v id = Some i ->
  exists v1 s v2, v = v1 ++ s :: v2 /\ length v1 = i /\ cs_id s = id /\ (forall x, In x v1 -> cs_id x <> id).
Proof.
  revert i. induction v as [|s v IH]; cbn [find_id]; intros i H; [discriminate|].
  destruct (bytes_eqb (cs_id s) id) eqn:K.
  - injection H as <-. apply bytes_eqb_eq in K. exists [], s, v. cbn. repeat split; auto.
  - destruct (find_id v id) as [j|] eqn:F; [|discriminate]. injection H as <-.
    destruct (IH j eq_refl) as (v1 & x & v2 & -> & L & D & N).
    exists (s :: v1), x, v2. cbn. repeat split; auto.
    intros y [<-|I]; auto. intros H0. rewrite H0, bytes_eqb_refl in K. discriminate.
Qed.

Lemma set_nth_app v1 s v2 x : set_nth (v1 ++ s :: v2) (length v1) x = v1 ++ x :: v2.
Proof. induction v1 as [|a v1 IH]; cbn; [reflexivity|now rewrite IH]. Qed.

Lemma delete_spec v id v' ok : delete_identity v id = (v', ok) ->
  (ok = true /\ exists s, In s v /\ cs_id s = id /\ Permutation v (s :: v')) \/
  (ok = false /\ v' = v /\ forall s, In s v -> cs_id s <> id).
Proof.
  unfold delete_identity. destruct (find_id v id) as [i|] eqn:F.
  - apply find_id_some in F as (v1 & s & v2 & -> & <- & D & _).
    destruct (rev (v1 ++ s :: v2)) as [|l r] eqn:R.
    { apply (f_equal (@length _)) in R. rewrite rev_length, app_length in R. cbn in R. lia. }
    intro H; injection H as <- <-. left. split; [reflexivity|]. exists s.
    split; [apply in_elt|]. split; [assumption|].
    rewrite set_nth_app.
    destruct v2 as [|b v2 _] using rev_ind.
    + rewrite removelast_last. symmetry. apply Permutation_cons_append.
    + assert (l = b) as ->.
      { rewrite app_comm_cons, app_assoc, rev_app_distr in R. cbn in R. congruence. }
      replace (v1 ++ b :: v2 ++ [b]) with ((v1 ++ b :: v2) ++ [b]) by (rewrite <- app_assoc; reflexivity).
      rewrite removelast_last, <- Permutation_middle. apply perm_skip.
      apply Permutation_app_head. symmetry. apply Permutation_cons_append.
  - intro H; injection H as <- <-. right. repeat split; auto. now apply find_id_none.
Qed.

Lemma bump_first_some v rp allow v' s : bump_first v rp allow = Some (v', s) ->
  exists v1 x v2, v = v1 ++ x :: v2 /\ v' = v1 ++ bump x :: v2 /\ s = bump x /\
    matches rp allow x = true /\ forallb (fun y => negb (matches rp allow y)) v1 = true.
Proof.
  revert v' s. induction v as [|x v IH]; cbn [bump_first]; intros v' s H; [discriminate|].
  rewrite matching_filter in H. cbn [filter] in H. destruct (matches rp allow x) eqn:K.
  - injection H as <- <-. exists [], x, v. cbn. auto.
  - destruct (bump_first v rp allow) as [[r y]|]; [|discriminate]. injection H as <- <-.
    destruct (IH r y eq_refl) as (v1 & z & v2 & -> & -> & -> & D & F).
    exists (x :: v1), z, v2. cbn. rewrite K. auto.
Qed.

Lemma bump_first_none v rp allow : bump_first v rp allow = None <-> matching v rp allow = [].
Proof.
  rewrite matching_filter. induction v as [|x v IH]; cbn [bump_first filter]; [tauto|].
  rewrite matching_filter. cbn [filter]. destruct (matches rp allow x); [split; discriminate|].
  rewrite <- IH. destruct (bump_first v rp allow) as [[r y]|]; split; auto; discriminate.
Qed.

(* ------------------------------------------------------------------ *)
(* Keys                                                                *)

Lemma chead_wf mt n : mt < 8 -> n < 256 ^ 8 -> wfb (chead mt n).
Proof.
  intros H _. unfold chead.
  repeat match goal with |- context [if ?c then _ else _] => destruct c eqn:? end;
  repeat (apply wfb_cons; split; [lia|]); auto with wf.
Qed.

Lemma cenc_wf v : cgood v -> wfb (cenc v).
Proof.
  induction v using cbor_ind'; cbn [cgood cenc]; intro Hg.
  - apply chead_wf; [lia|auto].
  - apply chead_wf; [lia|auto].
  - apply wfb_app. split; [apply chead_wf; [lia|tauto]|tauto].
  - apply wfb_app. split; [apply chead_wf; [lia|tauto]|]. now apply utf8_text_wf.
  - apply wfb_app. split; [apply chead_wf; [lia|tauto]|]. destruct Hg as [_ Hg].
    induction H as [|x l Hx Hl IH]; cbn in *; [apply wfb_nil|]. apply wfb_app. tauto.
  - apply wfb_app. split; [apply chead_wf; [lia|tauto]|]. destruct Hg as (_ & Hg & _).
    induction H as [|x l Hx Hl IH]; cbn in *; [apply wfb_nil|]. rewrite !wfb_app. tauto.
  - tauto.
  - apply chead_wf; [lia|]. change (256 ^ 8) with 18446744073709551616. lia.
  - tauto.
Qed.

Lemma order_256 d : valid_scalar d -> d < 2 ^ 256.
Proof. intros [_ H]. eapply N.lt_trans; [exact H|]. vm_compute. reflexivity. Qed.

Lemma ec_priv_wf C d b : laws C -> valid_scalar d -> marshal_priv (priv_ec (ec_key C d)) = Ok b -> wfb b.
Proof.
  intros L V. cbn [marshal_priv priv_ec kp_ec]. unfold encode_ecdsa_priv. cbn [ec_public eq_curve ec_key].
  match goal with |- Ok ?x = _ -> _ => intro H; assert (b = x) as -> by congruence end.
  unfold marshal_cbor. rewrite ec2_struct. apply cenc_wf.
  cbn [e2_kty e2_alg e2_crv e2_x e2_y e2_d eq_x eq_y ec_d ec_key].
  pose proof (p256_len64 _ (l_pub_x C L d V)) as Lx. pose proof (p256_len64 _ (l_pub_y C L d V)) as Ly.
  pose proof (p256_len64 _ (order_256 d V)) as Ld.
  pose proof (big_bytes_wf (fst (p256_pub C d))) as Wx. pose proof (big_bytes_wf (snd (p256_pub C d))) as Wy.
  pose proof (big_bytes_wf d) as Wd.
  revert Lx Ly Ld Wx Wy Wd.
  generalize (big_bytes (fst (p256_pub C d))) (big_bytes (snd (p256_pub C d))) (big_bytes d).
  intros bx bY bd. intros. change (256 ^ 8) with 18446744073709551616 in *.
  cbn [cbytes empty_slice]. destruct bd as [|q bd]; cbn [app cgood fold_right fst snd];
    (split; [vm_compute; reflexivity|]; split;
      [unfold cgood; cbn [CInt]; change (256 ^ 8) with 18446744073709551616;
       repeat match goal with |- _ /\ _ => split | |- True => exact I end;
       auto; try (vm_compute; reflexivity)
      | apply increasing_sorted; vm_compute; reflexivity]).
Qed.

Lemma ec_stable C d : laws C -> valid_scalar d -> stable_key C (priv_ec (ec_key C d)).
Proof.
  intros L V. assert (P : proper_priv C (priv_ec (ec_key C d))).
  { unfold priv_ec, ec_key. constructor; [now apply l_pub_x|now apply l_pub_y|now apply order_256]. }
  destruct (priv_round_trip C _ L P) as (b & k' & A & B & D). exists b. split; [assumption|]. split.
  - eapply ec_priv_wf; eauto.
  - eapply priv_stable; eauto.
Qed.

Lemma read_stable E k : stable_key (e_C E) k ->
  exists b, marshal_priv k = Ok b /\ wfb b /\ unmarshal_priv (e_C E) b = Ok (Some k) /\ read_key E b = Ok (Some k).
Proof.
  intros (b & A & B & D). exists b. repeat split; auto. unfold read_key. rewrite D. reflexivity.
Qed.

(* ------------------------------------------------------------------ *)
(* Saving                                                              *)

Lemma pk_text : utf8_text [112; 117; 98; 108; 105; 99; 45; 107; 101; 121].
Proof. txt. Qed.

Lemma export_ok C v : laws C -> Forall (source_ok C) v ->
  exists ss, export v = Ok ss /\ Forall proper_source ss /\ Forall2 (describes_source C) ss v.
Proof.
  intro L. induction 1 as [|s v Hs Hv (ss & A & B & D)]; [exists []; auto|].
  destruct Hs as (T & _ & I & (d & V & K) & R & U & N).
  destruct (ec_stable C d L V) as (b & M1 & M2 & M3). cbn [export]. rewrite K, M1, A. cbn [rbind].
  eexists. split; [reflexivity|]. split; constructor; auto.
  - unfold proper_source. cbn. rewrite T. auto 10 using pk_text.
  - unfold describes_source. cbn. rewrite K. repeat split; auto. exists b. auto.
Qed.

Lemma config_ok E c : env_ok E -> client_ok E c ->
  exists cf, config_of c = Ok cf /\ proper_config cf /\ describes (e_C E) cf c.
Proof.
  intros L K. destruct (read_stable E _ (co_certkey E c K)) as (b & A & B & D & _).
  destruct (export_ok (e_C E) (cl_vault c) (eo_laws E L) (co_vault E c K)) as (ss & F & G & H).
  unfold config_of. rewrite A, F. cbn [rbind]. eexists. split; [reflexivity|].
  destruct K as [K1 K2 K3 K4 K5 K6 K7 K8 K9]. split.
  - unfold proper_config. cbn. repeat split; try tauto; auto.
    + destruct (cl_hash c); cbn; tauto.
    + destruct (cl_hash c) as [h|]; [|discriminate]. intro Z. injection Z as ->. destruct K8 as [_ K8]. discriminate.
  - unfold describes. cbn. repeat split; auto. exists b. auto.
Qed.

Lemma wp_save E (Q : world -> res unit -> Prop) w : env_ok E -> client_ok E (w_client w) ->
  (forall d, stored E d (w_client w) ->
     Q (mkw (w_client w) (w_tick w + 4) (w_trace w ++ [EvSave d])) (Ok tt)) ->
  wp (save_data E) Q w.
Proof.
  intros L K HQ. destruct (config_ok E _ L K) as (cf & A & B & D).
  unfold save_data, export_data. apply wp_bind. apply wp_bind. apply wp_get.
  apply wp_bind, wp_lift. rewrite A.
  apply wp_bind, wp_random. wcbn. apply wp_bind, wp_random. wcbn.
  apply wp_bind, wp_random. wcbn. apply wp_bind, wp_random. wcbn.
  set (dr := {| dr_salt := _ |}).
  assert (PD : proper_draws dr).
  { unfold proper_draws, dr. cbn.
    repeat split; auto using eo_rand_wf; match goal with |- len (e_rand _ _ ?n) = _ => rewrite (eo_rand_len E L) end; reflexivity. }
  destruct (state_round_trip (e_C E) (eo_laws E L) cf (e_pass E) dr B PD) as (out & F & G).
  rewrite F. apply wp_ret. apply wp_emit. wcbn.
  replace (w_tick w + 1 + 1 + 1 + 1) with (w_tick w + 4) by lia. apply HQ.
  split; [exact (state_closed _ (eo_laws E L) cf _ dr out B PD F)|]. exists cf. auto.
Qed.

(* ------------------------------------------------------------------ *)
(* Loading                                                             *)

Lemma import_loop_ok E ss v last : Forall2 (describes_source (e_C E)) ss v ->
  import_loop E ss last = Ok (combine ss (map cs_key v), match rev ss with z :: _ => Some z | [] => last end).
Proof.
  intro H. revert last. induction H as [|s x ss v Hs Hv IH]; intro last; [reflexivity|].
  destruct Hs as (_ & _ & (b & K & U) & _). cbn [import_loop]. rewrite K. cbn [or_nil].
  unfold read_key. rewrite U. cbn [rbind]. rewrite IH. cbn [rbind map combine rev].
  do 2 f_equal. destruct (rev ss) as [|z r]; reflexivity.
Qed.

Lemma import_ok E ss v : Forall2 (describes_source (e_C E)) ss v -> import_sources E ss = Ok (smeared v).
Proof.
  intro H. unfold import_sources. rewrite (import_loop_ok E ss v None H). cbn [rbind]. unfold smeared.
  destruct (rev ss) as [|z r] eqn:R.
  - destruct ss as [|a ss] using rev_ind; [|rewrite rev_app_distr in R; discriminate].
    inversion H; subst. reflexivity.
  - destruct ss as [|a ss _] using rev_ind; [discriminate|]. rewrite rev_app_distr in R. cbn in R.
    injection R as -> _. apply Forall2_app_inv_l in H as (v1 & v2 & H1 & H2 & ->).
    inversion H2 as [|? y ? v3 Hz H3]; subst. inversion H3; subst. rewrite rev_app_distr. cbn [rev app].
    f_equal. destruct Hz as (A & B & (b & D & _) & F & G & I). rewrite F, G.
    assert (X : forall ss v, Forall2 (describes_source (e_C E)) ss v ->
       map (fun p => {| cs_type := ss_type (fst p); cs_id := or_nil (ss_id (fst p)); cs_key := snd p;
                        cs_rp := cs_rp y; cs_user := cs_user y; cs_ctr := ss_ctr (fst p) |})
         (combine ss (map cs_key v)) = map (with_owner (cs_rp y) (cs_user y)) v).
    { clear. induction 1 as [|s x ss v Hs Hv IH]; [reflexivity|]. cbn. rewrite IH. f_equal.
      destruct Hs as (A & B & _ & _ & _ & I). unfold with_owner. now rewrite A, B, I. }
    apply (X (ss ++ [z]) (v1 ++ [y])). now apply Forall2_app.
Qed.

(* The client read back from a blob that stores [c]. *)
Definition reloaded (c0 c : client) : client :=
  {| cl_key := cl_key c; cl_cert := cl_cert c; cl_certkey := cl_certkey c; cl_ctr := cl_ctr c;
     cl_pin := cl_pin c; cl_token := cl_token c0; cl_ka := cl_ka c0; cl_retries := cl_retries c0;
     cl_hash := cl_hash c; cl_vault := smeared (cl_vault c) |}.

Lemma import_data_ok E c0 c d : stored E d c -> e_cert_ok E (cl_cert c) = true ->
  import_data E c0 d = Ok (reloaded c0 c).
Proof.
  intros (_ & cf & A & (D1 & D2 & (b & D3 & D4) & D5 & D6 & D7 & D8)) Hc.
  unfold import_data. rewrite A. cbn [rbind]. rewrite D2. cbn [or_nil]. rewrite Hc.
  unfold read_key. rewrite D3. cbn [or_nil]. rewrite D4. cbn [rbind].
  rewrite (import_ok E _ _ D8). cbn [rbind]. unfold reloaded. now rewrite D1, D5, D6, D7.
Qed.

Lemma smeared_in s v : In s (smeared v) -> exists x z, In x v /\ In z v /\ s = with_owner (cs_rp z) (cs_user z) x.
Proof.
  unfold smeared. destruct (rev v) as [|z r] eqn:R; [intros []|]. intro H. apply in_map_iff in H as (x & <- & I).
  exists x, z. repeat split; auto. apply in_rev. rewrite R. cbn; auto.
Qed.

Lemma smeared_ok C v : Forall (source_ok C) v -> Forall (source_ok C) (smeared v).
Proof.
  rewrite !Forall_forall. intros H s I. apply smeared_in in I as (x & z & Ix & Iz & ->).
  pose proof (H x Ix) as (A & B & D & F & _ & _ & G). pose proof (H z Iz) as (_ & _ & _ & _ & R & U & _).
  unfold source_ok, with_owner. cbn. auto 10.
Qed.

Lemma smeared_map v : smeared v = match rev v with [] => [] | z :: _ => map (with_owner (cs_rp z) (cs_user z)) v end.
Proof. reflexivity. Qed.

(* The parts of a credential which a reload keeps. *)
Definition core (s : source) : bytes * bytes * cose_priv * Z := (cs_type s, cs_id s, cs_key s, cs_ctr s).

Lemma smeared_core v : map core (smeared v) = map core v.
Proof.
  unfold smeared. destruct (rev v) as [|z r] eqn:R.
  - destruct v as [|a v _] using rev_ind; [reflexivity|]. rewrite rev_app_distr in R. discriminate.
  - rewrite map_map. apply map_ext. reflexivity.
Qed.

Lemma wp_start E p data (Q : world -> res unit -> Prop) w : 
  let c0 := new_client p (e_rand E (w_tick w) 16) (e_scalar E (w_tick w + 1)) in
  match data with
  | None => Q (mkw c0 (w_tick w + 2) (w_trace w)) (Ok tt)
  | Some d => exists c, stored E d c /\ e_cert_ok E (cl_cert c) = true /\
               Q (mkw (reloaded c0 c) (w_tick w + 2) (w_trace w)) (Ok tt)
  end -> wp (start E p data) Q w.
Proof.
  intros c0 H. unfold start. apply wp_bind, wp_random. wcbn. apply wp_bind, wp_scalar. wcbn.
  replace (w_tick w + 1 + 1) with (w_tick w + 2) by lia. destruct data as [d|].
  - destruct H as (c & S & K & H). apply wp_bind, wp_lift.
    rewrite (import_data_ok E _ c d S K). apply wp_put. exact H.
  - apply wp_put. exact H.
Qed.

Lemma new_client_ok E p t ka : env_ok E -> params_ok E p -> len t = 16 -> wfb t -> valid_scalar ka ->
  client_ok E (new_client p t ka).
Proof.
  intros L (A & B & D) H1 H2 H3. constructor; cbn; auto; try lia.
Qed.

Lemma reloaded_ok E c0 c : client_ok E c0 -> client_ok E c -> client_ok E (reloaded c0 c).
Proof.
  intros [A1 A2 A3 A4 A5 A6 A7 A8 A9] [B1 B2 B3 B4 B5 B6 B7 B8 B9]. constructor; cbn; auto.
  now apply smeared_ok.
Qed.
