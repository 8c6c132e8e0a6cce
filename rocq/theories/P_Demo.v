From Coq Require Import Permutation.
From Verif Require Import Base M_Str M_Json M_Crypto M_Cose M_State M_Client M_Ctap M_U2f M_Demo M_History.
From Verif Require Import S_Crypto S_State S_Client S_Ctap S_U2f S_Demo S_History.
From Verif Require Import P_Json P_State P_Client P_Ctap P_Vault P_Torn P_History.

(* ---------------------------------------------------------------- the vault file *)
Lemma save_open n data d r : write_steps n data (SvOpen d r) = SvOpen (d ++ firstn n r) (skipn n r).
Proof.
  revert d r. induction n as [|n IH]; intros d r; cbn [write_steps firstn skipn]; [now rewrite app_nil_r|].
  destruct r as [|b r]; cbn [write_step]; rewrite IH; [now rewrite firstn_nil, skipn_nil|].
  rewrite <- app_assoc. reflexivity.
Qed.

Lemma save_file n data old :
  on_disk (write_steps n data (SvBegin old)) = match n with O => old | S k => Some (firstn k data) end.
Proof. destruct n as [|n]; [reflexivity|]. cbn [write_steps write_step]. rewrite save_open. reflexivity. Qed.

Lemma save_cases n data old f : f = on_disk (write_steps n data (SvBegin old)) ->
  (n = O /\ f = old) \/ f = Some data \/ exists g, f = Some g /\ torn g data.
Proof.
  intros ->. rewrite save_file. destruct n as [|n]; [now left|right].
  destruct (skipn n data) as [|b r] eqn:S.
  - left. f_equal. rewrite <- (firstn_skipn n data) at 2. now rewrite S, app_nil_r.
  - right. eexists. split; [reflexivity|]. exists b, r. now rewrite <- S, firstn_skipn.
Qed.

Lemma torn_import E c d g : closed_text d -> torn g d -> import_data E c g = Panic.
Proof.
  intros C (b & r & Q). unfold import_data, decrypt_fido_state, decrypt_with_passphrase, junmarshal.
  rewrite (torn_not_json d g b r C Q). reflexivity.
Qed.

Lemma torn_start E p d g w w' r : closed_text d -> torn g d -> start E p (Some g) w = (w', r) ->
  r = Panic /\ w_trace w' = w_trace w.
Proof.
  intros C T H. unfold start, random, new_scalar, bind, tick, ret, lift in H. cbn in H.
  rewrite (torn_import E _ d g C T) in H. injection H as <- <-. auto.
Qed.

(* A process killed during the save of a request. *)
Lemma killed_while_saving E h w i w' r es d rest n f : env_ok E -> history E h true w -> starts_ok E h ->
  good_input i -> handle E i w = (w', r) -> w_trace w' = w_trace w ++ es ++ EvSave d :: rest ->
  f = on_disk (write_steps n d (SvBegin (saved_in (w_trace w ++ es)))) ->
  ((f = saved_in (w_trace w) \/ f = Some d) /\
     forall p w2, params_ok E p -> exists w3, start E p (retrieve f) w2 = (w3, Ok tt)) \/
  (exists g, f = Some g /\ torn g d /\
     forall p w2 w3 r3, start E p (retrieve f) w2 = (w3, r3) -> r3 = Panic /\ w_trace w3 = w_trace w2).
Proof.
  intros L H ST G X T F.
  destruct (history_inv E h true w L H ST) as (V & D & K & _). destruct (K eq_refl) as [K1 _].
  pose proof (handle_step E i w w' r L K1 G X) as (K' & _ & _ & _ & es' & Ev & S).
  unfold events in Ev. rewrite T in Ev. apply app_inv_head in Ev. subst es'.
  assert (Sv : saves es = [] /\ stored E d (w_client w')).
  { rewrite saves_app in S. change (saves (EvSave d :: rest)) with (d :: saves rest) in S.
    destruct S as [[S _]|(d' & S & St)]; [destruct (saves es); discriminate S|].
    destruct (saves es) as [|x l]; [cbn in S; injection S as -> _; auto|].
    cbn in S. injection S as _ S. destruct l; discriminate S. }
  destruct Sv as [S0 St]. rewrite saved_app in F. unfold last_save in F. rewrite S0 in F. cbn [rev] in F.
  apply save_cases in F. destruct F as [[_ ->]|[->|(g & -> & Tn)]].
  - left. split; [now left|]. intros p w2 P. unfold disk in D. unfold retrieve. destruct (saved_in (w_trace w)) as [d0|].
    + destruct D as (c & St0 & Kc & _). destruct (restart E p d0 c w2 L P St0 Kc) as (w3 & R & _). eauto.
    + eexists. unfold start, random, new_scalar, bind, tick, ret, put. cbn. reflexivity.
  - left. split; [now right|]. intros p w2 P. destruct (restart E p d _ w2 L P St K') as (w3 & R & _). eauto.
  - right. exists g. split; [reflexivity|]. split; [exact Tn|]. intros p w2 w3 r3 R.
    exact (torn_start E p d g w2 w3 r3 (proj1 St) Tn R).
Qed.

(* ---------------------------------------------------------------- hexadecimal ids *)
Lemma nibble_digit n : n < 16 -> nibble (hex_digit n) n.
Proof. intro H. unfold nibble, hex_digit. destruct (N.ltb_spec n 10); [left|right]; lia. Qed.

Lemma nibble_one c c' n : nibble c n -> nibble c' n -> c = c'.
Proof. unfold nibble. lia. Qed.

Lemma hex_encode_text id : wfb id -> hex_text id (hex_encode id).
Proof.
  induction 1 as [|b id Hb _ IH]; [constructor|]. cbn. unfold byte_ok in Hb.
  constructor; auto; apply nibble_digit; [|apply N.mod_lt; lia]. apply N.div_lt_upper_bound; lia.
Qed.

Lemma hex_text_one id h h' : hex_text id h -> hex_text id h' -> h = h'.
Proof.
  intro H. revert h'. induction H as [|b r c1 c2 h Hb N1 N2 H IH]; intros h' H'; inversion H'; subst; [reflexivity|].
  rewrite (nibble_one c1 c0 _ N1), (nibble_one c2 c3 _ N2) by assumption. f_equal. f_equal. now apply IH.
Qed.

Lemma eat_iff p s r : eat p s = Some r <-> s = p ++ r.
Proof.
  revert s. induction p as [|a p IH]; intro s; cbn [eat app].
  - split; [intro H; injection H as ->; reflexivity|intros ->; reflexivity].
  - destruct s as [|b s]; [split; [discriminate|intro H; discriminate H]|].
    destruct (N.eqb_spec a b) as [->|Nq]; [rewrite IH; split; [intros ->; reflexivity|intro H; now injection H]|].
    split; [discriminate|]. intro H. injection H as H _. congruence.
Qed.

Lemma has_prefix_named prefix s : wfb (cs_id s) -> has_prefix (hex_encode (cs_id s)) prefix = true <-> named prefix s.
Proof.
  intro W. unfold has_prefix, named. pose proof (hex_encode_text _ W) as X. split.
  - destruct (eat prefix (hex_encode (cs_id s))) as [r|] eqn:Q; [|discriminate]. apply eat_iff in Q. eauto.
  - intros (h & r & A & B). rewrite (hex_text_one _ _ _ X A). apply eat_iff in B. now rewrite B.
Qed.

Lemma those_one {A} (P : A -> Prop) v l l' : those P v l -> those P v l' -> l = l'.
Proof.
  intro H. revert l'. induction H as [|x v l Px H IH|x v l Px H IH]; intros l' H'; inversion H'; subst; try contradiction; auto.
  f_equal. auto.
Qed.

Lemma those_in {A} (P : A -> Prop) v l x : those P v l -> In x l <-> In x v /\ P x.
Proof.
  induction 1 as [|y v l Py H IH|y v l Py H IH]; cbn; [tauto|rewrite IH|rewrite IH].
  - split; [intros [->|[I J]]; auto|intros [[->|I] J]; auto].
  - split; [intros [I J]; auto|intros [[->|I] J]; [contradiction|auto]].
Qed.

Lemma collect_those v prefix : Forall (fun s => wfb (cs_id s)) v -> exists l, those (named prefix) v l /\
  forall n var, collect v prefix n var = ((n + length l)%nat, match rev v with [] => var | z :: _ => Some z end).
Proof.
  induction 1 as [|s v W _ (l & A & B)].
  - exists []. split; [constructor|]. intros n var. cbn. now rewrite Nat.add_0_r.
  - pose proof (has_prefix_named prefix s W) as N. cbn [collect rev].
    destruct (has_prefix (hex_encode (cs_id s)) prefix).
    + exists (s :: l). split; [constructor; tauto|]. intros n var. rewrite B. cbn [length].
      rewrite Nat.add_succ_r. destruct (rev v); reflexivity.
    + exists l. split; [apply Th_out; [intro Q; apply N in Q; discriminate Q|exact A]|]. intros n var. rewrite B.
      destruct (rev v); reflexivity.
Qed.

Lemma vault_ids E c : client_ok E c -> Forall (fun s => wfb (cs_id s)) (cl_vault c).
Proof. intro K. eapply Forall_impl; [|apply (co_vault E c K)]. intros s (_ & _ & W & _). exact W. Qed.

(* What the delete command does. *)
Lemma delete_command_does E prefix l w w' r : env_ok E -> client_ok E (w_client w) ->
  those (named prefix) (cl_vault (w_client w)) l -> delete_command E prefix w = (w', r) ->
  match l with
  | [] => w' = w /\ r = Ok RepNone
  | [_] => exists v z v' d, cl_vault (w_client w) = v ++ [z] /\ r = Ok (RepDeleted (cs_id z) true) /\
      delete_identity (cl_vault (w_client w)) (cs_id z) = (v', true) /\ w_client w' = set_vault (w_client w) v' /\
      client_ok E (w_client w') /\ w_trace w' = w_trace w ++ [EvSave d] /\ stored E d (w_client w')
  | _ => w' = w /\ exists ids, r = Ok (RepSeveral ids) /\ length ids = length l
  end.
Proof.
  intros L K T H. destruct (collect_those (cl_vault (w_client w)) prefix (vault_ids E _ K)) as (l' & T' & C).
  pose proof (those_one _ _ _ _ T' T). subst l'. unfold delete_command, bind at 1, get in H. unfold identities in H.
  rewrite C in H. cbn [Nat.add] in H.
  destruct l as [|a [|b l]]; cbn [length] in H.
  - unfold ret in H. injection H as <- <-. auto.
  - destruct (rev (cl_vault (w_client w))) as [|z y] eqn:R.
    { apply (f_equal (@rev _)) in R. rewrite rev_involutive in R. cbn in R. rewrite R in T. inversion T. }
    assert (Q : cl_vault (w_client w) = rev y ++ [z]).
    { rewrite <- (rev_involutive (cl_vault (w_client w))), R. reflexivity. }
    unfold bind in H. destruct (delete_identity_api E (cs_id z) w) as [w1 r1] eqn:D.
    apply delete_api in D as (K' & _ & [(-> & -> & N)|(v' & d & -> & A & B & F & G)]); auto.
    + exfalso. apply (N z); [|reflexivity]. rewrite Q. apply in_app_iff. right. now left.
    + unfold ret in H. injection H as <- <-. exists (rev y), z, v', d. auto 10.
  - destruct (rev (cl_vault (w_client w))) as [|z y] eqn:R.
    { apply (f_equal (@rev _)) in R. rewrite rev_involutive in R. cbn in R. rewrite R in T. inversion T. }
    unfold ret in H. injection H as <- <-. split; [reflexivity|]. eexists. split; [reflexivity|].
    cbn. now rewrite repeat_length.
Qed.

(* With distinct ids the identity deleted is the last one. *)
Lemma delete_last E prefix s w w' r v z : env_ok E -> client_ok E (w_client w) ->
  NoDup (map cs_id (cl_vault (w_client w))) -> cl_vault (w_client w) = v ++ [z] ->
  those (named prefix) (cl_vault (w_client w)) [s] -> delete_command E prefix w = (w', r) ->
  r = Ok (RepDeleted (cs_id z) true) /\ Permutation (cl_vault (w_client w')) v.
Proof.
  intros L K N Q T H. pose proof (delete_command_does E prefix [s] w w' r L K T H) as (v2 & z2 & v' & d & A & B & D & F & _).
  rewrite Q in A. apply app_inj_tail in A as [<- <-]. split; [exact B|]. rewrite F. cbn [cl_vault set_vault].
  destruct (delete_exact _ _ _ _ D) as (_ & X & _). destruct (X eq_refl) as (v1 & x & v3 & E1 & E2 & E3 & P).
  rewrite Q in E1, N.
  destruct (rev v3) as [|y v4] eqn:R.
  - apply (f_equal (@rev _)) in R. rewrite rev_involutive in R. cbn in R. subst v3.
    apply app_inj_tail in E1 as [<- <-]. now rewrite app_nil_r in P.
  - exfalso. assert (Q3 : v3 = rev v4 ++ [y]) by (rewrite <- (rev_involutive v3), R; reflexivity).
    subst v3. change (x :: rev v4 ++ [y]) with ((x :: rev v4) ++ [y]) in E1. rewrite app_assoc in E1.
    apply app_inj_tail in E1 as [-> ->]. rewrite !map_app in N. cbn [map] in N.
    rewrite <- app_assoc in N. cbn [app] in N. apply NoDup_remove_2 in N. apply N.
    apply in_app_iff. right. apply in_app_iff. right. left. congruence.
Qed.

(* ---------------------------------------------------------------- list *)
Lemma list_command_ok E w : client_ok E (w_client w) ->
  exists l, list_command w = (w, Ok l) /\
    Forall2 (fun s x => exists h r, hex_text (cs_id s) (h ++ r) /\ len h = 8 /\
                          x = (h, us_name (cs_user s), rp_name (cs_rp s))) (cl_vault (w_client w)) l.
Proof.
  intro K. pose proof (co_vault E _ K) as F. unfold list_command, bind, get, lift, identities.
  assert (X : exists l, list_lines (cl_vault (w_client w)) = Ok l /\
    Forall2 (fun s x => exists h r, hex_text (cs_id s) (h ++ r) /\ len h = 8 /\
                          x = (h, us_name (cs_user s), rp_name (cs_rp s))) (cl_vault (w_client w)) l).
  { induction F as [|s v (_ & S1 & S2 & _) _ (l & A & B)]; [exists []; split; [reflexivity|constructor]|].
    cbn [list_lines]. rewrite S1. cbn. rewrite A. cbn. eexists. split; [reflexivity|]. constructor; [|exact B].
    exists (hex_encode (firstn 4 (cs_id s))), (hex_encode (skipn 4 (cs_id s))). split; [|split; [|reflexivity]].
    - unfold hex_encode. rewrite <- flat_map_app, firstn_skipn. now apply hex_encode_text.
    - destruct (cs_id s) as [|a [|b [|c [|d t]]]]; try (cbn in S1; discriminate S1). reflexivity. }
  destruct X as (l & -> & B). eauto.
Qed.

(* ---------------------------------------------------------------- pin set *)
Lemma plain_digits s : Forall (fun b => 48 <= b <= 57) s -> Forall (fun b => is_digit b = true) s.
Proof.
  apply Forall_impl. intros b H. unfold is_digit. apply andb_true_iff. rewrite !N.leb_le. exact H.
Qed.

Lemma val_snoc t c : digits_val (t ++ [c]) = 10 * digits_val t + (c - 48).
Proof. unfold digits_val. now rewrite fold_left_app. Qed.

Lemma val_pos t : plain_number t -> 0 < digits_val t.
Proof.
  intros [F H]. induction t as [|c t IH] using rev_ind; [destruct H|]. rewrite val_snoc.
  apply Forall_app in F as [F C]. inversion C; subst.
  destruct t as [|b t]; [cbn in H; lia|]. cbn [app] in H. specialize (IH F H). lia.
Qed.

Lemma digits_plain t : plain_number t -> forall f, digits_val t < 2 ^ N.of_nat f -> digits (S f) (digits_val t) = t.
Proof.
  intros [F H]. induction t as [|c t IH] using rev_ind; [destruct H|]. intros f B. rewrite val_snoc in *.
  pose proof F as F0. apply Forall_app in F as [F C]. inversion C as [|? ? Dc _]; subst.
  destruct t as [|b t].
  - cbn [app] in *. unfold digits_val in *. cbn [fold_left] in *. cbn [digits].
    destruct (N.ltb_spec (10 * 0 + (c - 48)) 10); [|lia]. f_equal. lia.
  - assert (P : plain_number (b :: t)) by (split; [exact F|exact H]). pose proof (val_pos _ P) as V.
    set (v := digits_val (b :: t)) in *. destruct f as [|f]; [change (2 ^ N.of_nat 0) with 1 in B; lia|].
    remember (S f) as g. cbn [digits]. subst g. destruct (N.ltb_spec (10 * v + (c - 48)) 10); [lia|].
    replace ((10 * v + (c - 48)) / 10) with v by (apply N.div_unique with (c - 48); lia).
    replace ((10 * v + (c - 48)) mod 10) with (c - 48) by (apply N.mod_unique with v; lia).
    rewrite IH; [f_equal; f_equal; lia|exact F|exact H|].
    rewrite Nat2N.inj_succ, N.pow_succ_r' in B. lia.
Qed.

Lemma enc_int_plain t : plain_number t -> enc_int (Z.of_N (digits_val t)) = t.
Proof.
  intro P. unfold enc_int. destruct (Z.ltb_spec (Z.of_N (digits_val t)) 0); [lia|]. rewrite N2Z.id.
  unfold enc_nat. apply digits_plain; [exact P|]. rewrite N2Nat.id. apply size_bound.
Qed.

Lemma parse_plain s acc : Forall (fun b => is_digit b = true) s ->
  parse_digits 10 s acc = Some (fold_left (fun a b => 10 * a + (b - 48)) s acc).
Proof.
  intro F. revert acc. induction F as [|b s D F IH]; intro acc; [reflexivity|]. cbn [parse_digits fold_left].
  unfold digit_of. unfold is_digit in D. rewrite D. cbn [obind]. 
  assert (X : (48 <=? b) && (b <=? 57) = true) by exact D. apply andb_true_iff in X as [X1 X2].
  apply N.leb_le in X1, X2. replace (b - 48 <? 10) with true by (symmetry; apply N.ltb_lt; lia).
  rewrite IH. f_equal. f_equal. lia.
Qed.

Lemma flag_plain s : plain_number s -> digits_val s < 9223372036854775808 ->
  parse_flag s = Some (Z.of_N (digits_val s)).
Proof.
  intros [F H] B. destruct s as [|b s]; [destruct H|]. inversion F as [|? ? Db _]; subst.
  assert (U : parse_uint (b :: s) = Some (digits_val (b :: s))).
  { replace (parse_uint (b :: s)) with (parse_digits 10 (b :: s) 0); [now apply parse_plain, plain_digits|].
    unfold parse_uint. destruct b as [|p]; [reflexivity|]. do 6 (destruct p as [p|p|]; try reflexivity). congruence. }
  replace (parse_flag (b :: s)) with
    (let! n := parse_uint (b :: s) in if n <? 9223372036854775808 then Some (Z.of_N n) else None).
  - rewrite U. cbn [obind]. apply N.ltb_lt in B. now rewrite B.
  - unfold parse_flag. clear -Db. destruct b as [|p]; [reflexivity|].
    do 6 (destruct p as [p|p|]; try reflexivity; try lia).
Qed.

Lemma val_bound s : Forall (fun b => 48 <= b <= 57) s -> digits_val s < 10 ^ len s.
Proof.
  induction s as [|c s IH] using rev_ind; intro F; [reflexivity|]. apply Forall_app in F as [F C]. inversion C; subst.
  specialize (IH F). rewrite val_snoc. unfold len in *. rewrite app_length, Nat2N.inj_add. cbn [length].
  change (N.of_nat 1) with 1. rewrite N.pow_add_r. change (10 ^ 1) with 10. lia.
Qed.

Lemma pin_command_plain E w w' r text : env_ok E -> client_ok E (w_client w) ->
  plain_number text -> 4 <= len text <= 18 -> pin_command E text w = (w', r) ->
  r = Ok true /\ exists d, w_client w' = set_hash (w_client w) (Some (firstn 16 (sha256 (e_C E) text))) /\
    w_trace w' = w_trace w ++ [EvSave d] /\ stored E d (w_client w').
Proof.
  intros L K P [Len Len2] H.
  assert (B : digits_val text < 9223372036854775808).
  { eapply N.lt_le_trans; [apply val_bound, P|]. transitivity (10 ^ 18); [|discriminate].
    apply N.pow_le_mono_r; [discriminate|exact Len2]. }
  unfold pin_command in H. rewrite (flag_plain text P B) in H.
  destruct (Z.ltb_spec (Z.of_N (digits_val text)) 0); [lia|]. rewrite (enc_int_plain text P) in H.
  destruct (N.ltb_spec (len text) 4); [lia|].
  unfold bind in H. destruct (set_pin_api E text w) as [w1 r1] eqn:S.
  assert (X : r1 = Ok tt /\ exists d, w_client w1 = set_hash (w_client w) (Some (firstn 16 (sha256 (e_C E) text))) /\
    w_trace w1 = w_trace w ++ [EvSave d] /\ stored E d (w_client w1)).
  { revert S. unfold set_pin_api, set_pin_hash. set (h := firstn 16 (sha256 (e_C E) text)). intro S.
    assert (Kh : client_ok E (set_hash (w_client w) (Some h))).
    { destruct K as [K1 K2 K3 K4 K5 K6 K7 K8 K9]. constructor; auto. cbn [cl_hash set_hash]. exact (hash16 (e_C E) text (eo_laws E L)). }
    pattern w1, r1. eapply wp_eq; [|exact S]. clear w1 r1 S H. apply wp_bind, wp_get. apply wp_bind, wp_put.
    apply wp_save; auto. cbn. intros d St. split; [reflexivity|]. eauto. }
  destruct X as [-> X]. unfold ret in H. injection H as <- <-. auto.
Qed.

Lemma pin_command_refused E w w' text : pin_command E text w = (w', Ok false) -> w' = w.
Proof.
  unfold pin_command, ret. destruct (parse_flag text) as [n|]; [|intro H; now injection H].
  destruct (n <? 0)%Z; [intro H; now injection H|]. destruct (len (enc_int n) <? 4); [intro H; now injection H|].
  unfold bind. destruct (set_pin_api E _ w) as [w1 [u|]]; intro H; discriminate H.
Qed.

(* ---------------------------------------------------------------- questions *)
Lemma login_mentions rp user : mentions (question ActGetAssertion rp user) rp /\ mentions (question ActGetAssertion rp user) user.
Proof.
  unfold question, quoted, mentions. split.
  - exists (str "Approve login for " ++ [34]), ([34] ++ str " with identity " ++ 34 :: user ++ [34] ++ str " (Y/n)?").
    now rewrite <- !app_assoc; cbn [app]; rewrite <- !app_assoc.
  - exists (str "Approve login for " ++ (34 :: rp ++ [34]) ++ str " with identity " ++ [34]), ([34] ++ str " (Y/n)?").
    rewrite <- !app_assoc. cbn [app]. rewrite <- !app_assoc. reflexivity.
Qed.

Lemma creation_mentions rp user : mentions (question ActMakeCredential rp user) rp.
Proof.
  unfold question, quoted, mentions. exists (str "Approve account creation for " ++ [34]), ([34] ++ str " (Y/n)?").
  now rewrite <- !app_assoc; cbn [app]; rewrite <- !app_assoc.
Qed.

Lemma blank_iff b : is_blank b = true <-> b = 32 \/ 9 <= b <= 13.
Proof. unfold is_blank. rewrite orb_true_iff, andb_true_iff, N.eqb_eq, !N.leb_le. tauto. Qed.

Lemma trim_left_split s : exists a, s = a ++ trim_left s /\ blanks a /\
  match trim_left s with b :: _ => is_blank b = false | [] => True end.
Proof.
  induction s as [|x s (a & A & B & C)]; [exists []; repeat split; constructor|]. cbn. destruct (is_blank x) eqn:Q.
  - exists (x :: a). split; [cbn; now rewrite <- A|]. split; [constructor; [now apply blank_iff|exact B]|exact C].
  - exists []. split; [reflexivity|]. split; [constructor|exact Q].
Qed.

Lemma trim_left_blanks a s : blanks a -> trim_left (a ++ s) = trim_left s.
Proof. induction 1 as [|x a X _ IH]; [reflexivity|]. cbn. apply blank_iff in X. now rewrite X. Qed.

Lemma blanks_rev s : blanks s -> blanks (rev s).
Proof. unfold blanks. rewrite !Forall_forall. intros H x I. apply H. now apply in_rev. Qed.

Lemma trim_split s : exists a b, s = a ++ trim s ++ b /\ blanks a /\ blanks b.
Proof.
  unfold trim. destruct (trim_left_split s) as (a & A & B & _).
  destruct (trim_left_split (rev (trim_left s))) as (b & D & F & _).
  exists a, (rev b). split; [|split; [exact B|now apply blanks_rev]].
  rewrite <- rev_app_distr, <- D, rev_involutive. exact A.
Qed.

Lemma trim_of a m b : blanks a -> blanks b -> (exists x t, m = x :: t /\ is_blank x = false) ->
  (exists x t, m = t ++ [x] /\ is_blank x = false) -> trim (a ++ m ++ b) = m.
Proof.
  intros A B (x & t & M & X) (y & u & M' & Y). unfold trim. rewrite (trim_left_blanks a) by exact A.
  replace (trim_left (m ++ b)) with (m ++ b) by (rewrite M; cbn; now rewrite X).
  rewrite rev_app_distr, trim_left_blanks by now apply blanks_rev.
  replace (trim_left (rev m)) with (rev m); [apply rev_involutive|]. rewrite M', rev_app_distr. cbn. now rewrite Y.
Qed.

Lemma lower_is b c : 97 <= c <= 122 -> lower b = c <-> b = c \/ b = c - 32.
Proof.
  intro H. unfold lower. destruct ((65 <=? b) && (b <=? 90))%bool eqn:Q.
  - apply andb_true_iff in Q as [Q1 Q2]. apply N.leb_le in Q1, Q2. lia.
  - apply andb_false_iff in Q. rewrite !N.leb_gt in Q. lia.
Qed.

Lemma answer_yes line : answer line = true <-> says_yes line.
Proof.
  unfold answer. split.
  - intro H. destruct (trim_split line) as (a & b & A & B & C). exists a, (trim line), b. split; [exact A|].
    split; [exact B|]. split; [exact C|]. set (m := trim line) in *. clearbody m. clear -H.
    apply orb_true_iff in H. rewrite !bytes_eqb_eq in H. destruct H as [H|H].
    + destruct m as [|x [|? ?]]; try discriminate H. injection H as H. apply lower_is in H; [|lia].
      left. cbn. destruct H as [->|H]; [now left|right; left; f_equal; lia].
    + destruct m as [|x [|y [|z [|? ?]]]]; try discriminate H. injection H as H1 H2 H3.
      apply lower_is in H1, H2, H3; try lia. right. exists x, y, z. split; [reflexivity|]. lia.
  - intros (a & m & b & -> & A & B & M).
    assert (X : map lower m = str "y" \/ map lower m = str "yes").
    { destruct M as [[<-|[<-|[]]]|(y & e & s & -> & Y & Ee & Ss)]; [left; reflexivity..|right].
      destruct Y as [->| ->], Ee as [->| ->], Ss as [->| ->]; reflexivity. }
    rewrite trim_of; auto.
    + apply orb_true_iff. rewrite !bytes_eqb_eq. exact X.
    + destruct M as [[<-|[<-|[]]]|(y & e & s & -> & Y & _)]; eexists _, _; (split; [reflexivity|]); try reflexivity.
      destruct Y as [->| ->]; reflexivity.
    + destruct M as [[<-|[<-|[]]]|(y & e & s & -> & _ & _ & Y)].
      * exists 121, []. auto.
      * exists 89, []. auto.
      * exists s, [y; e]. split; [reflexivity|]. destruct Y as [->| ->]; reflexivity.
Qed.

Lemma question_action a rp user a' rp' user' : question a rp user = question a' rp' user' -> a = a'.
Proof. destruct a, a'; intro H; auto; cbn in H; discriminate H. Qed.

Lemma split_at (c : N) (a b x y : bytes) : ~ In c a -> ~ In c b -> a ++ c :: x = b ++ c :: y -> a = b /\ x = y.
Proof.
  revert b. induction a as [|p a IH]; intros [|q b] A B H; cbn in H.
  - injection H as <-. auto.
  - injection H as <- _. destruct B. now left.
  - injection H as -> _. destruct A. now left.
  - injection H as <- H. destruct (IH b) as [-> ->]; auto; intro X; [apply A|apply B]; now right.
Qed.

(* Without quotes in the name of the relying party the question tells who asks. *)
Lemma login_unambiguous rp user rp' user' : ~ In 34 rp -> ~ In 34 rp' ->
  question ActGetAssertion rp user = question ActGetAssertion rp' user' -> rp = rp' /\ user = user'.
Proof.
  intros A B H. unfold question, quoted in H. apply app_inv_head in H. cbn [app] in H. injection H as H.
  rewrite <- !app_assoc in H. cbn [app] in H.
  apply split_at in H as [-> H]; auto. split; [reflexivity|].
  apply (app_inv_head (str " with identity ")) in H. cbn [app] in H. injection H as H.
  rewrite <- ?app_assoc in H. now apply app_inv_tail in H.
Qed.

Lemma creation_unambiguous rp user rp' user' :
  question ActMakeCredential rp user = question ActMakeCredential rp' user' -> rp = rp'.
Proof.
  intro H. unfold question, quoted in H. apply app_inv_head in H. cbn [app] in H. injection H as H.
  rewrite <- !app_assoc in H. now apply app_inv_tail in H.
Qed.

Lemma save_completes n data old : (length data < n)%nat -> on_disk (write_steps n data (SvBegin old)) = Some data.
Proof. intro H. rewrite save_file. destruct n as [|n]; [lia|]. now rewrite firstn_all2 by lia. Qed.

Lemma parse_octal s acc : Forall (fun b => 48 <= b <= 55) s ->
  parse_digits 8 s acc = Some (fold_left (fun a b => 8 * a + (b - 48)) s acc).
Proof.
  intro F. revert acc. induction F as [|b s D F IH]; intro acc; [reflexivity|]. cbn [parse_digits fold_left].
  unfold digit_of. replace ((48 <=? b) && (b <=? 57)) with true by lia. cbn [obind].
  replace (b - 48 <? 8) with true by lia. rewrite IH. f_equal. f_equal. lia.
Qed.

Lemma pin_command_octal E w ds text : Forall (fun b => 48 <= b <= 55) ds -> plain_number text ->
  value 8 ds = value 10 text -> pin_command E (48 :: ds) w = pin_command E text w.
Proof.
  intros F [Pd Ph] V. unfold pin_command. replace (parse_flag (48 :: ds)) with (parse_flag text); [reflexivity|].
  destruct text as [|b s]; [destruct Ph|]. inversion Pd as [|? ? Db _]; subst.
  assert (U : parse_uint (b :: s) = Some (value 10 (b :: s))).
  { replace (parse_uint (b :: s)) with (parse_digits 10 (b :: s) 0); [now apply parse_plain, plain_digits|].
    unfold parse_uint. destruct b as [|p]; [reflexivity|]. do 6 (destruct p as [p|p|]; try reflexivity). congruence. }
  assert (U8 : parse_uint (48 :: ds) = Some (value 8 ds)).
  { unfold parse_uint. destruct ds as [|x [|y t]]; [reflexivity|now apply parse_octal|].
    assert (Lx : lower x = x).
    { inversion F as [|? ? D _]; subst. unfold lower. replace ((65 <=? x) && (x <=? 90)) with false by lia. reflexivity. }
    inversion F as [|? ? D _]; subst. rewrite Lx. replace (x =? 98) with false by lia. replace (x =? 111) with false by lia.
    replace (x =? 120) with false by lia. now apply parse_octal. }
  transitivity (let! n := parse_uint (b :: s) in if n <? 9223372036854775808 then Some (Z.of_N n) else None).
  - unfold parse_flag. clear -Db. destruct b as [|p]; [reflexivity|].
    do 6 (destruct p as [p|p|]; try reflexivity; try lia).
  - rewrite U. cbn [parse_flag]. change (parse_flag (48 :: ds)) with (let! n := parse_uint (48 :: ds) in if n <? 9223372036854775808 then Some (Z.of_N n) else None).
    rewrite U8, V. reflexivity.
Qed.

Lemma pin_command_negative E w text : pin_command E (45 :: text) w = (w, Ok false).
Proof.
  unfold pin_command. cbn [parse_flag]. destruct (parse_uint text) as [n|]; cbn [obind]; [|reflexivity].
  destruct (n <=? 9223372036854775808); [|reflexivity]. destruct (Z.ltb_spec (- Z.of_N n) 0); [reflexivity|].
  assert (n = 0) as -> by lia. reflexivity.
Qed.
