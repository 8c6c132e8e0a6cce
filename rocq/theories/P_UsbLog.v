(* The log lines about USB/IP requests determine them. *)
From Verif Require Import Base M_Str M_Util M_Json M_Usb M_Usbip M_UsbLog S_UsbLog P_Usbip1.
From Coq Require Import Lia.
Open Scope N_scope.

Lemma cons_inj {A} (x y : A) l m : x :: l = y :: m -> x = y /\ l = m.
Proof. intro E. now injection E. Qed.

(* ---- numbers *)
Definition digit_val (c : N) : N := if c <? 58 then c - 48 else c - 87.
Definition number (base : N) (l : bytes) : N := fold_left (fun a c => a * base + digit_val c) l 0.

Lemma digit_back n : n < 16 -> digit_val (hex_digit n) = n.
Proof.
  intro H. unfold digit_val, hex_digit. destruct (N.ltb_spec n 10).
  - replace (48 + n <? 58) with true by lia. lia.
  - replace (87 + n <? 58) with false by lia. lia.
Qed.

Lemma digits_back base : 2 <= base -> base <= 16 -> forall f n, n < base ^ N.of_nat f -> number base (digits base f n) = n.
Proof.
  intros B1 B2. induction f as [|f IH]; intros n H; cbn [digits].
  - change (N.of_nat 0) with 0 in H. rewrite N.pow_0_r in H. cbn. lia.
  - destruct (N.ltb_spec n base) as [L|L].
    + unfold number. cbn [fold_left]. rewrite digit_back by lia. lia.
    + unfold number. rewrite fold_left_app. cbn [fold_left]. change (fold_left _ (digits base f (n / base)) 0) with (number base (digits base f (n / base))).
      rewrite Nat2N.inj_succ, N.pow_succ_r' in H.
      rewrite IH by (apply N.div_lt_upper_bound; lia). rewrite digit_back by (pose proof (N.mod_lt n base); lia).
      pose proof (N.div_mod n base). lia.
Qed.

Lemma d_inj n m : n < 4294967296 -> m < 4294967296 -> d_text n = d_text m -> n = m.
Proof.
  intros H1 H2 E. unfold d_text in E. rewrite <- (digits_back 10 ltac:(lia) ltac:(lia) 20 n), <- (digits_back 10 ltac:(lia) ltac:(lia) 20 m), E.
  - reflexivity.
  - eapply N.lt_trans; [exact H2|]. vm_compute. reflexivity.
  - eapply N.lt_trans; [exact H1|]. vm_compute. reflexivity.
Qed.

Lemma x_inj n m : n < 4294967296 -> m < 4294967296 -> x_text n = x_text m -> n = m.
Proof.
  intros H1 H2 E. unfold x_text in E. rewrite <- (digits_back 16 ltac:(lia) ltac:(lia) 16 n), <- (digits_back 16 ltac:(lia) ltac:(lia) 16 m), E.
  - reflexivity.
  - eapply N.lt_trans; [exact H2|]. vm_compute. reflexivity.
  - eapply N.lt_trans; [exact H1|]. vm_compute. reflexivity.
Qed.

(* ---- texts without the characters that separate *)
Definition stop (c : N) : bool := (c =? 44) || (c =? 32) || (c =? 125) || (c =? 45).
Definition plain (v : bytes) : Prop := forallb (fun c => negb (stop c)) v = true.
Definition stops (l : bytes) : Prop := match l with c :: _ => stop c = true | [] => False end.

Lemma plain_digit n : n < 16 -> negb (stop (hex_digit n)) = true.
Proof. intro H. unfold stop, hex_digit. destruct (N.ltb_spec n 10); lia. Qed.

Lemma plain_digits base : 2 <= base -> base <= 16 -> forall f n, plain (digits base f n).
Proof.
  intros B1 B2. unfold plain. induction f as [|f IH]; intro n; [reflexivity|]. cbn [digits]. destruct (N.ltb_spec n base).
  - cbn [forallb]. rewrite plain_digit by lia. reflexivity.
  - rewrite forallb_app, IH. cbn [forallb]. rewrite plain_digit; [reflexivity|]. pose proof (N.mod_lt n base). lia.
Qed.
Lemma plain_d n : plain (d_text n). Proof. apply plain_digits; lia. Qed.
Lemma plain_x n : plain (x_text n). Proof. apply plain_digits; lia. Qed.

Lemma plain_names (l : list (N * bytes)) : forallb (fun p => forallb (fun c => negb (stop c)) (snd p)) l = true -> forall n, plain (name_of n l).
Proof.
  intros H n. unfold name_of, lookup. destruct (find (fun p : N * bytes => fst p =? n) l) as [p|] eqn:F; [|reflexivity]. cbn [option_map].
  apply find_some in F as (I & _). rewrite forallb_forall in H. exact (H p I).
Qed.

Lemma cut : forall v v' r r', plain v -> plain v' -> stops r -> stops r' -> v ++ r = v' ++ r' -> v = v' /\ r = r'.
Proof.
  unfold plain. induction v as [|c v IH]; intros [|c' v'] r r' P P' S S' E; cbn [app forallb] in *.
  - now split.
  - subst r. cbn in S. apply andb_prop in P' as (P' & _). rewrite S in P'. discriminate.
  - subst r'. cbn in S'. apply andb_prop in P as (P & _). rewrite S' in P. discriminate.
  - injection E as -> E. apply andb_prop in P as (_ & P), P' as (_ & P'). destruct (IH v' r r') as (-> & ->); auto.
Qed.

Lemma filled_stops l t : Forall stops (map fst l) -> stops t -> stops (filled l t).
Proof.
  destruct l as [|(p, v) l]; [trivial|]. intros H _. apply Forall_inv in H. cbn in *. destruct p; [destruct H|exact H].
Qed.

Lemma filled_inj : forall l l' t t', map fst l = map fst l' -> Forall plain (map snd l) -> Forall plain (map snd l') ->
  Forall stops (tl (map fst l)) -> stops t -> stops t' -> filled l t = filled l' t' -> map snd l = map snd l' /\ t = t'.
Proof.
  induction l as [|(p, v) l IH]; intros [|(p', v') l'] t t' K P P' S T T' E; try discriminate; [now split|].
  cbn [map fst snd tl filled] in *. injection K as -> K. apply app_inv_head in E.
  inversion P as [|? ? P1 P2]. inversion P' as [|? ? P1' P2']. subst.
  assert (Forall stops (map fst l')) as S' by now rewrite <- K.
  apply cut in E as (-> & E); auto using filled_stops.
  destruct (IH l' t t') as (-> & ->); auto. destruct (map fst l); [exact S|now apply Forall_inv_tail in S].
Qed.

Lemma filled_app : forall l t x, filled l t ++ x = filled l (t ++ x).
Proof. induction l as [|(p, v) l IH]; intros t x; [reflexivity|]. cbn [filled]. now rewrite <- !app_assoc, IH. Qed.

(* ---- byte arrays *)
Lemma array_keys first a b : length a = length b -> map fst (array_fields first a) = map fst (array_fields first b).
Proof.
  destruct a as [|x a], b as [|y b]; intro L; try discriminate; [reflexivity|]. cbn [array_fields map fst]. f_equal. rewrite !map_map. cbn [fst].
  injection L as L. revert b L. induction a as [|z a IH]; intros [|w b] L; try discriminate; [reflexivity|]. cbn. f_equal. apply IH. now injection L.
Qed.
Lemma array_plain first a : Forall plain (map snd (array_fields first a)).
Proof.
  destruct a as [|x a]; [constructor|]. cbn [array_fields map snd]. constructor; [apply plain_x|]. rewrite map_map. cbn [snd].
  apply Forall_map. apply Forall_forall. intros y _. apply plain_x.
Qed.
Lemma array_stops first a : stops first -> Forall stops (map fst (array_fields first a)).
Proof.
  intro H. destruct a as [|x a]; [constructor|]. cbn [array_fields map fst]. constructor; [destruct first; [destruct H|exact H]|].
  rewrite map_map. cbn [fst]. apply Forall_map. apply Forall_forall. now intros y _.
Qed.
Lemma array_values first a b : wfb a -> wfb b -> map snd (array_fields first a) = map snd (array_fields first b) -> a = b.
Proof.
  assert (forall a b, wfb a -> wfb b -> map x_text a = map x_text b -> a = b) as G.
  { clear. induction a as [|x a IH]; intros [|y b] W V E; try discriminate; [reflexivity|]. cbn [map] in E. injection E as E1 E2.
    inversion W as [|? ? W1 W2]. inversion V as [|? ? V1 V2]. subst. unfold byte_ok in *. f_equal; [apply x_inj; [lia|lia|exact E1]|now apply IH]. }
  intros W V. assert (forall a, map snd (array_fields first a) = map x_text a) as F.
  { clear. intros [|x a]; [reflexivity|]. cbn [array_fields map snd]. f_equal. rewrite map_map. reflexivity. }
  rewrite !F. now apply G.
Qed.

Lemma slice_inj : forall a b, wfb a -> wfb b -> slice_text a = slice_text b -> a = b.
Proof.
  assert (forall a b t t', wfb a -> wfb b -> filled (map (fun y => (str ", 0x", x_text y)) a) (str "}" ++ t) =
    filled (map (fun y => (str ", 0x", x_text y)) b) (str "}" ++ t') -> a = b) as G.
  { induction a as [|x a IH]; intros [|y b] t t' W V E; try (cbn in E; discriminate); [reflexivity|].
    cbn [map filled] in E. apply app_inv_head in E. inversion W as [|? ? W1 W2]. inversion V as [|? ? V1 V2]. subst. unfold byte_ok in *.
    apply cut in E as (E1 & E2); try apply plain_x.
    - f_equal; [apply x_inj; [lia|lia|exact E1]|eapply IH; eauto].
    - apply filled_stops; [|reflexivity]. rewrite map_map. cbn [fst]. apply Forall_map, Forall_forall. now intros z _.
    - apply filled_stops; [|reflexivity]. rewrite map_map. cbn [fst]. apply Forall_map, Forall_forall. now intros z _. }
  intros a b W V E. destruct a as [|x a], b as [|y b]; [reflexivity|cbn in E; discriminate|cbn in E; discriminate|].
  unfold slice_text in E. cbn [array_fields filled] in E. apply app_inv_head in E. inversion W as [|? ? W1 W2]. inversion V as [|? ? V1 V2]. subst. unfold byte_ok in *.
  apply cut in E as (E1 & E2); try apply plain_x.
  - f_equal; [apply x_inj; [lia|lia|exact E1]|]. apply (G a b [] []); auto.
  - apply filled_stops; [|reflexivity]. rewrite map_map. cbn [fst]. apply Forall_map, Forall_forall. now intros z _.
  - apply filled_stops; [|reflexivity]. rewrite map_map. cbn [fst]. apply Forall_map, Forall_forall. now intros z _.
Qed.

(* ---- slices *)
Definition word (i : N) (b : bytes) : bytes := takeN 4 (dropN i b).

Lemma by_parts {A} n (a b : list A) : takeN n a = takeN n b -> dropN n a = dropN n b -> a = b.
Proof. intros T D. rewrite <- (takeN_dropN n a), <- (takeN_dropN n b), T, D. reflexivity. Qed.

Lemma word_len i b : i + 4 <= len b -> len (word i b) = 4.
Proof. intro H. unfold word. rewrite takeN_len, dropN_len. lia. Qed.
Lemma word_wfb i b : wfb b -> wfb (word i b).
Proof. intro H. unfold word. auto using wfb_takeN, wfb_dropN. Qed.

Lemma four (l : bytes) : len l = 4 -> exists a b c d, l = [a; b; c; d].
Proof.
  unfold len. intro H. assert (length l = 4%nat) as L by lia.
  destruct l as [|a [|b [|c [|d [|]]]]]; try discriminate. eauto.
Qed.

Lemma be4 a b c d : be_dec [a; b; c; d] = d + 256 * (c + 256 * (b + 256 * a)).
Proof. unfold be_dec. cbn [rev app le_dec]. lia. Qed.

Lemma word_bound i b : wfb b -> i + 4 <= len b -> be_dec (word i b) < 4294967296.
Proof.
  intros W L. pose proof (word_wfb i b W) as V. destruct (four _ (word_len i b L)) as (x & y & z & w & E). rewrite E in *. rewrite be4.
  inversion V as [|? ? V1 V2]. inversion V2 as [|? ? V3 V4]. inversion V4 as [|? ? V5 V6]. inversion V6. subst. unfold byte_ok in *. lia.
Qed.

Lemma be4_inj a b : wfb a -> wfb b -> len a = 4 -> len b = 4 -> be_dec a = be_dec b -> a = b.
Proof.
  intros W V La Lb E. rewrite <- (be_be_dec a W), <- (be_be_dec b V), E. f_equal. unfold len in *. lia.
Qed.

Lemma word_inj i a b : wfb a -> wfb b -> i + 4 <= len a -> i + 4 <= len b -> be_dec (word i a) = be_dec (word i b) -> word i a = word i b.
Proof. intros. apply be4_inj; auto using word_wfb, word_len. Qed.

Lemma words_then a b : word 0 a = word 0 b -> word 4 a = word 4 b -> word 8 a = word 8 b ->
  word 12 a = word 12 b -> word 16 a = word 16 b -> dropN 20 a = dropN 20 b -> a = b.
Proof.
  intros E0 E1 E2 E3 E4 E5. unfold word in *. rewrite !dropN_0 in E0.
  apply (by_parts 4); [exact E0|]. apply (by_parts 4); [exact E1|]. rewrite !dropN_dropN. apply (by_parts 4); [exact E2|].
  rewrite !dropN_dropN. apply (by_parts 4); [exact E3|]. rewrite !dropN_dropN. apply (by_parts 4); [exact E4|].
  rewrite !dropN_dropN. exact E5.
Qed.

Lemma words20 a b : len a = 20 -> len b = 20 -> word 0 a = word 0 b -> word 4 a = word 4 b -> word 8 a = word 8 b ->
  word 12 a = word 12 b -> word 16 a = word 16 b -> a = b.
Proof. intros. apply words_then; auto. rewrite !dropN_all by lia. reflexivity. Qed.

(* ---- headers *)
Lemma parse_words b : parse_header b = mk_header (be_dec (word 0 b)) (be_dec (word 4 b)) (be_dec (word 8 b)) (be_dec (word 12 b)) (be_dec (word 16 b)).
Proof. reflexivity. Qed.

Lemma header_fields h h' t t' : stops t -> stops t' -> header_text h ++ t = header_text h' ++ t' ->
  name_of (hd_command h) command_names = name_of (hd_command h') command_names /\
  d_text (hd_seq h) = d_text (hd_seq h') /\
  d_text (N.shiftr (hd_devid h) 16) = d_text (N.shiftr (hd_devid h') 16) /\
  d_text (N.land (hd_devid h) 255) = d_text (N.land (hd_devid h') 255) /\
  name_of (hd_dir h) direction_names = name_of (hd_dir h') direction_names /\
  d_text (hd_ep h) = d_text (hd_ep h') /\ t = t'.
Proof.
  intros T T' E. unfold header_text in E. rewrite !filled_app in E. apply filled_inj in E as (V & E).
  - cbn [map snd] in V. 
    apply cons_inj in V as (V1 & V). apply cons_inj in V as (V2 & V). apply cons_inj in V as (V3 & V).
    apply cons_inj in V as (V4 & V). apply cons_inj in V as (V5 & V). apply cons_inj in V as (V6 & _). apply app_inv_head in E. auto 8.
  - reflexivity.
  - cbn [map snd]. repeat constructor; try apply plain_d; now apply plain_names.
  - cbn [map snd]. repeat constructor; try apply plain_d; now apply plain_names.
  - cbn [map fst tl]. repeat constructor.
  - reflexivity.
  - reflexivity.
Qed.

Lemma literal_fields h h' : header_literal h = header_literal h' ->
  x_text (hd_command h) = x_text (hd_command h') /\ x_text (hd_seq h) = x_text (hd_seq h') /\
  x_text (hd_devid h) = x_text (hd_devid h') /\ x_text (hd_dir h) = x_text (hd_dir h') /\ x_text (hd_ep h) = x_text (hd_ep h').
Proof.
  intros E. unfold header_literal in E. apply filled_inj in E as (V & _).
  - cbn [map snd] in V. 
    apply cons_inj in V as (V1 & V). apply cons_inj in V as (V2 & V). apply cons_inj in V as (V3 & V).
    apply cons_inj in V as (V4 & V). apply cons_inj in V as (V5 & _). auto 8.
  - reflexivity.
  - cbn [map snd]. repeat constructor; apply plain_x.
  - cbn [map snd]. repeat constructor; apply plain_x.
  - cbn [map fst tl]. repeat constructor.
  - reflexivity.
  - reflexivity.
Qed.

Lemma devid_inj a b : wfb a -> wfb b -> len a = 4 -> len b = 4 -> nth 2 a 0 = 0 -> nth 2 b 0 = 0 ->
  d_text (N.shiftr (be_dec a) 16) = d_text (N.shiftr (be_dec b) 16) ->
  d_text (N.land (be_dec a) 255) = d_text (N.land (be_dec b) 255) -> a = b.
Proof.
  intros W V La Lb Za Zb E1 E2. destruct (four a La) as (a0 & a1 & a2 & a3 & ->). destruct (four b Lb) as (b0 & b1 & b2 & b3 & ->).
  cbn [nth] in Za, Zb. subst.
  inversion W as [|? ? W1 W2]. inversion W2 as [|? ? W3 W4]. inversion W4 as [|? ? W5 W6]. inversion W6 as [|? ? W7 W8].
  inversion V as [|? ? V1 V2]. inversion V2 as [|? ? V3 V4]. inversion V4 as [|? ? V5 V6]. inversion V6 as [|? ? V7 V8]. subst. unfold byte_ok in *.
  rewrite !be4 in *. rewrite !N.shiftr_div_pow2 in E1. change 255 with (N.ones 8) in E2. rewrite !N.land_ones in E2.
  change (2 ^ 16) with 65536 in *. change (2 ^ 8) with 256 in *.
  apply d_inj in E1; [|lia|lia]. apply d_inj in E2; [|lia|lia].
  assert (a3 = b3) by lia. assert (a1 = b1) by lia. assert (a0 = b0) by lia. now subst.
Qed.

Lemma same_header a b : wfb a -> wfb b -> len a = 20 -> len b = 20 -> nth 10 a 0 = 0 -> nth 10 b 0 = 0 ->
  word 0 a = word 0 b ->
  (word 12 a = [0; 0; 0; 0] \/ word 12 a = [0; 0; 0; 1]) -> (word 12 b = [0; 0; 0; 0] \/ word 12 b = [0; 0; 0; 1]) ->
  header_text (parse_header a) = header_text (parse_header b) -> a = b.
Proof.
  intros W V La Lb Za Zb C Da Db E. assert (header_text (parse_header a) ++ [32] = header_text (parse_header b) ++ [32]) as E' by now rewrite E.
  apply header_fields in E' as (_ & E2 & E3 & E4 & E5 & E6 & _); [|reflexivity|reflexivity]. rewrite !parse_words in *. cbn [hd_seq hd_devid hd_dir hd_ep] in *.
  assert (forall l : bytes, len l = 20 -> nth 2 (word 8 l) 0 = nth 10 l 0) as Nw.
  { clear. intros l L. unfold len in L. assert (length l = 20%nat) as H by lia. do 20 (destruct l as [|? l]; [discriminate|]). reflexivity. }
  apply words20; auto.
  - apply word_inj; auto; try lia. apply d_inj; auto; apply word_bound; auto; lia.
  - apply devid_inj; auto using word_wfb; try (apply word_len; lia); rewrite Nw; auto.
  - destruct Da as [Da|Da], Db as [Db|Db]; rewrite Da, Db in *; try reflexivity; vm_compute in E5; discriminate.
  - apply word_inj; auto; try lia. apply d_inj; auto; apply word_bound; auto; lia.
Qed.

Lemma same_literal a b : wfb a -> wfb b -> len a = 20 -> len b = 20 ->
  header_literal (parse_header a) = header_literal (parse_header b) -> a = b.
Proof.
  intros W V La Lb E. apply literal_fields in E as (E1 & E2 & E3 & E4 & E5). rewrite !parse_words in *.
  cbn [hd_command hd_seq hd_devid hd_dir hd_ep] in *.
  apply words20; auto; apply word_inj; auto; try lia; apply x_inj; auto; apply word_bound; auto; lia.
Qed.

(* ---- bodies *)
Lemma same_body a b : wfb a -> wfb b -> len a = 28 -> len b = 28 -> body_text a = body_text b -> a = b.
Proof.
  intros W V La Lb E. unfold body_text in E. apply filled_inj in E as (X & _).
  - rewrite !map_app in X. cbn [map snd app] in X. 
    apply cons_inj in X as (E0 & X). apply cons_inj in X as (E1 & X). apply cons_inj in X as (E2 & X).
    apply cons_inj in X as (E3 & X). apply cons_inj in X as (E4 & E5). apply array_values in E5; auto using wfb_takeN, wfb_dropN.
    apply words_then; try (apply word_inj; auto; try lia).
    + apply x_inj; auto; apply word_bound; auto; lia.
    + apply d_inj; auto; apply word_bound; auto; lia.
    + apply d_inj; auto; apply word_bound; auto; lia.
    + apply d_inj; auto; apply word_bound; auto; lia.
    + apply d_inj; auto; apply word_bound; auto; lia.
    + rewrite <- (takeN_all (dropN 20 a) 8), <- (takeN_all (dropN 20 b) 8); [exact E5| |]; rewrite dropN_len; lia.
  - rewrite !map_app. apply (f_equal2 (@app bytes)); [reflexivity|]. apply array_keys. apply Nat2N.inj. change (len (takeN 8 (dropN 20 a)) = len (takeN 8 (dropN 20 b))). rewrite !takeN_len, !dropN_len. lia.
  - rewrite map_app. apply Forall_app. split; [|apply array_plain]. cbn [map snd]. repeat constructor; try apply plain_d; apply plain_x.
  - rewrite map_app. apply Forall_app. split; [|apply array_plain]. cbn [map snd]. repeat constructor; try apply plain_d; apply plain_x.
  - rewrite map_app. cbn [map fst app tl]. repeat (constructor; [reflexivity|]). now apply array_stops.
  - reflexivity.
  - reflexivity.
Qed.

Lemma same_unlink a b : wfb a -> wfb b -> len a = 28 -> len b = 28 -> unlink_text a = unlink_text b -> a = b.
Proof.
  intros W V La Lb E. unfold unlink_text in E. apply filled_inj in E as (X & _).
  - rewrite !map_app in X. cbn [map snd app] in X. apply cons_inj in X as (E0 & E5). apply array_values in E5; auto using wfb_takeN, wfb_dropN.
    apply (by_parts 4).
    + pose proof (word_inj 0 a b W V) as Wi. pose proof (word_bound 0 a W) as Ba. pose proof (word_bound 0 b V) as Bb. unfold word in *. rewrite !dropN_0 in *.
      apply Wi; try lia. apply x_inj; auto; [apply Ba|apply Bb]; lia.
    + rewrite <- (takeN_all (dropN 4 a) 24), <- (takeN_all (dropN 4 b) 24); [exact E5| |]; rewrite dropN_len; lia.
  - rewrite !map_app. apply (f_equal2 (@app bytes)); [reflexivity|]. apply array_keys. apply Nat2N.inj. change (len (takeN 24 (dropN 4 a)) = len (takeN 24 (dropN 4 b))). rewrite !takeN_len, !dropN_len. lia.
  - rewrite map_app. apply Forall_app. split; [|apply array_plain]. cbn [map snd]. repeat constructor; apply plain_x.
  - rewrite map_app. apply Forall_app. split; [|apply array_plain]. cbn [map snd]. repeat constructor; apply plain_x.
  - rewrite map_app. cbn [map fst app tl]. now apply array_stops.
  - reflexivity.
  - reflexivity.
Qed.

(* ---- requests *)
Lemma command_is n b : wfb b -> 4 <= len b -> n < 256 -> (be_dec (word 0 b) = n <-> is_command n b).
Proof.
  intros W L Hn. unfold is_command. change (takeN 4 b) with (word 0 b). pose proof (word_wfb 0 b W) as V.
  destruct (four _ (word_len 0 b L)) as (x & y & z & w & E). rewrite E in *. rewrite be4.
  inversion V as [|? ? V1 V2]. inversion V2 as [|? ? V3 V4]. inversion V4 as [|? ? V5 V6]. inversion V6. subst. unfold byte_ok in *.
  split; [|intro H; injection H as -> -> -> ->; lia].
  intro H. assert (x = 0 /\ y = 0 /\ z = 0 /\ w = n) as (-> & -> & -> & ->) by lia. reflexivity.
Qed.

Definition after (b c : bytes) : list bytes :=
  let h := parse_header b in
  if hd_command h =? 1 then [str "[COMMAND SUBMIT] " ++ body_text c ++ nl2]
  else if hd_command h =? 2 then [str "[COMMAND UNLINK] " ++ unlink_text c ++ nl2]
  else [str "Unsupported Command: " ++ header_literal h ++ nl2].

Lemma lines_of s b r : concat s = b ++ r -> request b ->
  exists x y, b = x ++ y /\ wfb x /\ wfb y /\ len x = 20 /\
    command_lines s = (str "[MESSAGE HEADER] " ++ header_text (parse_header x) ++ nl2) :: after x y /\
    ((hd_command (parse_header x) = 1 \/ hd_command (parse_header x) = 2) /\ len y = 28 \/
     hd_command (parse_header x) <> 1 /\ hd_command (parse_header x) <> 2 /\ y = []).
Proof.
  intros C (W & R). assert (20 <= len b) as L by (destruct R as [(_ & ->)|(_ & ->)]; lia).
  exists (takeN 20 b), (dropN 20 b). assert (len (takeN 20 b) = 20) as Lx by (rewrite takeN_len; lia).
  pose proof (wfb_takeN 20 b W) as Wx.
  assert (forall n, n < 256 -> (hd_command (parse_header (takeN 20 b)) = n <-> is_command n b)) as K.
  { intros n Hn. rewrite parse_words. cbn [hd_command]. rewrite (command_is n (takeN 20 b) Wx ltac:(lia) Hn). unfold is_command. rewrite takeN_takeN. reflexivity. }
  split; [symmetry; apply takeN_dropN|]. split; [exact Wx|]. split; [now apply wfb_dropN|]. split; [exact Lx|].
  rewrite <- (takeN_dropN 20 b), <- app_assoc in C. destruct (read_full_exact s _ _ C) as (s1 & R1 & _ & C1). rewrite Lx in R1.
  unfold command_lines, after. rewrite R1.
  destruct R as [(R & Lb)|(R & Lb)].
  - assert (len (dropN 20 b) = 28) as Ly by (rewrite dropN_len; lia).
    destruct (read_full_exact s1 _ _ C1) as (s2 & R2 & _ & C2). rewrite Ly in R2. rewrite R2. split; [reflexivity|]. left. split; [|exact Ly].
    destruct R as [R|R]; [left|right]; apply K; auto; lia.
  - assert (hd_command (parse_header (takeN 20 b)) <> 1) as N1 by (intro H; apply R; left; apply K; auto; lia).
    assert (hd_command (parse_header (takeN 20 b)) <> 2) as N2 by (intro H; apply R; right; apply K; auto; lia).
    replace (hd_command (parse_header (takeN 20 b)) =? 1) with false by lia. replace (hd_command (parse_header (takeN 20 b)) =? 2) with false by lia.
    split; [reflexivity|]. right. split; [exact N1|]. split; [exact N2|]. apply dropN_all. lia.
Qed.

Lemma usual_head x y : len x = 20 -> usual (x ++ y) -> nth 10 x 0 = 0 /\ (word 12 x = [0; 0; 0; 0] \/ word 12 x = [0; 0; 0; 1]).
Proof.
  intros L (U1 & U2). unfold len in L. assert (length x = 20%nat) as H by lia. do 20 (destruct x as [|? x]; [discriminate|]). destruct x; [|discriminate].
  cbn [nth app] in U1. split; [exact U1|]. exact U2.
Qed.

Theorem request_told : forall s s' b b' r r', concat s = b ++ r -> concat s' = b' ++ r' -> request b -> request b' ->
  usual b -> usual b' -> command_lines s = command_lines s' -> b = b'.
Proof.
  intros s s' b b' r r' C C' R R' U U' E.
  destruct (lines_of s b r C R) as (x & y & -> & Wx & Wy & Lx & E0 & K). destruct (lines_of s' b' r' C' R') as (x' & y' & -> & Wx' & Wy' & Lx' & E' & K').
  rewrite E0, E' in E. clear E0 E' C C' R R'. apply cons_inj in E as (E1 & E2). apply (usual_head x y Lx) in U as (U1 & U2). apply (usual_head x' y' Lx') in U' as (U1' & U2').
  pose proof (fun w => same_header x x' Wx Wx' Lx Lx' U1 U1' w U2 U2') as S.
  apply app_inv_head in E1. apply app_inv_tail in E1. unfold after in E2.
  assert (forall z, nth 9 (str "[COMMAND SUBMIT] " ++ z) 0 = 83) as M1 by (intro; reflexivity).
  assert (forall z, nth 9 (str "[COMMAND UNLINK] " ++ z) 0 = 85) as M2 by (intro; reflexivity).
  assert (forall z, nth 9 (str "Unsupported Command: " ++ z) 0 = 101) as M3 by (intro; reflexivity).
  destruct (N.eqb_spec (hd_command (parse_header x)) 1) as [A|A]; [|destruct (N.eqb_spec (hd_command (parse_header x)) 2) as [B|B]];
  (destruct (N.eqb_spec (hd_command (parse_header x')) 1) as [A'|A']; [|destruct (N.eqb_spec (hd_command (parse_header x')) 2) as [B'|B']]);
  try (apply (f_equal (fun l => nth 9 (hd [] l) 0)) in E2; cbn [hd] in E2; rewrite ?M1, ?M2, ?M3 in E2; discriminate E2).
  - apply (f_equal (hd [])) in E2. cbn [hd] in E2. apply app_inv_head in E2. apply app_inv_tail in E2.
    destruct K as [(_ & K)|(K & _)]; [|congruence]. destruct K' as [(_ & K')|(K' & _)]; [|congruence].
    f_equal; [|now apply same_body]. apply S; [|exact E1]. apply word_inj; auto; try lia. rewrite parse_words in A, A'. cbn [hd_command] in A, A'. congruence.
  - apply (f_equal (hd [])) in E2. cbn [hd] in E2. apply app_inv_head in E2. apply app_inv_tail in E2.
    destruct K as [(_ & K)|(_ & K & _)]; [|congruence]. destruct K' as [(_ & K')|(_ & K' & _)]; [|congruence].
    f_equal; [|now apply same_unlink]. apply S; [|exact E1]. apply word_inj; auto; try lia. rewrite parse_words in B, B'. cbn [hd_command] in B, B'. congruence.
  - apply (f_equal (hd [])) in E2. cbn [hd] in E2. apply app_inv_head in E2. apply app_inv_tail in E2.
    destruct K as [([K|K] & _)|(_ & _ & ->)]; [congruence|congruence|]. destruct K' as [([K'|K'] & _)|(_ & _ & ->)]; [congruence|congruence|].
    f_equal. now apply same_literal.
Qed.

(* ---- replies *)
Theorem reply_told : forall h h' b b' r r', hd_seq h < 4294967296 -> hd_seq h' < 4294967296 -> wfb b -> wfb b' ->
  (forall x, r = Some x -> wfb x) -> (forall x, r' = Some x -> wfb x) ->
  return_lines h b r = return_lines h' b' r' -> return_submit h b r = return_submit h' b' r'.
Proof.
  intros h h' b b' r r' Q Q' W W' R R'. unfold return_lines, return_submit.
  set (tb := match r with Some _ => _ | None => _ end). set (tb' := match r' with Some _ => _ | None => _ end).
  assert (wfb tb) as Wt by (unfold tb; destruct r as [x|]; [apply wfb_app; auto using wfb_takeN, wfb_dropN|exact W]).
  assert (wfb tb') as Wt' by (unfold tb'; destruct r' as [x|]; [apply wfb_app; auto using wfb_takeN, wfb_dropN|exact W']).
  clearbody tb tb'. intro E. apply cons_inj in E as (E1 & E2). apply app_inv_head in E1.
  apply header_fields in E1 as (F1 & F2 & _ & _ & _ & _ & F3); [|reflexivity|reflexivity]. cbn [return_header hd_command hd_seq] in F1, F2.
  apply d_inj in F2; auto.
  apply filled_inj in F3 as (V & _); [|reflexivity|cbn [map snd]; repeat constructor; apply plain_x|cbn [map snd]; repeat constructor; apply plain_x|repeat constructor|reflexivity|reflexivity].
  cbn [map snd] in V. apply cons_inj in V as (_ & V). apply cons_inj in V as (V & _). apply x_inj in V; [|apply N.mod_lt; lia|apply N.mod_lt; lia].
  f_equal; [unfold reply_header; rewrite F2|f_equal; [now rewrite V|]].
  - do 2 f_equal. f_equal.
    assert (forall z : header, (if hd_command z =? 1 then 3 else if hd_command z =? 2 then 4 else 0) = 3 \/
      (if hd_command z =? 1 then 3 else if hd_command z =? 2 then 4 else 0) = 4 \/ (if hd_command z =? 1 then 3 else if hd_command z =? 2 then 4 else 0) = 0) as T
      by (intro z; destruct (hd_command z =? 1), (hd_command z =? 2); auto).
    destruct (T h) as [X|[X|X]], (T h') as [Y|[Y|Y]]; rewrite X, Y in F1 |- *; try reflexivity; vm_compute in F1; discriminate.
  - destruct (hd_dir h =? 1), (hd_dir h' =? 1); try discriminate; [|reflexivity].
    apply cons_inj in E2 as (E2 & _). apply app_inv_head, app_inv_tail in E2. now apply slice_inj.
Qed.

(* ---- setup packets *)
Definition up_to (n : nat) : list N := map N.of_nat (seq 0 n).
Lemma up_to_in n x : x < N.of_nat n -> In x (up_to n).
Proof. intro H. apply in_map_iff. exists (N.to_nat x). split; [lia|]. apply in_seq. lia. Qed.

Lemma told_apart (f : N -> bytes) k :
  forallb (fun n => forallb (fun m => (n =? m) || negb (bytes_eqb (f n) (f m))) (up_to k)) (up_to k) = true ->
  forall n m, n < N.of_nat k -> m < N.of_nat k -> f n = f m -> n = m.
Proof.
  intros H n m Hn Hm E. rewrite forallb_forall in H. specialize (H n (up_to_in _ _ Hn)). rewrite forallb_forall in H.
  specialize (H m (up_to_in _ _ Hm)). apply orb_prop in H as [H|H]; [now apply N.eqb_eq|].
  rewrite E, bytes_eqb_refl in H. discriminate.
Qed.

Lemma type_parts t : t < 256 -> N.clearbit t 6 = 128 * direction t + 16 * request_class t + recipient t /\ direction t < 2 /\ request_class t < 4.
Proof.
  intro H. assert (forallb (fun t => (N.clearbit t 6 =? 128 * direction t + 16 * request_class t + recipient t) && (direction t <? 2) && (request_class t <? 4)) (up_to 256) = true) as B
    by (vm_compute; reflexivity).
  rewrite forallb_forall in B. specialize (B t (up_to_in 256 t H)). lia.
Qed.

Definition req_text (device : bool) (n : N) : bytes :=
  match lookup n (if device then device_requests else interface_requests) with Some b => b | None => str "0x" ++ x_text n end.
Lemma req_inj device n m : n < 256 -> m < 256 -> req_text device n = req_text device m -> n = m.
Proof. apply (told_apart (req_text device) 256). destruct device; vm_compute; reflexivity. Qed.
Lemma req_plain device n : n < 256 -> plain (req_text device n).
Proof.
  intro H. assert (forallb (fun n => forallb (fun c => negb (stop c)) (req_text device n)) (up_to 256) = true) as B by (destruct device; vm_compute; reflexivity).
  rewrite forallb_forall in B. exact (B n (up_to_in 256 n H)).
Qed.

Lemma le2_inj a b : wfb a -> wfb b -> len a = 2 -> len b = 2 -> le_dec a = le_dec b -> a = b.
Proof.
  intros W V La Lb E. unfold len in *. destruct a as [|a0 [|a1 [|]]]; try (cbn in La; lia). destruct b as [|b0 [|b1 [|]]]; try (cbn in Lb; lia).
  inversion W as [|? ? W1 W2]. inversion W2. inversion V as [|? ? V1 V2]. inversion V2. subst. unfold byte_ok in *. cbn [le_dec] in E.
  assert (a0 = b0) by lia. assert (a1 = b1) by lia. now subst.
Qed.
Lemma le2_bound a : wfb a -> len a = 2 -> le_dec a < 4294967296.
Proof.
  intros W La. unfold len in *. destruct a as [|a0 [|a1 [|]]]; try (cbn in La; lia).
  inversion W as [|? ? W1 W2]. inversion W2. subst. unfold byte_ok in *. cbn [le_dec]. lia.
Qed.

Theorem setup_told : forall s s', wfb s -> wfb s' -> len s = 8 -> len s' = 8 ->
  recipient (nth 0 s 0) < 4 -> recipient (nth 0 s' 0) < 4 -> setup_text (read_setup s) = setup_text (read_setup s') ->
  N.clearbit (nth 0 s 0) 6 = N.clearbit (nth 0 s' 0) 6 /\ tl s = tl s'.
Proof.
  intros s s' W V L L' R R' E.
  assert (forall l, wfb l -> len l = 8 -> nth 0 l 0 < 256 /\ nth 1 l 0 < 256) as B.
  { clear. intros l W L. unfold len in L. do 2 (destruct l as [|? l]; [cbn in L; lia|]). inversion W as [|? ? W1 W2]. inversion W2. subst. now split. }
  destruct (B s W L) as (B0 & B1). destruct (B s' V L') as (B0' & B1').
  assert (forall x, setup_text x = filled [(str "USBSetupPacket{ Direction: ", name_of (direction (su_type x)) setup_directions);
          (str ", RequestType: ", name_of (request_class (su_type x)) class_names);
          (str ", Recipient: ", name_of (recipient (su_type x)) recipient_names);
          (str ", BRequest: ", req_text (recipient (su_type x) =? 0) (su_request x)); (str ", WValue: 0x", x_text (su_value x));
          (str ", WIndex: ", d_text (su_index x)); (str ", WLength: ", d_text (su_length x))] (str " }")) as Sx by reflexivity.
  rewrite !Sx in E. apply filled_inj in E as (X & _).
  - cbn [map snd read_setup su_type su_request su_value su_index su_length] in X. 
    apply cons_inj in X as (E1 & X). apply cons_inj in X as (E2 & X). apply cons_inj in X as (E3 & X). apply cons_inj in X as (E4 & X).
    apply cons_inj in X as (E5 & X). apply cons_inj in X as (E6 & X). apply cons_inj in X as (E7 & _).
    destruct (type_parts _ B0) as (T & D & C). destruct (type_parts _ B0') as (T' & D' & C').
    apply (told_apart (fun n => name_of n setup_directions) 2 eq_refl) in E1; auto.
    apply (told_apart (fun n => name_of n class_names) 4 eq_refl) in E2; auto.
    apply (told_apart (fun n => name_of n recipient_names) 4 eq_refl) in E3; auto.
    rewrite E3 in E4. apply req_inj in E4; auto. split; [rewrite T, T'; congruence|].
    assert (forall i (l : bytes), wfb l -> len l = 8 -> i + 2 <= 8 -> wfb (takeN 2 (dropN i l)) /\ len (takeN 2 (dropN i l)) = 2) as P.
    { clear. intros i l W L H. split; [auto using wfb_takeN, wfb_dropN|]. rewrite takeN_len, dropN_len. lia. }
    destruct (P 2 s W L ltac:(lia)) as (P1 & P2). destruct (P 4 s W L ltac:(lia)) as (P3 & P4). destruct (P 6 s W L ltac:(lia)) as (P5 & P6).
    destruct (P 2 s' V L' ltac:(lia)) as (Q1 & Q2). destruct (P 4 s' V L' ltac:(lia)) as (Q3 & Q4). destruct (P 6 s' V L' ltac:(lia)) as (Q5 & Q6).
    apply x_inj in E5; auto using le2_bound. apply d_inj in E6; auto using le2_bound. apply d_inj in E7; auto using le2_bound.
    apply le2_inj in E5; auto. apply le2_inj in E6; auto. apply le2_inj in E7; auto.
    unfold len in L, L'. assert (length s = 8%nat) as K by lia. assert (length s' = 8%nat) as K' by lia.
    do 8 (destruct s as [|? s]; [discriminate|]). destruct s; [|discriminate]. do 8 (destruct s' as [|? s']; [discriminate|]). destruct s'; [|discriminate].
    cbn in E4. vm_compute in E5, E6, E7. cbn [tl]. congruence.
  - reflexivity.
  - cbn [map snd read_setup su_request]. repeat constructor; try apply plain_d; try apply plain_x; try (now apply plain_names). now apply req_plain.
  - cbn [map snd read_setup su_request]. repeat constructor; try apply plain_d; try apply plain_x; try (now apply plain_names). now apply req_plain.
  - cbn [map fst tl]. repeat constructor.
  - reflexivity.
  - reflexivity.
Qed.
