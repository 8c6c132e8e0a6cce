(* Goroutines sharing the map of channels. *)
From Verif Require Import Base M_Util M_Hid M_Threads M_MapRace S_MapRace P_Hid2.
From Coq Require Import Lia.

(* ------------------------------------------------------------------ *)
(* What one message does                                               *)

Definition chan_of (m : bytes) : option N := match read_le 4 m with Ok (ch, _) => Some ch | Panic => None end.

Definition known (s : server) (ch : N) : Prop := chan_lookup ch (srv_channels s) <> None.

Lemma known_set s k v ch : known s ch -> known (srv_set s k v) ch.
Proof.
  unfold known. cbn [srv_set srv_channels]. intro H. destruct (N.eq_dec k ch) as [->|D].
  - now rewrite chan_lookup_set_eq.
  - now rewrite chan_lookup_set_neq.
Qed.

Lemma known_new s ch : known s ch -> known (fst (new_channel s)) ch.
Proof. intro H. apply (known_set s ((srv_max s + 1) mod 4294967296) None ch H). Qed.

Lemma front_missing s m ch r : read_le 4 m = Ok (ch, r) -> chan_lookup ch (srv_channels s) = None ->
  hid_front s m = FSend None s (hid_error ch err_invalid_channel).
Proof. intros R L. unfold hid_front. now rewrite R, L. Qed.

(* The channel that is locked is that of the message; channels stay; only the broadcast channel
   creates new ones. *)
Definition fine (s : server) (m : bytes) (f : front) : Prop :=
  match f with
  | FKeep s' => chan_of m <> None /\ srv_max s' = srv_max s
  | FSend None s' _ => s' = s
  | FSend (Some c) s' _ => chan_of m = Some c /\ (srv_max s' = srv_max s \/ c = hid_broadcast)
  | FCall c s' _ _ _ => chan_of m = Some c /\ srv_max s' = srv_max s
  | FPanic => True
  end /\ (forall ch, known s ch -> known (after s f) ch) /\ (srv_max s < 4294967296 -> srv_max (after s f) < 4294967296).

Lemma front_fine s m : fine s m (hid_front s m).
Proof.
  unfold hid_front, fine, chan_of. destruct (read_le 4 m) as [[ch r]|] eqn:R; [|cbn; auto].
  destruct (chan_lookup ch (srv_channels s)) as [cur|]; [|cbn; auto].
  assert (KS : forall v c, known s c -> known (srv_set s ch v) c) by (intros; now apply known_set).
  destruct (match cur with None => _ | Some t => _ end) as [t|]; [|cbn; auto].
  destruct (t_done t); [|cbn; repeat split; auto; discriminate].
  destruct (negb _); [cbn; auto|]. destruct (t_cancelled t); [cbn; repeat split; auto; discriminate|].
  destruct (t_result t) as [x|]; [|cbn; auto]. unfold front_finalized. destruct (ch =? hid_broadcast) eqn:B.
  - apply N.eqb_eq in B. unfold handle_broadcast. destruct (tr_cmd x =? cmd_init).
    + destruct (new_channel s) as [s' id] eqn:NC. destruct (_ <? 8); cbn [o_res o_srv o_packets]; [cbn; auto|].
      cbn [after]. split; [auto|]. split.
      * intros c Hc. apply known_set. pose proof (known_new s c Hc) as X. now rewrite NC in X.
      * intros _. unfold new_channel in NC. injection NC as <- <-. cbn [srv_set srv_max]. apply N.mod_lt. discriminate.
    + destruct (tr_cmd x =? cmd_ping); cbn [o_res o_srv o_packets]; cbn; auto.
  - destruct (_ =? cmd_msg); [cbn; auto|]. destruct (_ =? cmd_cbor); [cbn; auto|]. destruct (_ =? cmd_ping); cbn; auto.
Qed.

Lemma allocates_broadcast s m : allocates s m = true -> chan_of m = Some hid_broadcast /\ hid_front s m <> FPanic.
Proof.
  unfold allocates. intro A. apply Bool.negb_true_iff, N.eqb_neq in A. destruct (front_fine s m) as (F & _).
  destruct (hid_front s m) as [s'|[c|] s' ps|c s' a b d|]; cbn [after] in *.
  - destruct F as (_ & F). congruence.
  - destruct F as (F1 & [F2|F2]); [congruence|]. subst c. split; [assumption|discriminate].
  - congruence.
  - destruct F as (_ & F). congruence.
  - congruence.
Qed.

(* ------------------------------------------------------------------ *)
(* Lists of goroutines                                                 *)

Lemma set_gor_len l k pc : length (set_gor l k pc) = length l.
Proof. revert k. induction l as [|g l IH]; intros [|k]; cbn; auto. Qed.

Lemma set_gor_nth l k pc j : nth_error (set_gor l k pc) j =
  if (j =? k)%nat then option_map (fun g => mk_gor (g_msg g) pc) (nth_error l j) else nth_error l j.
Proof.
  revert k j. induction l as [|g l IH]; intros [|k] [|j]; cbn; auto.
  - now destruct (j =? k)%nat.
Qed.

Lemma set_gor_msg l k pc : map g_msg (set_gor l k pc) = map g_msg l.
Proof. revert k. induction l as [|g l IH]; intros [|k]; cbn; auto. f_equal. apply IH. Qed.

Lemma nodup_snoc {A} (l : list A) x : NoDup l -> ~ In x l -> NoDup (l ++ [x]).
Proof.
  intros N I. induction N as [|y l Y N IH]; cbn; [constructor; [easy|constructor]|]. constructor.
  - rewrite in_app_iff. intros [Z|[->|[]]]; [contradiction|]. apply I. now left.
  - apply IH. intro Z. apply I. now right.
Qed.

(* ------------------------------------------------------------------ *)
(* The invariant                                                       *)

Definition early (pc : mpc) : bool := match pc with PBusy _ | PDone => false | _ => true end.

Record good (s : mstate) : Prop := {
  go_max : srv_max (ms_srv s) < 4294967296;
  (* the effects so far are those of messages handled one after another *)
  go_nodup : NoDup (map fst (ms_log s));
  go_log : forall k, In k (map fst (ms_log s)) <-> exists g, nth_error (ms_gs s) k = Some g /\ early (g_pc g) = false;
  go_seq : one_by_one new_server (map (fun k => nth k (map g_msg (ms_gs s)) []) (map fst (ms_log s))) =
             (map snd (ms_log s), ms_srv s);
  (* channels *)
  go_known : known (ms_srv s) hid_broadcast;
  go_chan : forall k g ch, nth_error (ms_gs s) k = Some g ->
    g_pc g = PAtLock ch \/ g_pc g = PReady ch \/ g_pc g = PWriting ch \/ g_pc g = PBusy (Some ch) ->
    chan_of (g_msg g) = Some ch /\ known (ms_srv s) ch;
  go_read : forall k g, nth_error (ms_gs s) k = Some g -> g_pc g = PReading -> chan_of (g_msg g) <> None;
  go_ready : forall k g ch, nth_error (ms_gs s) k = Some g -> g_pc g = PReady ch \/ g_pc g = PWriting ch -> ch = hid_broadcast;
  go_lock : forall i j g h ch, nth_error (ms_gs s) i = Some g -> nth_error (ms_gs s) j = Some h ->
    has ch g = true -> has ch h = true -> i = j;
  go_writing : ms_writing s = true <-> exists k g ch, nth_error (ms_gs s) k = Some g /\ g_pc g = PWriting ch
}.

Lemma good_init : good ms_init.
Proof.
  constructor; cbn; auto; try reflexivity.
  - constructor.
  - intro k. split; [intros []|]. intros (g & H & _). destruct k; discriminate.
  - unfold known. cbn. discriminate.
  - intros [|k] ? ? H; discriminate.
  - intros [|k] ? H; discriminate.
  - intros [|k] ? ? H; discriminate.
  - intros [|i] j g h ch H; discriminate.
  - split; [discriminate|]. intros (k & g & ch & H & _). destruct k; discriminate.
Qed.

Lemma one_by_one_app s a b : one_by_one s (a ++ b) =
  let (f, s1) := one_by_one s a in let (g, s2) := one_by_one s1 b in (f ++ g, s2).
Proof.
  revert s. induction a as [|m a IH]; intro s; cbn [app one_by_one].
  - now destruct (one_by_one s b).
  - rewrite IH. destruct (one_by_one _ a) as [f s1]. destruct (one_by_one s1 b). reflexivity.
Qed.

(* Moving one goroutine without an effect. *)
Lemma goto_good s k m pc pc' w : good s -> nth_error (ms_gs s) k = Some (mk_gor m pc) ->
  early pc = early pc' ->
  (forall ch, pc' = PAtLock ch \/ pc' = PReady ch \/ pc' = PWriting ch \/ pc' = PBusy (Some ch) ->
     chan_of m = Some ch /\ known (ms_srv s) ch) ->
  (pc' = PReading -> chan_of m <> None) ->
  (forall ch, pc' = PReady ch \/ pc' = PWriting ch -> ch = hid_broadcast) ->
  (forall ch j g, has ch (mk_gor m pc') = true -> has ch (mk_gor m pc) = false -> nth_error (ms_gs s) j = Some g -> has ch g = false) ->
  (w = true <-> (exists ch, pc' = PWriting ch) \/ exists j g ch, j <> k /\ nth_error (ms_gs s) j = Some g /\ g_pc g = PWriting ch) ->
  good (mk_ms (ms_srv s) w (set_gor (ms_gs s) k pc') (ms_log s)).
Proof.
  intros G N Ea Ch Rd Re Lk Wr.
  assert (Nk : forall j g, nth_error (set_gor (ms_gs s) k pc') j = Some g ->
    (j = k /\ g = mk_gor m pc') \/ (j <> k /\ nth_error (ms_gs s) j = Some g)).
  { intros j g H. rewrite set_gor_nth in H. destruct (Nat.eqb_spec j k) as [->|D]; [|auto].
    rewrite N in H. injection H as <-. auto. }
  assert (Nk' : nth_error (set_gor (ms_gs s) k pc') k = Some (mk_gor m pc')).
  { rewrite set_gor_nth, Nat.eqb_refl, N. reflexivity. }
  assert (No : forall j g, j <> k -> nth_error (ms_gs s) j = Some g -> nth_error (set_gor (ms_gs s) k pc') j = Some g).
  { intros j g D H. rewrite set_gor_nth. apply Nat.eqb_neq in D. now rewrite D. }
  destruct G as [A B C D E F H I J K]. constructor; cbn [ms_srv ms_writing ms_gs ms_log]; auto.
  - intro j. rewrite C. split; intros (g & X & Y).
    + destruct (Nat.eq_dec j k) as [->|Q]; [|exists g; auto]. rewrite N in X. injection X as <-. exists (mk_gor m pc').
      cbn [g_pc] in *. split; [assumption|congruence].
    + destruct (Nk _ _ X) as [(-> & ->)|(Q & X')]; [|eauto]. exists (mk_gor m pc). cbn [g_pc] in *. split; [assumption|congruence].
  - rewrite set_gor_msg. exact D.
  - intros j g ch X Y. destruct (Nk _ _ X) as [(-> & ->)|(Q & X')]; [now apply Ch|eauto].
  - intros j g X Y. destruct (Nk _ _ X) as [(-> & ->)|(Q & X')]; [now apply Rd|eauto].
  - intros j g ch X Y. destruct (Nk _ _ X) as [(-> & ->)|(Q & X')]; [now apply Re|eauto].
  - intros i j g h ch X Y P Q. destruct (Nk _ _ X) as [(-> & ->)|(Qi & X')], (Nk _ _ Y) as [(-> & ->)|(Qj & Y')]; auto.
    + destruct (has ch (mk_gor m pc)) eqn:Z; [eapply (J k j); eauto|]. now rewrite (Lk ch j h P Z Y') in Q.
    + destruct (has ch (mk_gor m pc)) eqn:Z; [eapply (J i k); eauto|]. now rewrite (Lk ch i g Q Z X') in P.
    + eauto.
  - rewrite Wr. split.
    + intros [(ch & ->)|(j & g & ch & Q & X & Y)]; [exists k, (mk_gor m (PWriting ch)), ch; auto|exists j, g, ch; auto].
    + intros (j & g & ch & X & Y). destruct (Nk _ _ X) as [(-> & ->)|(Q & X')]; [left; eauto|right; exists j, g, ch; auto].
Qed.

(* A message takes effect. *)
Lemma commit_good s k m pc pc' w : good s -> nth_error (ms_gs s) k = Some (mk_gor m pc) -> early pc = true -> early pc' = false ->
  hid_front (ms_srv s) m <> FPanic ->
  (forall ch, pc' = PBusy (Some ch) -> chan_of m = Some ch /\ known (ms_srv s) ch /\
     (has ch (mk_gor m pc) = true \/ forall j g, nth_error (ms_gs s) j = Some g -> has ch g = false)) ->
  (w = true <-> exists j g ch, j <> k /\ nth_error (ms_gs s) j = Some g /\ g_pc g = PWriting ch) ->
  good (mk_ms (after (ms_srv s) (hid_front (ms_srv s) m)) w (set_gor (ms_gs s) k pc') (ms_log s ++ [(k, hid_front (ms_srv s) m)])).
Proof.
  intros G N Ea Eb NP Ch Wr. destruct (front_fine (ms_srv s) m) as (_ & FK & FM).
  assert (Nk : forall j g, nth_error (set_gor (ms_gs s) k pc') j = Some g ->
    (j = k /\ g = mk_gor m pc') \/ (j <> k /\ nth_error (ms_gs s) j = Some g)).
  { intros j g H. rewrite set_gor_nth in H. destruct (Nat.eqb_spec j k) as [->|D]; [|auto].
    rewrite N in H. injection H as <-. auto. }
  assert (Nk' : nth_error (set_gor (ms_gs s) k pc') k = Some (mk_gor m pc')).
  { rewrite set_gor_nth, Nat.eqb_refl, N. reflexivity. }
  assert (No : forall j g, j <> k -> nth_error (ms_gs s) j = Some g -> nth_error (set_gor (ms_gs s) k pc') j = Some g).
  { intros j g D H. rewrite set_gor_nth. apply Nat.eqb_neq in D. now rewrite D. }
  assert (Hb : forall ch, has ch (mk_gor m pc') = true -> pc' = PBusy (Some ch)).
  { intros ch. unfold has. cbn [g_pc]. destruct pc' as [| | | | |[c|]|]; try discriminate; intro X; apply N.eqb_eq in X; congruence. }
  assert (NI : ~ In k (map fst (ms_log s))).
  { rewrite (go_log _ G). intros (g & X & Y). rewrite N in X. injection X as <-. cbn in Y. congruence. }
  destruct G as [A B C D E F H I J K]. constructor; cbn [ms_srv ms_writing ms_gs ms_log]; auto.
  - rewrite map_app. cbn [map fst]. apply nodup_snoc; auto.
  - intro j. rewrite map_app, in_app_iff, C. cbn [map fst In]. split.
    + intros [(g & X & Y)|[<-|[]]]; [|eauto]. destruct (Nat.eq_dec j k) as [->|Q]; [|exists g; auto].
      rewrite N in X. injection X as <-. cbn in Y. congruence.
    + intros (g & X & Y). destruct (Nk _ _ X) as [(-> & ->)|(Q & X')]; [auto|left; eauto].
  - rewrite set_gor_msg, !map_app. cbn [map fst snd]. rewrite one_by_one_app, D. cbn [one_by_one].
    rewrite (nth_error_nth _ _ _ (map_nth_error g_msg _ _ N)). cbn [g_msg].
    reflexivity.
  - intros j g ch X Y. destruct (Nk _ _ X) as [(-> & ->)|(Q & X')].
    + cbn [g_pc g_msg] in *. destruct Y as [Y|[Y|[Y|Y]]]; try (subst pc'; discriminate Eb). destruct (Ch ch Y) as (Z1 & Z2 & _). auto.
    + destruct (F j g ch X' Y). auto.
  - intros j g X Y. destruct (Nk _ _ X) as [(-> & ->)|(Q & X')]; [cbn in Y; subst pc'; discriminate Eb|eauto].
  - intros j g ch X Y. destruct (Nk _ _ X) as [(-> & ->)|(Q & X')]; [cbn in Y; destruct Y; subst pc'; discriminate Eb|eauto].
  - intros i j g h ch X Y P Q. destruct (Nk _ _ X) as [(-> & ->)|(Qi & X')], (Nk _ _ Y) as [(-> & ->)|(Qj & Y')]; auto.
    + destruct (Ch ch (Hb ch P)) as (_ & _ & [Z|Z]); [eapply (J k j); eauto|]. now rewrite (Z j h Y') in Q.
    + destruct (Ch ch (Hb ch Q)) as (_ & _ & [Z|Z]); [eapply (J i k); eauto|]. now rewrite (Z i g X') in P.
    + eauto.
  - rewrite Wr. split.
    + intros (j & g & ch & Q & X & Y). exists j, g, ch; auto.
    + intros (j & g & ch & X & Y). destruct (Nk _ _ X) as [(-> & ->)|(Q & X')]; [cbn in Y; subst pc'; discriminate Eb|exists j, g, ch; auto].
Qed.

Lemma new_good s m : good s -> good (mk_ms (ms_srv s) (ms_writing s) (ms_gs s ++ [mk_gor m PStart]) (ms_log s)).
Proof.
  intro G.
  assert (Nk : forall j g, nth_error (ms_gs s ++ [mk_gor m PStart]) j = Some g ->
    g = mk_gor m PStart \/ nth_error (ms_gs s) j = Some g).
  { intros j g H. destruct (Nat.lt_ge_cases j (length (ms_gs s))) as [L|L].
    - rewrite nth_error_app1 in H by assumption. auto.
    - rewrite nth_error_app2 in H by assumption. left. destruct (j - length (ms_gs s))%nat as [|[|n]]; now inversion H. }
  assert (No : forall j g, nth_error (ms_gs s) j = Some g -> nth_error (ms_gs s ++ [mk_gor m PStart]) j = Some g).
  { intros j g H. rewrite nth_error_app1; [assumption|]. apply nth_error_Some. congruence. }
  destruct G as [A B C D E F H I J K]. constructor; cbn [ms_srv ms_writing ms_gs ms_log]; auto.
  - intro j. rewrite C. split; intros (g & X & Y); [eauto|]. destruct (Nk _ _ X) as [->|X']; [discriminate|eauto].
  - rewrite <- D, map_app. f_equal. apply map_ext_in. intros j Hj. apply C in Hj. destruct Hj as (g & X & _).
    rewrite app_nth1; [reflexivity|]. rewrite map_length. apply nth_error_Some. congruence.
  - intros j g ch X Y. destruct (Nk _ _ X) as [->|X']; [|eauto]. cbn in Y. destruct Y as [Y|[Y|[Y|Y]]]; discriminate.
  - intros j g X Y. destruct (Nk _ _ X) as [->|X']; [discriminate|eauto].
  - intros j g ch X Y. destruct (Nk _ _ X) as [->|X']; [|eauto]. cbn in Y. destruct Y; discriminate.
  - intros i j g h ch X Y P Q. destruct (Nk _ _ X) as [->|X']; [discriminate|]. destruct (Nk _ _ Y) as [->|Y']; [discriminate|eauto].
  - rewrite K. split; intros (j & g & ch & X & Y); [exists j, g, ch; auto|]. destruct (Nk _ _ X) as [->|X']; [discriminate|].
    exists j, g, ch; auto.
Qed.

Lemma nobody_has ch l : existsb (has ch) l = false -> forall j g, nth_error l j = Some g -> has ch g = false.
Proof.
  intros E j g H. apply nth_error_In in H. destruct (has ch g) eqn:X; [|reflexivity].
  assert (existsb (has ch) l = true) by (apply existsb_exists; eauto). congruence.
Qed.

Lemma chan_of_ok m ch r : read_le 4 m = Ok (ch, r) -> chan_of m = Some ch.
Proof. unfold chan_of. now intros ->. Qed.

(* What commit leaves. *)
Lemma committed s k m s' : commit s k m = MRun s' -> exists pc,
  hid_front (ms_srv s) m <> FPanic /\ early pc = false /\
  (forall ch, pc = PBusy (Some ch) -> chan_of m = Some ch) /\
  s' = mk_ms (after (ms_srv s) (hid_front (ms_srv s) m)) false (set_gor (ms_gs s) k pc) (ms_log s ++ [(k, hid_front (ms_srv s) m)]).
Proof.
  unfold commit. pose proof (front_fine (ms_srv s) m) as (F & _).
  destruct (hid_front (ms_srv s) m) as [t|lock t ps|c t a b d|]; intro H; [| | |discriminate]; injection H as <-; eexists.
  - split; [discriminate|]. split; [|split; [|reflexivity]]; [reflexivity|discriminate].
  - split; [discriminate|]. split; [|split; [|reflexivity]]; [reflexivity|].
    intros ch X. injection X as ->. apply F.
  - split; [discriminate|]. split; [|split; [|reflexivity]]; [reflexivity|].
    intros ch X. injection X as ->. apply F.
Qed.

Lemma step_good s l s' : good s -> ms_step s l = Some (MRun s') -> good s'.
Proof.
  intros G S. destruct l as [m|k|k|k|k|k|k]; cbn [ms_step] in S.
  - injection S as <-. now apply new_good.
  - destruct (nth_error (ms_gs s) k) as [[m []]|] eqn:N; try discriminate. destruct (read_le 4 m) as [[ch r]|] eqn:R; [|discriminate].
    destruct (ms_writing s) eqn:W; [discriminate|]. unfold goto in S. injection S as <-.
    apply (goto_good s k m PStart PReading); auto; try discriminate.
    + intros c [X|[X|[X|X]]]; discriminate.
    + intros _. rewrite (chan_of_ok _ _ _ R). discriminate.
    + intros c [X|X]; discriminate.
    + rewrite (go_writing _ G). split.
      * intros (j & g & c & X & Y). right. exists j, g, c. split; [|auto]. intros ->. rewrite N in X. injection X as <-. discriminate.
      * intros [(c & X)|(j & g & c & _ & X & Y)]; [discriminate|exists j, g, c; auto].
  - destruct (nth_error (ms_gs s) k) as [[m []]|] eqn:N; try discriminate. destruct (read_le 4 m) as [[ch r]|] eqn:R; [|discriminate].
    destruct (chan_lookup ch (srv_channels (ms_srv s))) as [cur|] eqn:L; injection S as <-.
    + apply (goto_good s k m PReading (PAtLock ch)); auto; try discriminate.
      * intros c [X|[X|[X|X]]]; try discriminate. injection X as ->. split; [eapply chan_of_ok; eauto|]. unfold known. congruence.
      * intros c [X|X]; discriminate.
      * rewrite (go_writing _ G). split.
        -- intros (j & g & c & X & Y). right. exists j, g, c. split; [|auto]. intros ->. rewrite N in X. injection X as <-. discriminate.
        -- intros [(c & X)|(j & g & c & _ & X & Y)]; [discriminate|exists j, g, c; auto].
    + pose proof (front_missing _ _ _ _ R L) as F.
      assert (Q := commit_good s k m PReading (PBusy None) (ms_writing s) G N eq_refl eq_refl). rewrite F in Q. cbn [after] in Q.
      rewrite F. apply Q; [discriminate|discriminate|].
      rewrite (go_writing _ G). split.
      * intros (j & g & c & X & Y). exists j, g, c. split; [|auto]. intros ->. rewrite N in X. injection X as <-. discriminate.
      * intros (j & g & c & _ & X & Y). exists j, g, c; auto.
  - destruct (nth_error (ms_gs s) k) as [[m [| |ch| | | |]]|] eqn:N; try discriminate. destruct (existsb (has ch) (ms_gs s)) eqn:B; [discriminate|].
    destruct (go_chan _ G k _ ch N (or_introl eq_refl)) as (Hc & Hk). cbn [g_msg] in Hc.
    assert (Wr : ms_writing s = true <-> exists j g c, j <> k /\ nth_error (ms_gs s) j = Some g /\ g_pc g = PWriting c).
    { rewrite (go_writing _ G). split.
      - intros (j & g & c & X & Y). exists j, g, c. split; [|auto]. intros ->. rewrite N in X. injection X as <-. discriminate.
      - intros (j & g & c & _ & X & Y). exists j, g, c; auto. }
    destruct (allocates (ms_srv s) m) eqn:A.
    + injection S as <-. destruct (allocates_broadcast _ _ A) as (Hb & _).
      apply (goto_good s k m (PAtLock ch) (PReady ch)); auto; try discriminate.
      * intros c [X|[X|[X|X]]]; try discriminate. injection X as ->. auto.
      * intros c [X|X]; try discriminate. injection X as ->. congruence.
      * intros c j g X Y Z. unfold has in X. cbn [g_pc] in X. apply N.eqb_eq in X. subst c. eapply nobody_has; eauto.
      * rewrite Wr. split; [auto|]. intros [(c & X)|X]; [discriminate|assumption].
    + destruct (commit s k m) as [s1| |] eqn:CO; try discriminate. injection S as <-.
      apply committed in CO. destruct CO as (pc & NP & Ea & Pc & ->). cbn [ms_srv ms_gs ms_log].
      apply (commit_good s k m (PAtLock ch)); auto. intros c ->. specialize (Pc c eq_refl). rewrite Hc in Pc. injection Pc as <-.
      split; [assumption|]. split; [assumption|]. right. now apply nobody_has.
  - destruct (nth_error (ms_gs s) k) as [[m [| | |ch| | |]]|] eqn:N; try discriminate. destruct (ms_writing s) eqn:W; [discriminate|]. injection S as <-.
    destruct (go_chan _ G k _ ch N (or_intror (or_introl eq_refl))) as (Hc & Hk). cbn [g_msg] in Hc.
    assert (ch = hid_broadcast) as Hb by (apply (go_ready _ G k _ ch N); auto).
    apply (goto_good s k m (PReady ch) (PWriting ch)); auto; try discriminate.
    + intros c [X|[X|[X|X]]]; try discriminate. injection X as ->. auto.
    + intros c [X|X]; try discriminate. injection X as ->. auto.
    + intros c j g X Y Z. unfold has in X, Y. cbn [g_pc] in X, Y. congruence.
    + split; [|auto]. intros _. left. eauto.
  - destruct (nth_error (ms_gs s) k) as [[m [| | | |ch| |]]|] eqn:N; try discriminate. injection S as S.
    destruct (go_chan _ G k _ ch N (or_intror (or_intror (or_introl eq_refl)))) as (Hc & Hk). cbn [g_msg] in Hc.
    assert (ch = hid_broadcast) as Hb by (apply (go_ready _ G k _ ch N); auto).
    apply committed in S. destruct S as (pc & NP & Ea & Pc & ->).
    apply (commit_good s k m (PWriting ch)); auto.
    + intros c ->. specialize (Pc c eq_refl). rewrite Hc in Pc. injection Pc as <-.
      split; [assumption|]. split; [assumption|]. left. unfold has. cbn [g_pc]. apply N.eqb_refl.
    + split; [discriminate|]. intros (j & g & c & D & X & Y).
      assert (c = hid_broadcast) by (apply (go_ready _ G j _ c X); auto). subst c ch.
      exfalso. apply D. apply (go_lock _ G j k g (mk_gor m (PWriting hid_broadcast)) hid_broadcast X N); unfold has; [rewrite Y|cbn [g_pc]]; apply N.eqb_refl.
  - destruct (nth_error (ms_gs s) k) as [[m [| | | | |lock|]]|] eqn:N; try discriminate. injection S as <-.
    apply (goto_good s k m (PBusy lock) PDone); auto; try discriminate.
    + intros c [X|[X|[X|X]]]; discriminate.
    + intros c [X|X]; discriminate.
    + rewrite (go_writing _ G). split.
      * intros (j & g & c & X & Y). right. exists j, g, c. split; [|auto]. intros ->. rewrite N in X. injection X as <-. discriminate.
      * intros [(c & X)|(j & g & c & _ & X & Y)]; [discriminate|exists j, g, c; auto].
Qed.

Lemma run_good ls : forall s s', good s -> ms_run s ls = Some (MRun s') -> good s'.
Proof.
  induction ls as [|l ls IH]; intros s s' G R; cbn [ms_run] in R; [now injection R as <-|].
  destruct (ms_step s l) as [[s1| |]|] eqn:S; try discriminate; [|destruct ls; discriminate|destruct ls; discriminate].
  apply (IH s1); [eapply step_good; eauto|assumption].
Qed.

Lemma one_writer s i j c d : good s -> pc_of s i = Some (PWriting c) -> pc_of s j = Some (PWriting d) \/ pc_of s j = Some (PReady d) -> i = j.
Proof.
  unfold pc_of. intros G X Y. destruct (nth_error (ms_gs s) i) as [g|] eqn:Ni; [|discriminate].
  destruct (nth_error (ms_gs s) j) as [h|] eqn:Nj; [|destruct Y; discriminate]. cbn [option_map] in X, Y.
  assert (Xg : g_pc g = PWriting c) by congruence. assert (Yh : g_pc h = PWriting d \/ g_pc h = PReady d) by (destruct Y; [left|right]; congruence).
  assert (c = hid_broadcast) by (apply (go_ready _ G i g c Ni); auto). assert (d = hid_broadcast) by (apply (go_ready _ G j h d Nj); tauto). subst c d.
  apply (go_lock _ G i j g h hid_broadcast Ni Nj); unfold has; [rewrite Xg|destruct Yh as [-> | ->]]; apply N.eqb_refl.
Qed.

Lemma write_safe s k : good s -> ms_step s (MWriteB k) <> Some MFatal.
Proof.
  intros G H. cbn [ms_step] in H. destruct (nth_error (ms_gs s) k) as [[m [| | |ch| | |]]|] eqn:N; try discriminate.
  destruct (ms_writing s) eqn:W; [|discriminate]. apply (go_writing _ G) in W. destruct W as (j & g & c & X & Y).
  assert (j = k).
  { apply (one_writer s j k c ch G); unfold pc_of; rewrite ?X, ?N; cbn; [congruence|auto]. }
  subst j. rewrite N in X. injection X as <-. discriminate.
Qed.

(* ------------------------------------------------------------------ *)
(* Patient hosts                                                       *)

Lemma broadcast_chan m : broadcast m <-> chan_of m = Some hid_broadcast.
Proof.
  unfold broadcast, chan_of. destruct (read_le 4 m) as [[ch r]|]; split.
  - intros (q & H). congruence.
  - intro H. exists r. congruence.
  - intros (q & H). discriminate.
  - discriminate.
Qed.

Definition calm (s : mstate) : Prop := forall b, (exists g, nth_error (ms_gs s) b = Some g /\ broadcast (g_msg g)) -> ~ over s b ->
  forall j, j <> b -> looked_up s j.

(* What a step leaves alone. *)
Definition onward (p q : option mpc) : Prop :=
  (p <> Some PStart /\ p <> Some PReading -> q <> Some PStart /\ q <> Some PReading) /\ (p = Some PDone -> q = Some PDone).

Lemma set_onward s k m pc pc' srv w lg : nth_error (ms_gs s) k = Some (mk_gor m pc) ->
  onward (Some pc) (Some pc') -> calm s -> calm (mk_ms srv w (set_gor (ms_gs s) k pc') lg).
Proof.
  intros N (O1 & O2) C b (g & X & Y) Z j J. unfold calm, over, looked_up, pc_of in *. cbn [ms_gs] in *. rewrite set_gor_nth in *.
  assert (Hb : exists g, nth_error (ms_gs s) b = Some g /\ broadcast (g_msg g)).
  { destruct (Nat.eqb_spec b k) as [->|D]; [|eauto]. rewrite N in X. cbn in X. injection X as <-. eauto. }
  assert (Zb : option_map g_pc (nth_error (ms_gs s) b) <> Some PDone).
  { intro E. apply Z. destruct (Nat.eqb_spec b k) as [->|D]; [|assumption]. rewrite N in *. cbn in *. auto. }
  specialize (C b Hb Zb j J). destruct (Nat.eqb_spec j k) as [->|D]; [|assumption]. rewrite N in *. cbn in *. auto.
Qed.

Lemma step_calm s l s' : calm s -> patient_in s l -> ms_step s l = Some (MRun s') -> calm s'.
Proof.
  intros C P S. destruct l as [m|k|k|k|k|k|k]; cbn [ms_step] in S.
  - injection S as <-. destruct P as (P1 & P2). intros b (g & X & Y) Z j J. unfold over, looked_up, pc_of in *. cbn [ms_gs] in *.
    destruct (Nat.lt_ge_cases b (length (ms_gs s))) as [L|L].
    + rewrite nth_error_app1 in X, Z by assumption. exfalso. apply Z. eapply P1; eauto.
    + rewrite nth_error_app2 in X by assumption. destruct (b - length (ms_gs s))%nat as [|n] eqn:B; [|destruct n; discriminate].
      injection X as <-. cbn [g_msg] in Y. destruct (Nat.lt_ge_cases j (length (ms_gs s))) as [Lj|Lj].
      * rewrite nth_error_app1 by assumption. now apply (P2 Y j).
      * rewrite nth_error_app2 by assumption. destruct (j - length (ms_gs s))%nat as [|n] eqn:Bj; [lia|]. destruct n; cbn; split; discriminate.
  - destruct (nth_error (ms_gs s) k) as [[m []]|] eqn:N; try discriminate. destruct (read_le 4 m) as [[ch r]|] eqn:R; [|discriminate].
    destruct (ms_writing s); [discriminate|]. injection S as <-. apply (set_onward s k m PStart); auto. split; [intros (X & _); now elim X|discriminate].
  - destruct (nth_error (ms_gs s) k) as [[m []]|] eqn:N; try discriminate. destruct (read_le 4 m) as [[ch r]|] eqn:R; [|discriminate].
    destruct (chan_lookup _ _); injection S as <-; apply (set_onward s k m PReading); auto; (split; [intros (_ & X); now elim X|discriminate]).
  - destruct (nth_error (ms_gs s) k) as [[m [| |ch| | | |]]|] eqn:N; try discriminate. destruct (existsb _ _); [discriminate|].
    destruct (allocates _ _).
    + injection S as <-. apply (set_onward s k m (PAtLock ch)); auto. split; [split; discriminate|discriminate].
    + destruct (commit s k m) as [s1| |] eqn:CO; try discriminate. injection S as <-.
      apply committed in CO. destruct CO as (pc & _ & Ea & _ & ->). apply (set_onward s k m (PAtLock ch)); auto.
      split; [|discriminate]. intros _. split; intro X; injection X as ->; discriminate Ea.
  - destruct (nth_error (ms_gs s) k) as [[m [| | |ch| | |]]|] eqn:N; try discriminate. destruct (ms_writing s); [discriminate|]. injection S as <-.
    apply (set_onward s k m (PReady ch)); auto. split; [split; discriminate|discriminate].
  - destruct (nth_error (ms_gs s) k) as [[m [| | | |ch| |]]|] eqn:N; try discriminate. injection S as S.
    apply committed in S. destruct S as (pc & _ & Ea & _ & ->). apply (set_onward s k m (PWriting ch)); auto.
    split; [|discriminate]. intros _. split; intro X; injection X as ->; discriminate Ea.
  - destruct (nth_error (ms_gs s) k) as [[m [| | | | |lock|]]|] eqn:N; try discriminate. injection S as <-.
    apply (set_onward s k m (PBusy lock)); auto. split; [split; discriminate|auto].
Qed.

Lemma writer_alone s i j c : good s -> calm s -> pc_of s i = Some (PWriting c) -> i <> j -> looked_up s j.
Proof.
  intros G C X D. apply (C i); [| |congruence].
  - unfold pc_of in X. destruct (nth_error (ms_gs s) i) as [g|] eqn:N; [|discriminate]. exists g. split; [reflexivity|].
    cbn [option_map] in X. assert (Xg : g_pc g = PWriting c) by congruence.
    destruct (go_chan _ G i g c N) as (H & _); [auto|]. assert (c = hid_broadcast) by (apply (go_ready _ G i g c N); auto).
    subst c. now apply broadcast_chan.
  - unfold over. congruence.
Qed.

Lemma look_safe s k : good s -> calm s -> ms_step s (MLookB k) <> Some MFatal.
Proof.
  intros G C H. cbn [ms_step] in H. destruct (nth_error (ms_gs s) k) as [[m []]|] eqn:N; try discriminate.
  destruct (read_le 4 m) as [[ch r]|]; [|discriminate].
  destruct (ms_writing s) eqn:W; [|discriminate]. apply (go_writing _ G) in W. destruct W as (j & g & c & X & Y).
  assert (pc_of s j = Some (PWriting c)) by (unfold pc_of; rewrite X; cbn; congruence).
  assert (j <> k) by (intros ->; rewrite N in X; injection X as <-; discriminate).
  destruct (writer_alone s j k c G C) as (Z & _); auto. apply Z. unfold pc_of. now rewrite N.
Qed.

Lemma calm_undisturbed s : good s -> calm s -> undisturbed (MRun s).
Proof.
  intros G C i j (c & X) [Y|(d & Y)].
  - destruct (Nat.eq_dec i j) as [->|D]; [reflexivity|]. destruct (writer_alone s i j c G C X D) as (_ & Z). now elim Z.
  - apply (one_writer s i j c d G X). auto.
Qed.

Lemma fatal_label s l : ms_step s l = Some MFatal -> exists k, l = MLookB k \/ l = MWriteB k.
Proof.
  destruct l as [m|k|k|k|k|k|k]; cbn [ms_step]; intro H; eauto; exfalso.
  - discriminate.
  - destruct (nth_error (ms_gs s) k) as [[m []]|]; try discriminate. destruct (read_le 4 m) as [[ch r]|]; [|discriminate].
    destruct (chan_lookup _ _); discriminate.
  - destruct (nth_error (ms_gs s) k) as [[m [| |ch| | | |]]|]; try discriminate. destruct (existsb _ _); [discriminate|].
    destruct (allocates _ _); [discriminate|]. unfold commit in H. destruct (hid_front _ _); discriminate.
  - destruct (nth_error (ms_gs s) k) as [[m [| | | |ch| |]]|]; try discriminate. unfold commit in H. destruct (hid_front _ _); discriminate.
  - destruct (nth_error (ms_gs s) k) as [[m [| | | | |lock|]]|]; discriminate.
Qed.

Lemma patient_undisturbed ls : forall s r, good s -> calm s -> patient s ls -> ms_run s ls = Some r -> undisturbed r.
Proof.
  induction ls as [|l ls IH]; intros s r G C P R; cbn [ms_run patient] in *.
  - injection R as <-. now apply calm_undisturbed.
  - destruct P as (P1 & P2). destruct (ms_step s l) as [[s1| |]|] eqn:S; [| | |discriminate].
    + apply (IH s1); auto; [eapply step_good; eauto|eapply step_calm; eauto].
    + exfalso. destruct (fatal_label _ _ S) as (k & [-> | ->]); [now apply (look_safe s k)|now apply (write_safe s k)].
    + destruct ls; [|discriminate]. injection R as <-. exact Logic.I.
Qed.

Lemma calm_init : calm ms_init.
Proof. intros b (g & X & _). destruct b; discriminate. Qed.

(* ------------------------------------------------------------------ *)
(* The race                                                            *)

Lemma init_read nonce : length nonce = 8%nat -> read_le 4 (an_init nonce) = Ok (hid_broadcast, [0x86; 0; 8] ++ nonce).
Proof.
  intro L. do 8 (destruct nonce as [|? nonce]; [discriminate L|]). destruct nonce; [|discriminate L]. vm_compute. reflexivity.
Qed.

Lemma init_txn nonce : length nonce = 8%nat ->
  new_transaction (an_init nonce) = Ok (mk_txn true false 0 (Some (mk_tresult hid_broadcast cmd_init 8 0 nonce []))).
Proof.
  intro L. do 8 (destruct nonce as [|? nonce]; [discriminate L|]). destruct nonce; [|discriminate L]. vm_compute. reflexivity.
Qed.

Lemma init_front s nonce : length nonce = 8%nat -> chan_lookup hid_broadcast (srv_channels s) = Some None ->
  exists ps, hid_front s (an_init nonce) = FSend (Some hid_broadcast) (srv_set (fst (new_channel s)) hid_broadcast None) ps.
Proof.
  intros L C. unfold hid_front. rewrite (init_read nonce L), C, (init_txn nonce L).
  cbn [t_done t_error t_cancelled t_result]. change (negb (0 =? 0)) with false. cbn iota.
  unfold front_finalized, handle_broadcast. rewrite N.eqb_refl. cbn [tr_cmd tr_payload tr_spare].
  change (cmd_init =? cmd_init) with true. cbn iota. unfold new_channel. cbn [fst].
  rewrite app_nil_r. assert (H : len nonce <? 8 = false) by (apply N.ltb_ge; unfold len; rewrite L; discriminate).
  rewrite H. cbn [o_res o_srv o_packets]. eexists. reflexivity.
Qed.

Lemma init_allocates s nonce : srv_max s < 4294967296 -> length nonce = 8%nat -> chan_lookup hid_broadcast (srv_channels s) = Some None ->
  allocates s (an_init nonce) = true.
Proof.
  intros B L C. destruct (init_front s nonce L C) as (ps & F). unfold allocates. rewrite F. cbn [after srv_set new_channel fst srv_max].
  apply Bool.negb_true_iff, N.eqb_neq. intro E. destruct (N.eq_dec (srv_max s + 1) 4294967296) as [Q|Q].
  - rewrite Q, N.mod_same in E by discriminate. rewrite <- E in Q. discriminate.
  - rewrite N.mod_small in E by lia. lia.
Qed.

Lemma set_gor_last l g pc : set_gor (l ++ [g]) (length l) pc = l ++ [mk_gor (g_msg g) pc].
Proof. induction l as [|x l IH]; cbn; [reflexivity|]. now rewrite IH. Qed.

Lemma set_gor_mid l g r pc : set_gor (l ++ g :: r) (length l) pc = l ++ mk_gor (g_msg g) pc :: r.
Proof. induction l as [|x l IH]; cbn; [reflexivity|]. now rewrite IH. Qed.

Lemma nth_mid {A} (l : list A) x r : nth_error (l ++ x :: r) (length l) = Some x.
Proof. rewrite nth_error_app2, Nat.sub_diag by reflexivity. reflexivity. Qed.

Lemma nth_mid2 {A} (l : list A) x y r : nth_error (l ++ x :: y :: r) (S (length l)) = Some y.
Proof. rewrite nth_error_app2 by lia. replace (S (length l) - length l)%nat with 1%nat by lia. reflexivity. Qed.

Definition race_labels (n : nat) (nonce m : bytes) : list mlabel :=
  [MNew (an_init nonce); MNew m; MLookB n; MLookE n; MLock n; MWriteB n; MLookB (S n)].

Lemma race s nonce m : good s -> quiet s -> length nonce = 8%nat -> 4 <= len m ->
  ms_run s (race_labels (length (ms_gs s)) nonce m) = Some MFatal.
Proof.
  intros G (Q & C) L Lm. destruct s as [srv w gs lg]. cbn [ms_gs ms_srv] in *.
  assert (PD : forall g, In g gs -> g_pc g = PDone).
  { intros g I. apply In_nth_error in I. destruct I as (k & N). assert (B : (k < length gs)%nat) by (apply nth_error_Some; congruence).
    specialize (Q k B). unfold over, pc_of in Q. cbn [ms_gs] in Q. rewrite N in Q. cbn in Q. congruence. }
  assert (W : w = false).
  { destruct w; [|reflexivity]. destruct (proj1 (go_writing _ G) eq_refl) as (k & g & c & X & Y). cbn [ms_gs] in X.
    apply nth_error_In, PD in X. congruence. }
  assert (NH : forall x y, existsb (has hid_broadcast) (gs ++ [mk_gor x (PAtLock hid_broadcast); mk_gor y PStart]) = false).
  { intros x y. rewrite existsb_app. cbn [existsb]. change (has hid_broadcast (mk_gor x (PAtLock hid_broadcast))) with false.
    change (has hid_broadcast (mk_gor y PStart)) with false. cbn [orb]. rewrite Bool.orb_false_r.
    clear -PD. induction gs as [|g gs IH]; [reflexivity|]. cbn [existsb]. rewrite IH by (intros; apply PD; now right).
    unfold has. now rewrite (PD g (or_introl eq_refl)). }
  subst w. unfold race_labels. cbn [ms_run ms_step ms_gs ms_srv ms_writing ms_log]. rewrite <- app_assoc. cbn [app].
  rewrite nth_mid, (init_read nonce L). cbn [goto ms_gs ms_srv ms_writing ms_log]. rewrite set_gor_mid. cbn [g_msg].
  rewrite nth_mid, (init_read nonce L), C. cbn [goto ms_gs ms_srv ms_writing ms_log]. rewrite set_gor_mid. cbn [g_msg].
  rewrite nth_mid, NH. cbn [ms_gs ms_srv ms_writing ms_log].
  rewrite (init_allocates srv nonce (go_max _ G) L C). cbn [goto ms_gs ms_srv ms_writing ms_log]. rewrite set_gor_mid. cbn [g_msg].
  rewrite nth_mid. cbn [ms_gs ms_srv ms_writing ms_log]. rewrite set_gor_mid. cbn [g_msg].
  rewrite nth_mid2.
  rewrite (read_le4_ok m Lm). reflexivity.
Qed.

(* ------------------------------------------------------------------ *)
(* The order of effects                                                *)

Lemma step_log s l s' : ms_step s l = Some (MRun s') -> (exists x, ms_log s' = ms_log s ++ x) /\ (exists y, map g_msg (ms_gs s') = map g_msg (ms_gs s) ++ y).
Proof.
  assert (Z : forall A (l : list A), exists x, l = l ++ x) by (intros; exists []; now rewrite app_nil_r).
  intro S. destruct l as [m|k|k|k|k|k|k]; cbn [ms_step] in S.
  - injection S as <-. cbn [ms_log ms_gs]. split; [apply Z|]. rewrite map_app. eauto.
  - destruct (nth_error (ms_gs s) k) as [[m []]|] eqn:N; try discriminate. destruct (read_le 4 m) as [[ch r]|] eqn:R; [|discriminate].
    destruct (ms_writing s); [discriminate|]. injection S as <-. cbn [ms_log ms_gs]. rewrite set_gor_msg. auto.
  - destruct (nth_error (ms_gs s) k) as [[m []]|] eqn:N; try discriminate. destruct (read_le 4 m) as [[ch r]|] eqn:R; [|discriminate].
    destruct (chan_lookup _ _); injection S as <-; cbn [ms_log ms_gs]; rewrite set_gor_msg; eauto.
  - destruct (nth_error (ms_gs s) k) as [[m [| |ch| | | |]]|] eqn:N; try discriminate. destruct (existsb _ _); [discriminate|].
    destruct (allocates _ _).
    + injection S as <-. cbn [ms_log ms_gs]. rewrite set_gor_msg. auto.
    + destruct (commit s k m) as [s1| |] eqn:CO; try discriminate. injection S as <-.
      apply committed in CO. destruct CO as (pc & _ & Ea & _ & ->). cbn [ms_log ms_gs]. rewrite set_gor_msg. eauto.
  - destruct (nth_error (ms_gs s) k) as [[m [| | |ch| | |]]|] eqn:N; try discriminate. destruct (ms_writing s); [discriminate|]. injection S as <-.
    cbn [ms_log ms_gs]. rewrite set_gor_msg. auto.
  - destruct (nth_error (ms_gs s) k) as [[m [| | | |ch| |]]|] eqn:N; try discriminate. injection S as S.
    apply committed in S. destruct S as (pc & _ & Ea & _ & ->). cbn [ms_log ms_gs]. rewrite set_gor_msg. eauto.
  - destruct (nth_error (ms_gs s) k) as [[m [| | | | |lock|]]|] eqn:N; try discriminate. injection S as <-. cbn [ms_log ms_gs]. rewrite set_gor_msg. auto.
Qed.

Lemma run_log ls : forall s s', ms_run s ls = Some (MRun s') ->
  (exists x, ms_log s' = ms_log s ++ x) /\ (exists y, map g_msg (ms_gs s') = map g_msg (ms_gs s) ++ y).
Proof.
  induction ls as [|l ls IH]; intros s s' R; cbn [ms_run] in R.
  - injection R as <-. split; exists []; now rewrite app_nil_r.
  - destruct (ms_step s l) as [[s1| |]|] eqn:S; try discriminate; [|destruct ls; discriminate|destruct ls; discriminate].
    apply step_log in S. destruct S as ((x & X) & (y & Y)), (IH _ _ R) as ((x' & X') & (y' & Y')).
    rewrite X', X, Y', Y, <- !app_assoc. eauto.
Qed.

Lemma log_member s k : good s -> In k (map fst (ms_log s)) <->
  exists pc, pc_of s k = Some pc /\ early pc = false.
Proof.
  intro G. rewrite (go_log _ G). unfold pc_of. split.
  - intros (g & N & E). rewrite N. exists (g_pc g). auto.
  - intros (pc & X & E). destruct (nth_error (ms_gs s) k) as [g|]; [|discriminate]. exists g. split; [reflexivity|].
    cbn in X. injection X as ->. assumption.
Qed.

Lemma dead_step s l : good s -> ms_step s l = Some MDead -> exists k m, nth_error (map g_msg (ms_gs s)) k = Some m /\
  ~ In k (map fst (ms_log s)) /\ hid_front (ms_srv s) m = FPanic.
Proof.
  intros G S.
  assert (NL : forall k m pc, nth_error (ms_gs s) k = Some (mk_gor m pc) -> early pc = true -> hid_front (ms_srv s) m = FPanic ->
    exists k m, nth_error (map g_msg (ms_gs s)) k = Some m /\ ~ In k (map fst (ms_log s)) /\ hid_front (ms_srv s) m = FPanic).
  { intros k m pc N E F. exists k, m. split; [exact (map_nth_error g_msg _ _ N)|]. split; [|assumption].
    rewrite (go_log _ G). intros (g & X & Y). rewrite N in X. injection X as <-. cbn in Y. congruence. }
  assert (CD : forall k m, commit s k m = MDead -> hid_front (ms_srv s) m = FPanic).
  { intros k m. unfold commit. destruct (hid_front (ms_srv s) m); try discriminate. reflexivity. }
  destruct l as [m|k|k|k|k|k|k]; cbn [ms_step] in S.
  - discriminate.
  - destruct (nth_error (ms_gs s) k) as [[m []]|] eqn:N; try discriminate. destruct (read_le 4 m) as [[ch r]|] eqn:R.
    + destruct (ms_writing s); discriminate.
    + apply (NL k m PStart N eq_refl). unfold hid_front. now rewrite R.
  - destruct (nth_error (ms_gs s) k) as [[m []]|] eqn:N; try discriminate. destruct (read_le 4 m) as [[ch r]|] eqn:R; [|discriminate].
    destruct (chan_lookup _ _); discriminate.
  - destruct (nth_error (ms_gs s) k) as [[m [| |ch| | | |]]|] eqn:N; try discriminate. destruct (existsb _ _); [discriminate|].
    destruct (allocates _ _); [discriminate|]. destruct (commit s k m) as [s1| |] eqn:CO; try discriminate.
    apply (NL k m _ N eq_refl). eapply CD; eauto.
  - destruct (nth_error (ms_gs s) k) as [[m [| | |ch| | |]]|] eqn:N; try discriminate. destruct (ms_writing s); discriminate.
  - destruct (nth_error (ms_gs s) k) as [[m [| | | |ch| |]]|] eqn:N; try discriminate. injection S as S.
    apply (NL k m _ N eq_refl). eapply CD; eauto.
  - destruct (nth_error (ms_gs s) k) as [[m [| | | | |lock|]]|] eqn:N; discriminate.
Qed.

Lemma run_dead ls : forall s, good s -> ms_run s ls = Some MDead -> exists a l s', ls = a ++ [l] /\ ms_run s a = Some (MRun s') /\ ms_step s' l = Some MDead.
Proof.
  induction ls as [|l ls IH]; intros s G R; cbn [ms_run] in R; [discriminate|].
  destruct (ms_step s l) as [[s1| |]|] eqn:S; try discriminate.
  - destruct (IH s1 (step_good _ _ _ G S) R) as (a & l' & s' & -> & X & Y). exists (l :: a), l', s'. cbn [ms_run app]. rewrite S. auto.
  - destruct ls; discriminate.
  - destruct ls; [|discriminate]. exists [], l, s. auto.
Qed.

