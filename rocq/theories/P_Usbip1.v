(* Streams, parsing and the connection phases (C22, C24, C26, C27). *)
From Verif Require Import Base M_Util M_Usb M_ReqBuf M_Usbip S_Usbip P_Usb.

(* -------------------------------------------------- streams and cuts *)
Lemma boundaries_shift a b cs : boundaries (a + b) cs = map (fun x => a + x) (boundaries b cs).
Proof.
  revert b. induction cs as [|c cs IH]; intro b; cbn; auto.
  rewrite <- IH. f_equal; [lia|]. f_equal. lia.
Qed.

Lemma boundaries_ge off cs : Forall (fun b => off <= b) (boundaries off cs).
Proof.
  revert off. induction cs as [|c cs IH]; intro off; cbn; constructor; [lia|].
  eapply Forall_impl; [|apply IH]. cbn. intros. lia.
Qed.

Lemma uncut_cons c cs i n : uncut (c :: cs) i n <->
  (len c <= i \/ i + n <= len c) /\
  Forall (fun b => len c + b <= i \/ i + n <= len c + b) (boundaries 0 cs).
Proof.
  unfold uncut. cbn [boundaries]. rewrite N.add_0_l. rewrite Forall_cons_iff.
  replace (len c) with (len c + 0) at 3 by lia. rewrite boundaries_shift, Forall_map. reflexivity.
Qed.

(* dropping n bytes from the front *)
Definition shifted (n : N) (cs cs' : list bytes) : Prop :=
  concat cs' = dropN n (concat cs) /\
  forall i k, n <= i -> uncut cs i k -> uncut cs' (i - n) k.

Lemma shifted_drop n c cs : n < len c -> shifted n (c :: cs) (dropN n c :: cs).
Proof.
  intro L. split.
  - cbn [concat]. unfold dropN. rewrite skipn_app.
    replace (N.to_nat n - length c)%nat with 0%nat by (unfold len in L; lia). reflexivity.
  - intros i k Hi U. rewrite uncut_cons in *. destruct U as [U1 U2].
    assert (len (dropN n c) = len c - n) as -> by (unfold dropN, len in *; rewrite skipn_length; lia).
    split; [lia|]. eapply Forall_impl; [|exact U2]. cbn. intros. lia.
Qed.

Lemma shifted_whole c cs cs' n : shifted n cs cs' -> shifted (len c + n) (c :: cs) cs'.
Proof.
  intros [C U]. split.
  - rewrite C. cbn [concat]. unfold dropN, len. rewrite skipn_app.
    replace (skipn (N.to_nat (N.of_nat (length c) + n)) c) with (@nil N)
      by (symmetry; apply skipn_all2; lia).
    cbn [app]. f_equal. lia.
  - intros i k Hi H. rewrite uncut_cons in H. destruct H as [H1 H2].
    replace (i - (len c + n)) with ((i - len c) - n) by lia. apply U; [lia|].
    unfold uncut. eapply Forall_impl; [|exact H2]. cbn. intros. lia.
Qed.

Lemma shifted_refl cs : shifted 0 cs cs.
Proof.
  split; [reflexivity|]. intros i k _ H. now rewrite N.sub_0_r.
Qed.

Lemma shifted_trans a b c1 c2 c3 : shifted a c1 c2 -> shifted b c2 c3 -> shifted (a + b) c1 c3.
Proof.
  intros [C1 U1] [C2 U2]. split.
  - rewrite C2, C1. rewrite dropN_dropN. reflexivity.
  - intros i k Hi H. replace (i - (a + b)) with (i - a - b) by lia. apply U2; [lia|]. apply U1; auto; lia.
Qed.

Lemma read_full_spec cs : forall n, n <= len (concat cs) ->
  exists cs', read_full n cs = Some (takeN n (concat cs), cs') /\ shifted n cs cs'.
Proof.
  induction cs as [|c cs IH]; intros n L.
  - unfold len in L; cbn in L. assert (n = 0) by lia. subst. exists []. split; [reflexivity|apply shifted_refl].
  - cbn [read_full]. destruct (N.eqb_spec n 0) as [->|Hn].
    + exists (c :: cs). split; [reflexivity|apply shifted_refl].
    + destruct (N.ltb_spec n (len c)).
      * exists (dropN n c :: cs). split; [|apply shifted_drop; auto].
        f_equal. f_equal. cbn [concat]. unfold takeN. rewrite firstn_app.
        replace (N.to_nat n - length c)%nat with 0%nat by (unfold len in *; lia).
        now rewrite firstn_O, app_nil_r.
      * cbn [concat] in L. rewrite len_app in L.
        destruct (IH (n - len c)) as (cs' & R & S); [lia|]. exists cs'.
        rewrite R. cbn [obind]. split.
        -- f_equal. f_equal. cbn [concat]. rewrite takeN_app. rewrite (takeN_all c) by lia. reflexivity.
        -- apply shifted_whole with (c := c) in S.
           replace (len c + (n - len c)) with n in S by lia. exact S.
Qed.

Lemma read_full_short cs : forall n, len (concat cs) < n -> read_full n cs = None.
Proof.
  induction cs as [|c cs IH]; intros n L; cbn [read_full].
  - unfold len in L; cbn in L. replace (n =? 0) with false by lia. reflexivity.
  - cbn [concat] in L. rewrite len_app in L. replace (n =? 0) with false by lia.
    replace (n <? len c) with false by lia. rewrite IH by lia. reflexivity.
Qed.

Lemma read_once_spec cs : forall n, 0 < n -> n <= len (concat cs) -> uncut cs 0 n ->
  exists cs', read_once n cs = Some (takeN n (concat cs), cs') /\ shifted n cs cs'.
Proof.
  induction cs as [|c cs IH]; intros n P L U; [unfold len in L; cbn in L; lia|].
  apply uncut_cons in U as [U1 U2]. destruct c as [|x c].
  - cbn [read_once]. destruct (IH n P) as (cs' & R & S).
    + exact L.
    + change (len (@nil N)) with 0 in U2. unfold uncut. eapply Forall_impl; [|exact U2].
      cbn beta. intros; lia.
    + exists cs'. split; [exact R|].
      apply shifted_whole with (c := []) in S. exact S.
  - cbn [read_once]. eexists. split.
    + f_equal. f_equal. cbn [concat]. unfold takeN. rewrite firstn_app.
      replace (N.to_nat n - length (x :: c))%nat with 0%nat by (unfold len in *; cbn in U1 |- *; lia).
      now rewrite firstn_O, app_nil_r.
    + destruct (N.leb_spec (len (x :: c)) n).
      * replace n with (len (x :: c) + 0) by (unfold len in *; cbn in U1, H |- *; lia).
        apply shifted_whole, shifted_refl.
      * apply shifted_drop. lia.
Qed.

(* -------------------------------------------------- parsing what was encoded *)
Lemma be_len n v : length (be n v) = n.
Proof. apply be_length. Qed.

Lemma take_be n v rest : takeN (N.of_nat n) (be n v ++ rest) = be n v.
Proof. apply takeN_exact. unfold len. now rewrite be_len. Qed.

Lemma drop_be n v rest : dropN (N.of_nat n) (be n v ++ rest) = rest.
Proof. apply dropN_exact. unfold len. now rewrite be_len. Qed.

Lemma field4 v rest : v < 4294967296 -> be_dec (takeN 4 (be 4 v ++ rest)) = v.
Proof. intro H. rewrite (take_be 4). apply be_dec_be_small. exact H. Qed.

Lemma parse_header_ok c q d r e : c < 4294967296 -> q < 4294967296 -> d < 4294967296 ->
  r < 4294967296 -> e < 4294967296 ->
  parse_header (be 4 c ++ be 4 q ++ be 4 d ++ be 4 r ++ be 4 e) = mk_header c q d r e.
Proof.
  intros. unfold parse_header.
  change 8 with (4 + 4). change 12 with (4 + (4 + 4)). change 16 with (4 + (4 + (4 + 4))).
  rewrite <- !dropN_dropN. rewrite !(drop_be 4). unfold dropN at 1. cbn [N.to_nat skipn].
  f_equal; try (now apply field4); rewrite <- (app_nil_r (be 4 e)); now apply field4.
Qed.

Lemma parse_body_ok f n s p i setup : n < 4294967296 -> len setup = 8 ->
  parse_body (be 4 f ++ be 4 n ++ be 4 s ++ be 4 p ++ be 4 i ++ setup) = mk_body n setup.
Proof.
  intros Hn Hs. unfold parse_body.
  change 20 with (4 + (4 + (4 + (4 + 4)))). rewrite <- !dropN_dropN, !(drop_be 4).
  rewrite field4 by assumption. f_equal. apply takeN_all. lia.
Qed.

Lemma pad_exact d n : length d = n -> pad d n = d.
Proof.
  intros <-. unfold pad. rewrite firstn_app, Nat.sub_diag, firstn_all, firstn_O. apply app_nil_r.
Qed.

(* -------------------------------------------------- what the messages mean *)
Definition msg_header (m : message) : header :=
  match m with
  | MSubmit seq devid dir ep _ _ _ _ _ _ _ => mk_header 1 seq devid dir ep
  | MUnlink seq devid dir ep _ _ => mk_header 2 seq devid dir ep
  | _ => mk_header 0 0 0 0 0
  end.

Definition spec_phase_action (devices : list device) (p : phase) (m : message)
    : option (phase * action) :=
  match p, m with
  | Control, MDevlist _ _ => Some (Control, AWrite [])
  | Control, MImport _ _ field =>
    match cstring field with
    | Panic => Some (Closed, ANone)
    | Ok name =>
      match get_device devices name 0 with
      | None => Some (Control, AWrite (op_rep_import_error 1))
      | Some (i, d) => Some (Commands i, AWrite (op_rep_import d))
      end
    end
  | Commands d, MSubmit _ _ _ _ _ _ _ _ n setup dt =>
    Some (Commands d, ASubmit d (msg_header m) setup
            (if hd_dir (msg_header m) =? 0 then dt else zeros (N.to_nat n)))
  | Commands d, MUnlink _ _ _ _ target _ => Some (Commands d, AUnlink d (msg_header m) target)
  | _, _ => None
  end.

Fixpoint spec_actions (devices : list device) (p : phase) (ms : list message)
    : option (phase * list action) :=
  match ms with
  | [] => Some (p, [])
  | m :: r =>
    let! (p1, a) := spec_phase_action devices p m in
    let! (p2, l) := spec_actions devices p1 r in Some (p2, a :: l)
  end.

Lemma len_be n v : len (be n v) = N.of_nat n.
Proof. unfold len. now rewrite be_len. Qed.

Lemma read_full_exact cs a b : concat cs = a ++ b ->
  exists cs', read_full (len a) cs = Some (a, cs') /\ shifted (len a) cs cs' /\ concat cs' = b.
Proof.
  intro C. destruct (read_full_spec cs (len a)) as (cs' & R & S).
  { rewrite C, len_app. lia. }
  exists cs'. rewrite C, takeN_exact in R by reflexivity. split; auto. split; auto.
  destruct S as [S _]. rewrite S, C. now rewrite dropN_exact.
Qed.

Lemma read_once_exact cs a b : 0 < len a -> concat cs = a ++ b -> uncut cs 0 (len a) ->
  exists cs', read_once (len a) cs = Some (a, cs') /\ shifted (len a) cs cs' /\ concat cs' = b.
Proof.
  intros P C U. destruct (read_once_spec cs (len a) P) as (cs' & R & S); auto.
  { rewrite C, len_app. lia. }
  exists cs'. rewrite C, takeN_exact in R by reflexivity. split; auto. split; auto.
  destruct S as [S _]. rewrite S, C. now rewrite dropN_exact.
Qed.

Lemma conn_step_message devices p m cs rest p' a :
  spec_phase_action devices p m = Some (p', a) -> p' <> Closed -> well_formed m ->
  concat cs = message_bytes m ++ rest -> uncut cs (len (head m)) (len (data m)) ->
  exists cs', conn_step devices (mk_conn p cs) = (mk_conn p' cs', a) /\
    shifted (len (message_bytes m)) cs cs' /\ concat cs' = rest.
Proof.
  intros SA NC W C U. destruct p as [|d|]; [| |now destruct m].
  - destruct m as [v s|v s field| |]; try discriminate; cbn [spec_phase_action] in SA.
    + injection SA as <- <-. destruct W as [W1 W2]. unfold message_bytes in *. cbn [head data] in *.
      rewrite app_nil_r in *. destruct (read_full_exact cs _ _ C) as (cs' & R & S & E).
      exists cs'. split; auto. unfold conn_step. cbn [cn_phase cn_stream].
      change (len (be 2 v ++ be 2 0x8005 ++ be 4 s)) with 8 in R. rewrite R.
      rewrite (drop_be 2), (take_be 2). reflexivity.
    + destruct W as (W1 & W2 & W3). unfold message_bytes in *. cbn [head data] in *.
      rewrite <- app_assoc in C. destruct (read_full_exact cs _ _ C) as (cs1 & R & S & E).
      change (len (be 2 v ++ be 2 0x8003 ++ be 4 s)) with 8 in *.
      unfold conn_step. cbn [cn_phase cn_stream]. rewrite R.
      rewrite (drop_be 2), (take_be 2).
      replace (be_dec (be 2 0x8003) =? 0x8005) with false by reflexivity.
      replace (be_dec (be 2 0x8003) =? 0x8003) with true by reflexivity.
      destruct (read_once_exact cs1 field rest) as (cs2 & R2 & S2 & E2); auto; [lia| |].
      { destruct S as [_ S]. specialize (S 8 (len field) ltac:(lia) U). exact S. }
      unfold util_read. rewrite W3 in R2. rewrite R2. cbn [obind].
      rewrite pad_exact by (unfold len in W3; lia).
      destruct (cstring field) as [name|]; [|injection SA as <- <-; contradiction].
      assert (shifted (len ((be 2 v ++ be 2 0x8003 ++ be 4 s) ++ field)) cs cs2) as S3.
      { rewrite len_app. exact (shifted_trans _ _ _ _ _ S S2). }
      destruct (get_device devices name 0) as [[i dv]|]; injection SA as <- <-; exists cs2; auto.
  - destruct m as [| |seq devid dir ep flags start packets interval n setup dt|
                   seq devid dir ep target padding]; try discriminate; cbn [spec_phase_action] in SA.
    + destruct W as (W1 & W2 & W3 & W4 & W5 & W6 & W7). injection SA as <- <-.
      unfold message_bytes in *. cbn [data msg_header hd_dir] in *.
      assert (head (MSubmit seq devid dir ep flags start packets interval n setup dt) =
        (be 4 1 ++ be 4 seq ++ be 4 devid ++ be 4 dir ++ be 4 ep) ++
        (be 4 flags ++ be 4 n ++ be 4 start ++ be 4 packets ++ be 4 interval ++ setup)) as Hh
        by (cbn [head]; now rewrite <- !app_assoc).
      rewrite Hh in *. clear Hh.
      set (h1 := be 4 1 ++ be 4 seq ++ be 4 devid ++ be 4 dir ++ be 4 ep) in *.
      set (h2 := be 4 flags ++ be 4 n ++ be 4 start ++ be 4 packets ++ be 4 interval ++ setup) in *.
      assert (len h1 = 20) as L1 by reflexivity.
      assert (len h2 = 28) as L2 by (unfold h2; rewrite !len_app, !len_be, W6; reflexivity).
      rewrite <- !app_assoc in C.
      destruct (read_full_exact cs _ _ C) as (cs1 & R1 & S1 & E1).
      destruct (read_full_exact cs1 _ _ E1) as (cs2 & R2 & S2 & E2).
      rewrite L1 in R1, S1. rewrite L2 in R2, S2.
      unfold conn_step. cbn [cn_phase cn_stream]. rewrite R1.
      assert (parse_header h1 = mk_header 1 seq devid dir ep) as -> by
        (apply parse_header_ok; assumption || reflexivity).
      cbn [hd_command N.eqb Pos.eqb]. unfold read_submit. rewrite R2. cbn [obind].
      unfold h2. rewrite parse_body_ok by assumption. cbn [sb_length sb_setup hd_dir].
      fold h2. assert (shifted (20 + 28) cs cs2) as S12 by exact (shifted_trans _ _ _ _ _ S1 S2).
      destruct (dir =? 0) eqn:Ed; cbn [andb].
      * destruct (N.ltb_spec 0 n) as [Hn|Hn]; cbn [obind].
        -- destruct (read_once_exact cs2 dt rest) as (cs3 & R3 & S3 & E3); auto; [lia| |].
           { destruct S12 as [_ S]. specialize (S 48 (len dt) ltac:(lia)).
             rewrite len_app, L1, L2 in U. exact (S U). }
           rewrite <- W7, R3. cbn [obind]. exists cs3. rewrite pad_exact by (unfold len; lia).
           split; [reflexivity|]. split; auto. rewrite !len_app, L1, L2.
           exact (shifted_trans _ _ _ _ _ S12 S3).
        -- assert (dt = []) as -> by (apply length_zero_iff_nil; unfold len in *; lia).
           assert (n = 0) as -> by lia. exists cs2. split; [reflexivity|].
           rewrite app_nil_r, len_app, L1, L2. auto.
      * subst dt. exists cs2. split; [reflexivity|]. rewrite app_nil_r, len_app, L1, L2. auto.
    + destruct W as (W1 & W2 & W3 & W4 & W5 & W6). injection SA as <- <-.
      unfold message_bytes in *. cbn [data msg_header] in *. rewrite app_nil_r in *.
      assert (head (MUnlink seq devid dir ep target padding) =
        (be 4 2 ++ be 4 seq ++ be 4 devid ++ be 4 dir ++ be 4 ep) ++ (be 4 target ++ padding)) as Hh
        by (cbn [head]; now rewrite <- !app_assoc).
      rewrite Hh in *. clear Hh.
      set (h1 := be 4 2 ++ be 4 seq ++ be 4 devid ++ be 4 dir ++ be 4 ep) in *.
      assert (len h1 = 20) as L1 by reflexivity.
      assert (len (be 4 target ++ padding) = 28) as L2 by (rewrite !len_app, !len_be, W6; reflexivity).
      rewrite <- !app_assoc in C.
      destruct (read_full_exact cs h1 ((be 4 target ++ padding) ++ rest)) as (cs1 & R1 & S1 & E1).
      { rewrite C. now rewrite <- !app_assoc. }
      destruct (read_full_exact cs1 _ _ E1) as (cs2 & R2 & S2 & E2).
      rewrite L1 in R1, S1. rewrite L2 in R2, S2.
      unfold conn_step. cbn [cn_phase cn_stream]. rewrite R1.
      assert (parse_header h1 = mk_header 2 seq devid dir ep) as -> by
        (apply parse_header_ok; assumption || reflexivity).
      cbn [hd_command N.eqb Pos.eqb]. rewrite R2. rewrite field4 by assumption.
      exists cs2. split; [reflexivity|]. rewrite len_app, L1, L2. split; auto.
      exact (shifted_trans _ _ _ _ _ S1 S2).
Qed.

Lemma data_spans_shift ms : forall a b,
  data_spans (a + b) ms = map (fun x => (a + fst x, snd x)) (data_spans b ms).
Proof.
  induction ms as [|m ms IH]; intros a b; cbn; auto.
  rewrite <- N.add_assoc. f_equal. rewrite <- IH. f_equal. lia.
Qed.

Lemma conn_run_messages devices ms : forall p cs p' l,
  spec_actions devices p ms = Some (p', l) -> Forall well_formed ms -> ~ In ANone l ->
  data_uncut ms cs ->
  exists cs', conn_run devices (length ms) (mk_conn p cs) = (mk_conn p' cs', l) /\ concat cs' = [].
Proof.
  induction ms as [|m ms IH]; intros p cs p' l SA W NN [C U].
  - injection SA as <- <-. exists cs. auto.
  - cbn [spec_actions] in SA.
    destruct (spec_phase_action devices p m) as [[p1 a]|] eqn:E1; [|discriminate]. cbn [obind] in SA.
    destruct (spec_actions devices p1 ms) as [[p2 l2]|] eqn:E2; [|discriminate].
    injection SA as <- <-. inversion W as [|? ? W1 W2]; subst.
    cbn [map concat data_spans] in C, U. inversion U as [|? ? U1 U2]; subst. cbn [fst snd] in U1.
    rewrite N.add_0_l in U1, U2.
    assert (p1 <> Closed) as NC.
    { intros ->. apply NN. left.
      destruct p, m; cbn in E1; try discriminate; try congruence.
      destruct (cstring field) as [name|]; [|congruence].
      destruct (get_device devices name 0) as [[? ?]|]; congruence. }
    destruct (conn_step_message devices p m cs _ p1 a E1 NC W1 C U1) as (cs1 & R1 & [S1 S2] & C1).
    destruct (IH p1 cs1 p2 l2 E2 W2) as (cs2 & R2 & C2).
    + intro H. apply NN. now right.
    + split; auto. replace (len (message_bytes m)) with (len (message_bytes m) + 0) in U2 by lia.
      rewrite data_spans_shift, Forall_map in U2. eapply Forall_impl; [|exact U2].
      cbn [fst snd]. intros [i k] H. cbn [fst snd] in *.
      apply S2 in H; [|lia]. replace (len (message_bytes m) + i - len (message_bytes m)) with i in H by lia.
      exact H.
    + exists cs2. split; auto. cbn [length conn_run]. rewrite R1, R2. reflexivity.
Qed.

(* -------------------------------------------------- names in fields *)
Lemma cstring_named field name : named field name -> cstring field = Ok name.
Proof.
  intros (junk & -> & H). induction name as [|x name IH]; cbn [cstring app]; auto.
  cbn in H. replace (x =? 0) with false by (symmetry; apply N.eqb_neq; tauto).
  rewrite IH by tauto. reflexivity.
Qed.

Lemma cstring_none field : ~ In 0 field -> cstring field = Panic.
Proof.
  induction field as [|x f IH]; intro H; cbn [cstring]; auto. cbn in H.
  replace (x =? 0) with false by (symmetry; apply N.eqb_neq; tauto). rewrite IH by tauto. reflexivity.
Qed.

(* -------------------------------------------------- the description (C24) *)
Lemma slice_mid (a x b : bytes) i n : len a = i -> len x = n -> takeN n (dropN i (a ++ x ++ b)) = x.
Proof.
  intros <- <-. rewrite dropN_app, dropN_all, N.sub_diag, dropN_0 by lia. cbn [app].
  now rewrite takeN_exact.
Qed.

Fixpoint consecutive (off : N) (s : struct) : list (N * N) :=
  match s with
  | [] => []
  | f :: r => (off, N.of_nat (fst f)) :: consecutive (off + N.of_nat (fst f)) r
  end.

Lemma fields_at_struct s : forall pre, Forall (fun f => snd f < 256 ^ N.of_nat (fst f)) s ->
  fields_at (consecutive (len pre) s) (pre ++ to_be s) = map snd s.
Proof.
  induction s as [|[w v] s IH]; intros pre F; [reflexivity|]. inversion_clear F as [|? ? B F'].
  cbn [consecutive fields_at map fst snd] in *. unfold fields_at in *. cbn [map fst snd].
  unfold to_be. cbn [map concat fst snd]. f_equal.
  - rewrite slice_mid; [now apply be_dec_be_small|reflexivity|apply len_be].
  - specialize (IH (pre ++ be w v) F'). rewrite len_app, len_be, <- app_assoc in IH. exact IH.
Qed.

Lemma description_layout s : len (sm_path s) = 256 -> len (sm_busid s) = 32 ->
  sm_busnum s < 2 ^ 32 -> sm_devnum s < 2 ^ 32 -> sm_speed s < 2 ^ 32 ->
  sm_vendor s < 2 ^ 16 -> sm_product s < 2 ^ 16 -> sm_bcd s < 2 ^ 16 ->
  sm_class s < 256 -> sm_subclass s < 256 -> sm_protocol s < 256 ->
  sm_config s < 256 -> sm_nconfig s < 256 -> sm_ninterfaces s < 256 ->
  describes (summary_bytes s) (sm_path s) (sm_busid s)
    [sm_busnum s; sm_devnum s; sm_speed s; sm_vendor s; sm_product s; sm_bcd s;
     sm_class s; sm_subclass s; sm_protocol s; sm_config s; sm_nconfig s; sm_ninterfaces s].
Proof.
  intros P B. intros. unfold describes, summary_bytes. split; [|split; [|split]].
  - unfold to_be. cbn [map concat fst snd]. rewrite !len_app, P, B, !len_be. reflexivity.
  - now apply takeN_exact.
  - now apply slice_mid.
  - rewrite app_assoc.
    match goal with |- fields_at _ (_ ++ to_be ?f) = _ => pose proof (fields_at_struct f (sm_path s ++ sm_busid s)) as F end.
    rewrite len_app, P, B in F. apply F. repeat (apply Forall_cons; [assumption|]). apply Forall_nil.
Qed.

(* -------------------------------------------------- phases (C26) *)
Lemma commands_forever devices n d s :
  exists s', fst (conn_run devices n (mk_conn (Commands d) s)) = mk_conn (Commands d) s'.
Proof.
  revert s. induction n as [|n IH]; intro s; cbn [conn_run]; [cbn; eauto|].
  destruct (conn_step devices (mk_conn (Commands d) s)) as [c1 a] eqn:E.
  assert (exists s1, c1 = mk_conn (Commands d) s1) as [s1 ->].
  { unfold conn_step in E. cbn [cn_phase cn_stream] in E.
    destruct (read_full 20 s) as [[b s1]|]; [|injection E as <- <-; eauto].
    destruct (hd_command (parse_header b) =? 1).
    - destruct (read_submit _ s1) as [[[body buffer] s2]|]; injection E as <- <-; eauto.
    - destruct (hd_command (parse_header b) =? 2); [|injection E as <- <-; eauto].
      destruct (read_full 28 s1) as [[u s2]|]; injection E as <- <-; eauto. }
  destruct (IH s1) as [s2 H]. exists s2. rewrite <- H.
  destruct (conn_run devices n (mk_conn (Commands d) s1)). reflexivity.
Qed.

Lemma conn_run_split devices m n c :
  fst (conn_run devices (m + n) c) = fst (conn_run devices n (fst (conn_run devices m c))).
Proof.
  revert c. induction m as [|m IH]; intro c; cbn [conn_run Nat.add]; auto.
  destruct (conn_step devices c) as [c1 a].
  specialize (IH c1). destruct (conn_run devices (m + n) c1), (conn_run devices m c1). exact IH.
Qed.

Lemma never_returns devices c m d :
  cn_phase (fst (conn_run devices m c)) = Commands d ->
  forall n, cn_phase (fst (conn_run devices n c)) <> Closed.
Proof.
  intros H n HC.
  assert (forall k c, cn_phase c = Closed -> fst (conn_run devices k c) = c) as CL.
  { induction k as [|k IH]; intros c0 E; cbn [conn_run]; auto.
    unfold conn_step. rewrite E. destruct (conn_run devices k c0) eqn:R.
    specialize (IH c0 E). rewrite R in IH. exact IH. }
  destruct (Nat.le_gt_cases m n) as [L|L].
  - replace n with (m + (n - m))%nat in HC by lia. rewrite conn_run_split in HC.
    destruct (fst (conn_run devices m c)) as [ph s]. cbn in H. subst ph.
    destruct (commands_forever devices (n - m) d s) as [s' Es]. rewrite Es in HC. discriminate.
  - replace m with (n + (m - n))%nat in H by lia. rewrite conn_run_split in H.
    rewrite (CL _ _ HC) in H. congruence.
Qed.

Lemma control_progress devices s c a : conn_step devices (mk_conn Control s) = (c, a) ->
  cn_phase c = Closed \/ (exists d, cn_phase c = Commands d) \/
  (cn_phase c = Control /\ len (concat (cn_stream c)) + 8 <= len (concat s)).
Proof.
  unfold conn_step. cbn [cn_phase cn_stream].
  destruct (read_full 8 s) as [[h s1]|] eqn:E; [|intro H; injection H as <- <-; now left].
  assert (len (concat s1) + 8 <= len (concat s)) as L.
  { destruct (N.le_gt_cases 8 (len (concat s))) as [B|B].
    - destruct (read_full_spec s 8 B) as (s1' & R & [S _]). rewrite R in E. injection E as <- <-.
      rewrite S. unfold dropN, len in *. rewrite skipn_length. lia.
    - rewrite read_full_short in E by exact B. discriminate. }
  destruct (_ =? 0x8005); [intro H; injection H as <- <-; right; right; auto|].
  destruct (_ =? 0x8003); [|intro H; injection H as <- <-; right; right; auto].
  unfold util_read. destruct (read_once 32 s1) as [[dt s2]|] eqn:E2; cbn [obind];
    [|intro H; injection H as <- <-; now left].
  assert (len (concat s2) <= len (concat s1)) as L2.
  { clear -E2. revert dt s2 E2. induction s1 as [|c s1 IH]; intros dt s2 E2; [discriminate|].
    destruct c as [|x c]; cbn [read_once] in E2.
    - apply IH in E2. exact E2.
    - injection E2 as <- <-. destruct (len (x :: c) <=? 32); cbn [concat]; rewrite ?len_app;
        [lia|]. unfold dropN, len. rewrite skipn_length. lia. }
  destruct (cstring _) as [name|]; [|intro H; injection H as <- <-; now left].
  destruct (get_device devices name 0) as [[i d]|]; intro H; injection H as <- <-; cbn.
  - right; left; eauto.
  - right; right. split; auto. lia.
Qed.

Lemma control_returns devices s :
  (exists m d, cn_phase (fst (conn_run devices m (mk_conn Control s))) = Commands d) \/
  (exists n, cn_phase (fst (conn_run devices n (mk_conn Control s))) = Closed).
Proof.
  remember (N.to_nat (len (concat s))) as k eqn:K. revert s K.
  induction k as [k IH] using lt_wf_ind. intros s K.
  destruct (conn_step devices (mk_conn Control s)) as [c a] eqn:E.
  assert (forall n, fst (conn_run devices (S n) (mk_conn Control s)) = fst (conn_run devices n c)) as R.
  { intro n. cbn [conn_run]. rewrite E. destruct (conn_run devices n c). reflexivity. }
  destruct (control_progress _ _ _ _ E) as [H|[[d H]|[H L]]].
  - right. exists 1%nat. rewrite R. exact H.
  - left. exists 1%nat, d. rewrite R. exact H.
  - destruct c as [ph s1]. cbn in H, L. subst ph.
    destruct (IH (N.to_nat (len (concat s1))) ltac:(lia) s1 eq_refl) as [(m & d & G)|(n & G)].
    + left. exists (S m), d. now rewrite R.
    + right. exists (S n). now rewrite R.
Qed.

(* -------------------------------------------------- accepted addresses (C27) *)
Lemma has_prefix_app p s : has_prefix p s = true -> exists r, s = p ++ r.
Proof.
  revert s. induction p as [|x p IH]; intros s H; cbn in *; [eauto|].
  destruct s as [|y s]; [discriminate|]. apply andb_prop in H as [E H].
  apply IH in H as [r ->]. exists r. f_equal. lia.
Qed.

(* a decimal byte is read off the text uniquely *)
Fixpoint split_at (c : N) (s : bytes) : bytes :=
  match s with [] => [] | x :: r => if x =? c then [] else x :: split_at c r end.

Lemma dec_byte a rest : a < 256 -> split_at 46 (dec a ++ 46 :: rest) = dec a.
Proof.
  intro H. apply (small_cases 256) in H.
  assert (forallb (fun x => forallb (fun y => negb (y =? 46)) (dec x)) (map N.of_nat (seq 0 256)) = true)
    as F by (vm_compute; reflexivity).
  rewrite forallb_forall in F. specialize (F a H). revert F. generalize (dec a).
  induction b as [|x b IH]; intro F; cbn in *; auto.
  apply andb_prop in F as [F1 F2]. destruct (x =? 46); [discriminate|]. f_equal. now apply IH.
Qed.

Lemma dec_inj a b : a < 256 -> b < 256 -> dec a = dec b -> a = b.
Proof.
  intros Ha Hb E.
  assert (forall x, x < 256 -> fold_left (fun acc d => acc * 10 + (d - 48)) (dec x) 0 = x) as D.
  { intros x Hx. apply N.eqb_eq. revert x Hx. apply forall_byte. vm_compute. reflexivity. }
  rewrite <- (D a Ha), <- (D b Hb), E. reflexivity.
Qed.

Lemma accepted_local a b c d p : a < 256 -> b < 256 -> c < 256 ->
  accepted (IPv4 a b c d p) = true -> a = 127 /\ b = 0 /\ c = 0.
Proof.
  intros Ha Hb Hc H. unfold accepted in H. apply has_prefix_app in H as [r H].
  cbn [address_string] in H. cbn [app] in H.
  pose proof (f_equal (split_at 46) H) as E1. rewrite dec_byte in E1 by assumption.
  assert (a = 127) as -> by (apply dec_inj; [assumption|reflexivity|exact E1]).
  apply (f_equal (skipn 4)) in H.
  change (skipn 4 (dec 127 ++ 46 :: dec b ++ 46 :: dec c ++ 46 :: dec d ++ 58 :: dec p))
    with (dec b ++ 46 :: dec c ++ 46 :: dec d ++ 58 :: dec p) in H.
  pose proof (f_equal (split_at 46) H) as E2.
  rewrite dec_byte in E2 by assumption.
  assert (b = 0) as -> by (apply dec_inj; [assumption|reflexivity|exact E2]).
  apply (f_equal (skipn 2)) in H.
  change (skipn 2 (dec 0 ++ 46 :: dec c ++ 46 :: dec d ++ 58 :: dec p))
    with (dec c ++ 46 :: dec d ++ 58 :: dec p) in H.
  pose proof (f_equal (split_at 46) H) as E3. rewrite dec_byte in E3 by assumption.
  assert (c = 0) as -> by (apply dec_inj; [assumption|reflexivity|exact E3]). auto.
Qed.

Lemma ipv6_refused t p : accepted (IPv6 t p) = false.
Proof. reflexivity. Qed.
