(* The whole device on one connection (C20, C21, C25). *)
From Verif Require Import Base M_Util M_Usb M_ReqBuf M_Usbip S_ReqBuf S_Usbip S_UsbipSys P_ReqBuf P_Usb P_Usbip1.

(* -------------------------------------------------- vocabulary *)
(* a submit that HandleMessage answers by itself *)
Definition immediate (x : header * bytes * bytes) : bool :=
  let '(h, st, _) := x in
  (hd_ep h =? 2) || (hd_ep h =? 0) && control_answered (read_setup st).

Lemma submits_app l l' : submits_of (l ++ l') = submits_of l ++ submits_of l'.
Proof. apply flat_map_app. Qed.
Lemma unlinks_of_app l l' : unlinks_of (l ++ l') = unlinks_of l ++ unlinks_of l'.
Proof. apply flat_map_app. Qed.

Lemma reply_to_mono log l f r : reply_to log f r -> reply_to (log ++ l) f r.
Proof.
  intros [h st b payload I L|h removed I].
  - apply (reply_submit _ h st b); auto. rewrite submits_app. apply in_or_app; now left.
  - constructor. rewrite unlinks_of_app. apply in_or_app; now left.
Qed.

(* -------------------------------------------------- frames *)
Lemma overlay_len (b r : bytes) : len (takeN (len b) r ++ dropN (len r) b) = len b.
Proof.
  rewrite len_app. unfold takeN, dropN, len. rewrite firstn_length, skipn_length. lia.
Qed.

Lemma return_submit_spec h b r : hd_command h = 1 -> len b < 4294967296 ->
  return_submit h b r = spec_ret_submit (hd_seq h) (len b)
    (if hd_dir h =? 1 then match r with Some r => takeN (len b) r ++ dropN (len r) b | None => b end
     else []).
Proof.
  intros C L. unfold return_submit, reply_header, spec_ret_submit. rewrite C. cbn [N.eqb Pos.eqb].
  unfold to_be. cbn [map concat fst snd]. rewrite !app_nil_r, <- !app_assoc.
  assert (len (match r with Some r => takeN (len b) r ++ dropN (len r) b | None => b end) = len b) as ->.
  { destruct r; auto. apply overlay_len. }
  rewrite N.mod_small by exact L. reflexivity.
Qed.

Lemma overlay_zeros n r : takeN n r ++ dropN (len r) (zeros (N.to_nat n)) = spec_transfer n r.
Proof.
  unfold spec_transfer. f_equal. unfold dropN, zeros, len.
  destruct (Nat.le_gt_cases (length r) (N.to_nat n)) as [H|H].
  - replace (N.to_nat n) with (length r + (N.to_nat n - length r))%nat at 1 by lia.
    rewrite repeat_app, skipn_app, skipn_all2 by (rewrite repeat_length; lia).
    rewrite repeat_length. replace (N.to_nat (N.of_nat (length r)) - length r)%nat with 0%nat by lia.
    cbn [skipn app]. f_equal. lia.
  - rewrite skipn_all2 by (rewrite repeat_length; lia).
    replace (N.to_nat (n - N.of_nat (length r))) with 0%nat by lia. reflexivity.
Qed.

Lemma return_unlink_spec h removed : hd_command h = 2 ->
  return_unlink h removed = spec_ret_unlink (hd_seq h) removed.
Proof.
  intro C. unfold return_unlink, reply_header, spec_ret_unlink. rewrite C. cbn [N.eqb Pos.eqb].
  unfold to_be. cbn [map concat fst snd]. rewrite !app_nil_r, <- !app_assoc.
  destruct removed; reflexivity.
Qed.

Lemma ret_submit_parts seq n p : seq < 4294967296 -> n < 4294967296 ->
  let f := spec_ret_submit seq n p in
  len f = 48 + len p /\ u32_at 0 f = 3 /\ u32_at 4 f = seq /\ u32_at 20 f = 0 /\ u32_at 24 f = n /\
  dropN 48 f = p.
Proof.
  intros Hs Hn f. unfold f, spec_ret_submit, u32_at.
  assert (dropN 0 (be 4 3 ++ be 4 seq ++ zeros 12 ++ be 4 0 ++ be 4 n ++ zeros 20 ++ p) =
          be 4 3 ++ be 4 seq ++ zeros 12 ++ be 4 0 ++ be 4 n ++ zeros 20 ++ p) as -> by reflexivity.
  split; [unfold len; rewrite !app_length, !be_length; unfold zeros; rewrite !repeat_length; lia|].
  split; [apply field4; reflexivity|].
  split; [rewrite (drop_be 4); now apply field4|].
  change 24 with (4 + (4 + (12 + 4))). change 48 with (4 + (4 + (12 + (4 + (4 + 20))))).
  change 20 with (4 + (4 + 12)) at 1.
  rewrite <- !dropN_dropN, !(drop_be 4), !(dropN_exact (zeros 12)) by reflexivity.
  rewrite (drop_be 4), (drop_be 4).
  split; [apply field4; reflexivity|]. split; [now apply field4|]. now apply dropN_exact.
Qed.

Lemma ret_unlink_parts seq r : seq < 4294967296 ->
  let f := spec_ret_unlink seq r in
  len f = 48 /\ u32_at 0 f = 4 /\ u32_at 4 f = seq /\ u32_at 20 f = spec_status r.
Proof.
  intros Hs f. unfold f, spec_ret_unlink, u32_at.
  assert (forall x : bytes, dropN 0 x = x) as D0 by reflexivity. rewrite D0.
  split; [rewrite !len_app, !len_be; destruct r; vm_compute; reflexivity|].
  split; [apply field4; reflexivity|].
  split; [rewrite (drop_be 4); now apply field4|].
  change 20 with (4 + (4 + 12)).
  rewrite <- !dropN_dropN, !(drop_be 4), !(dropN_exact (zeros 12)) by reflexivity.
  destruct r; reflexivity.
Qed.

Lemma answers_submit q seq n p : q < 4294967296 -> seq < 4294967296 ->
  answers q (spec_ret_submit seq n p) = (seq =? q).
Proof.
  intros Hq Hs. unfold answers, spec_ret_submit. rewrite app_assoc, takeN_exact by reflexivity.
  destruct (N.eqb_spec seq q) as [->|D]; [apply bytes_eqb_refl|].
  apply bytes_eqb_neq. intro E. apply app_inv_head in E. apply D.
  apply (f_equal be_dec) in E. rewrite !be_dec_be_small in E by assumption. exact E.
Qed.

Lemma answers_unlink q seq r : answers q (spec_ret_unlink seq r) = false.
Proof.
  unfold answers, spec_ret_unlink. rewrite app_assoc, takeN_exact by reflexivity.
  apply bytes_eqb_neq. intro E. discriminate E.
Qed.

(* -------------------------------------------------- streams of bytes *)
Lemma read_full_some s n b s' : read_full n s = Some (b, s') -> concat s = b ++ concat s' /\ len b = n.
Proof.
  intro H. destruct (N.le_gt_cases n (len (concat s))) as [L|L].
  - destruct (read_full_spec s n L) as (cs' & R & [S _]). rewrite R in H. injection H as <- <-.
    rewrite S. split; [symmetry; apply takeN_dropN|].
    unfold takeN, len in *. rewrite firstn_length. lia.
  - rewrite read_full_short in H by exact L. discriminate.
Qed.

Lemma read_once_some s : forall n b s', read_once n s = Some (b, s') ->
  concat s = b ++ concat s' /\ len b <= n.
Proof.
  induction s as [|c s IH]; intros n b s' H; [discriminate|].
  destruct c as [|x c]; cbn [read_once] in H; [apply IH in H; exact H|].
  injection H as <- <-. destruct (N.leb_spec (len (x :: c)) n).
  - rewrite takeN_all by exact H. split; auto.
  - cbn [concat]. rewrite app_assoc, takeN_dropN. split; auto.
    unfold takeN, len in *. rewrite firstn_length. lia.
Qed.

Lemma wfb_take n b : wfb b -> wfb (takeN n b).
Proof. intro H. rewrite <- (takeN_dropN n b) in H. now apply wfb_app in H. Qed.
Lemma wfb_drop n b : wfb b -> wfb (dropN n b).
Proof. intro H. rewrite <- (takeN_dropN n b) in H. now apply wfb_app in H. Qed.

Lemma u32_field i b : wfb b -> be_dec (takeN 4 (dropN i b)) < 4294967296.
Proof.
  intro W. pose proof (be_dec_bound (takeN 4 (dropN i b)) (wfb_take 4 _ (wfb_drop i _ W))) as B.
  eapply N.lt_le_trans; [exact B|]. change 4294967296 with (256 ^ 4).
  apply N.pow_le_mono_r; [lia|]. unfold takeN, len. rewrite firstn_length. lia.
Qed.

(* everything a connection step may submit *)
Lemma conn_step_facts devices c c' a : wfb (concat (cn_stream c)) ->
  conn_step devices c = (c', a) ->
  wfb (concat (cn_stream c')) /\
  match a with
  | ASubmit _ h st b =>
    cn_phase c' = cn_phase c /\ (exists d, cn_phase c = Commands d) /\
    hd_command h = 1 /\ hd_seq h < 4294967296 /\ len b < 4294967296 /\
    (hd_dir h <> 0 -> b = zeros (length b)) /\ wfb st
  | AUnlink _ h t =>
    cn_phase c' = cn_phase c /\ (exists d, cn_phase c = Commands d) /\
    hd_command h = 2 /\ hd_seq h < 4294967296
  | AWrite r => cn_phase c = Control
  | ANone => True
  end.
Proof.
  destruct c as [p s]. unfold conn_step. cbn [cn_phase cn_stream]. intros W E.
  assert (forall n b s', read_full n s = Some (b, s') -> wfb b /\ wfb (concat s')) as RF.
  { intros n b s' H. apply read_full_some in H as [C _]. rewrite C in W. now apply wfb_app in W. }
  destruct p as [|d|].
  - destruct (read_full 8 s) as [[h s1]|] eqn:E1; [|injection E as <- <-; split; [constructor|exact I]].
    destruct (RF _ _ _ E1) as [W1 W2].
    destruct (_ =? 0x8005); [injection E as <- <-; auto|].
    destruct (_ =? 0x8003); [|injection E as <- <-; auto].
    unfold util_read in E. destruct (read_once 32 s1) as [[dt s2]|] eqn:E2; cbn [obind] in E;
      [|injection E as <- <-; split; [constructor|exact I]].
    apply read_once_some in E2 as [C2 _]. rewrite C2 in W2. apply wfb_app in W2 as [_ W2].
    destruct (cstring _) as [name|]; [|injection E as <- <-; split; [constructor|exact I]].
    destruct (get_device devices name 0) as [[i dv]|]; injection E as <- <-; auto.
  - destruct (read_full 20 s) as [[b s1]|] eqn:E1; [|injection E as <- <-; split; [constructor|exact I]].
    destruct (RF _ _ _ E1) as [W1 W2].
    assert (hd_seq (parse_header b) < 4294967296) as HS by (apply u32_field; exact W1).
    destruct (N.eqb_spec (hd_command (parse_header b)) 1) as [C1|C1].
    + unfold read_submit in E. destruct (read_full 28 s1) as [[bb s2]|] eqn:E2; cbn [obind] in E;
        [|injection E as <- <-; split; [constructor|exact I]].
      apply read_full_some in E2 as [C2 _]. rewrite C2 in W2. apply wfb_app in W2 as [W3 W4].
      assert (sb_length (parse_body bb) < 4294967296) as HL by (apply u32_field; exact W3).
      assert (wfb (sb_setup (parse_body bb))) as HT by (apply wfb_take, wfb_drop; exact W3).
      destruct (N.eqb_spec (hd_dir (parse_header b)) 0) as [D0|D0]; cbn [andb] in E.
      * destruct (0 <? sb_length (parse_body bb)) eqn:Z; cbn [andb] in E.
        -- destruct (read_once _ s2) as [[dt s3]|] eqn:E3; cbn [obind] in E;
             [|injection E as <- <-; split; [constructor|exact I]].
           apply read_once_some in E3 as [C3 L3]. rewrite C3 in W4. apply wfb_app in W4 as [_ W4].
           injection E as <- <-. cbn [cn_stream cn_phase]. split; auto. split; auto. split; eauto.
           split; auto. split; auto. split; [|split; [contradiction|exact HT]].
           unfold pad, len. rewrite firstn_length, app_length. unfold zeros. rewrite repeat_length. cbn in HL. lia.
        -- injection E as <- <-. cbn [cn_stream cn_phase]. split; auto. split; auto. split; eauto.
           split; auto. split; auto. split; [|split; [contradiction|exact HT]].
           unfold len, zeros. rewrite repeat_length. cbn in HL. lia.
      * injection E as <- <-. cbn [cn_stream cn_phase]. split; auto. split; auto. split; eauto.
        split; auto. split; auto. split.
        -- unfold len, zeros. rewrite repeat_length. cbn in HL. lia.
        -- split; [|exact HT]. intros _. unfold zeros. now rewrite repeat_length.
    + destruct (N.eqb_spec (hd_command (parse_header b)) 2) as [C2|C2];
        [|injection E as <- <-; auto].
      destruct (read_full 28 s1) as [[u s2]|] eqn:E2;
        [|injection E as <- <-; split; [constructor|exact I]].
      apply read_full_some in E2 as [C3 _]. rewrite C3 in W2. apply wfb_app in W2 as [W3 W4].
      injection E as <- <-. cbn [cn_stream cn_phase]. eauto 6.
  - injection E as <- <-. auto.
Qed.

(* -------------------------------------------------- the invariant *)
Definition cb_for (subs : list (header * bytes)) (q : N) (e : in_event) : bool :=
  match e with
  | EvCallback k _ => match nth_error subs k with Some (h, _) => hd_seq h =? q | None => false end
  | _ => false
  end.

Record sys_inv (s : sys) : Prop := mk_sys_inv {
  si_wf : wfb (concat (cn_stream (sy_conn s)));
  si_in : in_inv (sy_in s);
  si_subs : map snd (submissions (in_trace (sy_in s))) = map (fun x => hd_seq (fst x)) (sy_subs s);
  si_log1 : forall h b, In (h, b) (sy_subs s) ->
     hd_ep h = 1 /\ exists st, In (h, st, b) (submits_of (sy_log s));
  si_log2 : forall h st b, In (h, st, b) (submits_of (sy_log s)) ->
     (hd_ep h = 1 -> In (h, b) (sy_subs s)) /\
     hd_command h = 1 /\ hd_seq h < 4294967296 /\ len b < 4294967296 /\
     (hd_dir h <> 0 -> b = zeros (length b)) /\ wfb st;
  si_log3 : forall h, In h (unlinks_of (sy_log s)) -> hd_seq h < 4294967296;
  si_control : cn_phase (sy_conn s) = Control -> submits_of (sy_log s) = [] /\ unlinks_of (sy_log s) = [];
  si_frames : exists ctrl frames replies,
     sy_out s = ctrl ++ frames /\
     Forall control_reply ctrl /\ Forall2 (reply_to (sy_log s)) frames replies;
  si_pending : match sy_pending s with
     | None => True
     | Some f => (control_reply f /\ submits_of (sy_log s) = [] /\ unlinks_of (sy_log s) = []) \/
                 exists r, reply_to (sy_log s) f r
     end;
  si_count : forall q, q < 4294967296 ->
     answered q (sy_out s ++ opt_list (sy_pending s)) =
     (length (filter (cb_for (sy_subs s) q) (in_trace (sy_in s))) +
      length (filter (fun x => immediate x && (hd_seq (fst (fst x)) =? q)%N) (submits_of (sy_log s))))%nat }.

Lemma control_reply_answers q f : control_reply f -> q < 4294967296 -> answers q f = false.
Proof.
  intros [-> | [-> | ->]] _; apply bytes_eqb_neq; intro E; apply (f_equal (takeN 4)) in E;
    rewrite (take_be 4) in E; discriminate E.
Qed.

Lemma subs_len s : sys_inv s -> length (sy_subs s) = in_next (sy_in s).
Proof.
  intro I. pose proof (si_subs s I) as E. apply (f_equal (@length N)) in E.
  rewrite !map_length in E. rewrite <- E.
  pose proof (iv_keys _ (si_in s I)) as K. apply (f_equal (@length nat)) in K.
  rewrite map_length, seq_length in K. exact K.
Qed.

Lemma sys_init_inv s : Forall wfb s -> sys_inv (sys_init s).
Proof.
  intro W. constructor; cbn; auto; try easy.
  - induction W; cbn; [constructor|]. now apply wfb_app.
  - apply in_init_inv.
  - exists [], [], []. split; [reflexivity|]. split; constructor.
Qed.

Lemma frames_mono log l frames replies :
  Forall2 (reply_to log) frames replies -> Forall2 (reply_to (log ++ l)) frames replies.
Proof. induction 1; constructor; auto. now apply reply_to_mono. Qed.

Lemma return_submit_reply log h st b r : In (h, st, b) (submits_of log) ->
  hd_command h = 1 -> len b < 4294967296 -> exists rep, reply_to log (return_submit h b r) rep.
Proof.
  intros Hi C L. rewrite return_submit_spec by assumption. eexists. eapply reply_submit; eauto.
  destruct (hd_dir h =? 1); auto. destruct r; auto. apply overlay_len.
Qed.

Lemma frames_snoc log frames replies f : Forall2 (reply_to log) frames replies ->
  (exists r, reply_to log f r) -> exists replies', Forall2 (reply_to log) (frames ++ [f]) replies'.
Proof. intros F [r R]. exists (replies ++ [r]). apply Forall2_app; auto. Qed.

Lemma no_frames log frames replies : submits_of log = [] -> unlinks_of log = [] ->
  Forall2 (reply_to log) frames replies -> frames = [].
Proof.
  intros S U F. inversion F as [|f r ? ? R]; auto. exfalso. destruct R as [h st b pl Hi|h rm Hi].
  - now rewrite S in Hi. - now rewrite U in Hi.
Qed.

Lemma answered_app q a b : answered q (a ++ b) = (answered q a + answered q b)%nat.
Proof. unfold answered. now rewrite filter_app, app_length. Qed.

Lemma filter_cb_ext subs x q t :
  (forall k v, In (EvCallback k v) t -> (k < length subs)%nat) ->
  filter (cb_for (subs ++ [x]) q) t = filter (cb_for subs q) t.
Proof.
  intro B. apply filter_ext_in. intros e He. destruct e; auto. cbn.
  rewrite nth_error_app1; auto. eapply B; eauto.
Qed.

Lemma callback_bound s k v : in_inv s -> In (EvCallback k v) (in_trace s) -> (k < in_next s)%nat.
Proof.
  intros I H. destruct (Nat.lt_ge_cases k (in_next s)) as [B|B]; auto.
  pose proof (iv_fresh_k s I k B) as Z. unfold completions in Z.
  assert (In (EvCallback k v) (filter (fun e => match e with EvCallback j _ => Nat.eqb j k | _ => false end)
    (in_trace s))) as F by (apply filter_In; split; auto; apply Nat.eqb_refl).
  destruct (filter _ (in_trace s)); [easy|cbn in Z; lia].
Qed.

Lemma flight_bound s f : in_inv s -> In f (in_flight s) -> (fl_key f < in_next s)%nat.
Proof.
  intros I H. destruct (Nat.lt_ge_cases (fl_key f) (in_next s)) as [B|B]; auto.
  pose proof (iv_fresh_k s I _ B) as Z. unfold flies in Z.
  assert (In f (filter (fun g => Nat.eqb (fl_key g) (fl_key f)) (in_flight s))) as F
    by (apply filter_In; split; auto; apply Nat.eqb_refl).
  destruct (filter _ (in_flight s)); [easy|cbn in Z; lia].
Qed.

(* a reader step that only sets the reader's pending write *)
Lemma inv_reader s c pend del a :
  sys_inv s -> sy_pending s = None -> wfb (concat (cn_stream c)) ->
  match a with
  | ANone => pend = None
  | AWrite r => pend = Some r /\ control_reply r /\ cn_phase (sy_conn s) = Control
  | ASubmit _ h st b =>
     cn_phase c <> Control /\
     hd_ep h <> 1 /\ hd_command h = 1 /\ hd_seq h < 4294967296 /\ len b < 4294967296 /\
     (hd_dir h <> 0 -> b = zeros (length b)) /\ wfb st /\
     (if immediate (h, st, b) then exists r, pend = Some (return_submit h b r) else pend = None)
  | AUnlink _ _ _ => False
  end ->
  (cn_phase c = Control -> cn_phase (sy_conn s) = Control) ->
  sys_inv (mk_sys c (sy_in s) (sy_subs s) pend del (sy_out s) (sy_log s ++ [a])).
Proof.
  intros I P W H PH.
  destruct (si_frames s I) as (ctrl & frames & replies & F1 & F2 & F3).
  pose proof (si_count s I) as Cn. rewrite P in Cn. cbn [opt_list] in Cn.
  constructor; cbn [sy_conn sy_in sy_subs sy_pending sy_delegate sy_out sy_log]; auto.
  - apply (si_in s I).
  - apply (si_subs s I).
  - intros h b Hi. destruct (si_log1 s I h b Hi) as [Q1 [st Q2]]. split; auto. exists st.
    rewrite submits_app. apply in_or_app. now left.
  - rewrite submits_app. intros h st b Hi. apply in_app_or in Hi as [Hi|Hi].
    + apply (si_log2 s I h st b Hi).
    + destruct a as [|r|d h' st' b'|]; cbn in Hi; try easy. destruct Hi as [Hi|[]].
      injection Hi as -> -> ->. destruct H as (_ & Q1 & Q2 & Q3 & Q4 & Q5 & Q6 & _). tauto.
  - rewrite unlinks_of_app. intros h Hi. apply in_app_or in Hi as [Hi|Hi].
    + apply (si_log3 s I h Hi). + destruct a; cbn in Hi; easy.
  - intro Q. destruct (si_control s I (PH Q)) as [Q1 Q2]. rewrite submits_app, unlinks_of_app, Q1, Q2.
    destruct a as [|r|d h st b|]; cbn; auto; try easy.
  - exists ctrl, frames, replies. split; auto. split; auto. now apply frames_mono.
  - destruct a as [|r|d h st b|]; [| | |easy].
    + now subst pend.
    + destruct H as (-> & CR & Q). left. split; auto. destruct (si_control s I Q) as [Q1 Q2].
      rewrite submits_app, unlinks_of_app, Q1, Q2. auto.
    + destruct H as (_ & H1 & H2 & H3 & H4 & H5 & _ & H6). destruct (immediate (h, st, b)).
      * destruct H6 as [r ->]. right. apply return_submit_reply with (st := st); auto.
        rewrite submits_app. apply in_or_app. right. left. reflexivity.
      * now subst pend.
  - intros q Hq. specialize (Cn q Hq). rewrite app_nil_r in Cn.
    rewrite submits_app, filter_app, app_length, answered_app.
    destruct a as [|r|d h st b|]; [| | |easy].
    + subst pend. cbn. rewrite Cn. unfold answered. cbn. lia.
    + destruct H as (-> & CR & _). cbn [opt_list submits_of flat_map app filter length].
      unfold answered at 2. cbn [filter]. rewrite control_reply_answers by auto. cbn [length]. lia.
    + destruct H as (_ & H1 & H2 & H3 & H4 & H5 & _ & H6).
      cbn [submits_of flat_map app filter fst]. destruct (immediate (h, st, b)).
      * destruct H6 as [r ->]. cbn [opt_list andb]. unfold answered at 2. cbn [filter].
        rewrite return_submit_spec, answers_submit by assumption.
        destruct (hd_seq h =? q); cbn [length]; lia.
      * subst pend. cbn. rewrite Cn. unfold answered. cbn. lia.
Qed.

(* steps that leave reader, log and out alone and produce no callbacks *)
Lemma inv_in_only s i tr :
  sys_inv s -> in_inv i -> in_trace i = in_trace (sy_in s) ++ tr ->
  submissions tr = [] -> (forall k v, ~ In (EvCallback k v) tr) ->
  sys_inv (mk_sys (sy_conn s) i (sy_subs s) (sy_pending s) (sy_delegate s) (sy_out s) (sy_log s)).
Proof.
  intros I II T S NC.
  constructor; cbn [sy_conn sy_in sy_subs sy_pending sy_delegate sy_out sy_log]; try apply I; auto.
  - rewrite T, submissions_app, S, app_nil_r. apply I.
  - intros q Hq. rewrite T, filter_app, app_length.
    assert (filter (cb_for (sy_subs s) q) tr = []) as ->.
    { clear -NC. induction tr as [|e tr IH]; auto. cbn [filter].
      destruct e; cbn [cb_for]; try (apply IH; intros k' v' H; apply (NC k' v'); now right).
      exfalso. apply (NC k v). now left. }
    cbn [length]. rewrite (si_count s I q Hq). lia.
Qed.

Lemma sys_step_inv s l s' : sys_inv s -> sys_step s l = Some s' ->
  NoDup (submit_seqs (sy_log s')) -> sys_inv s'.
Proof.
  intros I E ND. destruct l as [| |choice data|j|j]; cbn [sys_step] in E.
  - (* SRead *)
    destruct (sy_pending s) eqn:P; [discriminate|].
    destruct (conn_step [usb_device] (sy_conn s)) as [c a] eqn:CS.
    pose proof (conn_step_facts _ _ _ _ (si_wf s I) CS) as [Wc Ha].
    assert (cn_phase c = Control -> cn_phase (sy_conn s) = Control) as PH.
    { intro Q. destruct (sy_conn s) as [p st]. destruct p as [|d|]; auto; exfalso.
      - destruct (commands_forever [usb_device] 1 d st) as [s1 H]. cbn [conn_run] in H.
        rewrite CS in H. cbn in H. subst c. discriminate.
      - cbn in CS. injection CS as <- <-. discriminate. }
    destruct a as [|r|d h st b|d h t].
    + injection E as <-. apply inv_reader; auto.
    + injection E as <-. apply inv_reader; auto. split; auto. split; auto.
      clear -CS Ha. destruct (sy_conn s) as [p st]. cbn in Ha. subst p.
      unfold conn_step in CS. cbn [cn_phase cn_stream] in CS.
      destruct (read_full 8 st) as [[h s1]|]; [|discriminate].
      destruct (_ =? 0x8005); [injection CS as <- <-; now left|].
      destruct (_ =? 0x8003); [|discriminate].
      destruct (util_read 32 s1) as [[dt s2]|]; [|discriminate].
      destruct (cstring dt) as [name|]; [|discriminate].
      cbn [get_device] in CS. destruct (bytes_eqb _ _); injection CS as <- <-; unfold control_reply; auto.
    + destruct Ha as (H0 & [d' H0'] & H1 & H2 & H3 & H4 & H5).
      destruct (N.eqb_spec (hd_ep h) 0) as [E0|E0].
      * assert (immediate (h, st, b) =
          match handle_control_message (read_setup st) with Ok _ => true | Panic => false end) as IM
          by (unfold immediate, control_answered; rewrite E0; reflexivity).
        destruct (handle_control_message (read_setup st)) as [r|] eqn:HC; injection E as <-;
          (apply inv_reader; auto); rewrite IM; (split; [congruence|]); (split; [lia|]);
          (split; [exact H1|]); (split; [exact H2|]); (split; [exact H3|]); (split; [exact H4|]); (split; [exact H5|]); eauto.
      * destruct (N.eqb_spec (hd_ep h) 1) as [E1|E1].
        -- (* IN *)
           set (now := snd (rb_request (in_buf (sy_in s)) (hd_seq h) (in_next (sy_in s)))) in *.
           destruct (in_step (sy_in s) (ISubmit (hd_seq h))) as [i|] eqn:IS; [|discriminate].
           cbn [obind] in E. injection E as <-.
           cbn [sy_log] in ND.
           assert (~ In (hd_seq h) (map (fun x => hd_seq (fst (fst x))) (submits_of (sy_log s)))) as FR.
           { unfold submit_seqs in ND. rewrite submits_app, map_app in ND. cbn in ND.
             apply NoDup_remove_2 in ND. now rewrite app_nil_r in ND. }
           assert (~ In (hd_seq h) (map snd (submissions (in_trace (sy_in s))))) as FR2.
           { rewrite (si_subs s I). intro Q. apply in_map_iff in Q as ([h' b'] & Q1 & Q2). cbn in Q1.
             destruct (si_log1 s I h' b' Q2) as [_ [st' Q3]]. apply FR. apply in_map_iff.
             exists (h', st', b'). auto. }
           assert (in_inv i) as Ii.
           { eapply in_step_inv; eauto. apply (si_in s I). intros id Q. injection Q as <-. exact FR2. }
           assert (in_trace i = in_trace (sy_in s) ++ EvSubmit (in_next (sy_in s)) (hd_seq h) ::
             match now with Some dt => [EvCallback (in_next (sy_in s)) (Some dt)] | None => [] end) as TR.
           { cbn [in_step] in IS. unfold now. destruct (rb_request _ _ _) as [bf nw].
             injection IS as <-. reflexivity. }
           pose proof (subs_len s I) as SL.
           assert (wfb (concat (cn_stream c))) as Wc' by exact Wc.
           constructor; cbn [sy_conn sy_in sy_subs sy_pending sy_delegate sy_out sy_log]; auto.
           ++ rewrite TR, submissions_app, map_app, (si_subs s I), map_app. f_equal.
              destruct now; reflexivity.
           ++ intros h' b' Q. apply in_app_or in Q as [Q|[Q|[]]].
              ** destruct (si_log1 s I h' b' Q) as [Q1 [st' Q2]]. split; auto. exists st'.
                 rewrite submits_app. apply in_or_app. now left.
              ** injection Q as <- <-. split; auto. exists st. rewrite submits_app.
                 apply in_or_app. right. now left.
           ++ rewrite submits_app. intros h' st' b' Q. apply in_app_or in Q as [Q|[Q|[]]].
              ** destruct (si_log2 s I h' st' b' Q) as [Q1 Q2]. split; auto. intro. apply in_or_app. auto.
              ** injection Q as <- <- <-. split; auto. intros _. apply in_or_app. right. now left.
           ++ rewrite unlinks_of_app. intros h' Q. apply in_app_or in Q as [Q|[]]. apply (si_log3 s I h' Q).
           ++ intro Q. congruence.
           ++ destruct (si_frames s I) as (ctrl & frames & replies & F1 & F2 & F3).
              apply (frames_mono _ [ASubmit d h st b]) in F3.
              destruct now as [dt|].
              ** destruct (frames_snoc _ _ _ (return_submit h b (Some dt)) F3) as [rs F4].
                 { apply return_submit_reply with (st := st); auto.
                   rewrite submits_app. apply in_or_app. right. left. reflexivity. }
                 exists ctrl, (frames ++ [return_submit h b (Some dt)]), rs.
                 rewrite F1, <- app_assoc. auto.
              ** exists ctrl, frames, replies. rewrite app_nil_r. auto.
           ++ intros q Hq. pose proof (si_count s I q Hq) as Cn. rewrite P in Cn. cbn [opt_list] in *.
              rewrite app_nil_r in *. rewrite TR, !filter_app, !app_length, answered_app, submits_app.
              rewrite filter_app, app_length. cbn [submits_of flat_map app filter fst].
              assert (immediate (h, st, b) = false) as -> by (unfold immediate; rewrite E1; reflexivity).
              cbn [andb length].
              rewrite filter_cb_ext.
              2:{ intros k v Q. rewrite SL. eapply callback_bound; eauto. apply (si_in s I). }
              rewrite Cn. destruct now as [dt|].
              ** cbn [filter cb_for]. rewrite nth_error_app2 by lia.
                 replace (in_next (sy_in s) - length (sy_subs s))%nat with 0%nat by lia. cbn [nth_error].
                 unfold answered. cbn [filter]. rewrite return_submit_spec, answers_submit by assumption.
                 destruct (hd_seq h =? q); cbn [length]; lia.
              ** unfold answered. cbn. lia.
        -- assert (forall p del, sys_inv s -> (if immediate (h, st, b) then exists r, p = Some (return_submit h b r)
             else p = None) -> sys_inv (mk_sys c (sy_in s) (sy_subs s) p del (sy_out s) (sy_log s ++ [ASubmit d h st b]))) as G.
           { intros p del _ Hp. apply inv_reader; auto. split; [congruence|]. tauto. }
           assert (immediate (h, st, b) = (hd_ep h =? 2)) as IM
             by (unfold immediate; replace (hd_ep h =? 0) with false by lia; apply orb_false_r).
           rewrite IM in G.
           destruct (hd_ep h =? 2); injection E as <-; apply G; eauto.
    + destruct Ha as (H0 & [d' H0'] & H1 & H2).
      set (removed := snd (rb_cancel (in_buf (sy_in s)) t)) in *.
      destruct (in_step (sy_in s) (IUnlink t)) as [i|] eqn:IS; [|discriminate].
      cbn [obind] in E. injection E as <-.
      assert (in_inv i) as Ii.
      { eapply in_step_inv; eauto; [apply (si_in s I)|discriminate]. }
      assert (in_trace i = in_trace (sy_in s) ++ [EvUnlink t removed]) as TR.
      { cbn [in_step] in IS. unfold removed. destruct (rb_cancel _ _). injection IS as <-. reflexivity. }
      constructor; cbn [sy_conn sy_in sy_subs sy_pending sy_delegate sy_out sy_log]; auto.
      * rewrite TR, submissions_app, app_nil_r. apply I.
      * intros h' b' Q. destruct (si_log1 s I h' b' Q) as [Q1 [st' Q2]]. split; auto. exists st'.
        rewrite submits_app. apply in_or_app. now left.
      * rewrite submits_app. cbn [submits_of flat_map]. rewrite app_nil_r. apply I.
      * rewrite unlinks_of_app. intros h' Q. apply in_app_or in Q as [Q|[<-|[]]]; auto.
        apply (si_log3 s I h' Q).
      * intro Q. congruence.
      * destruct (si_frames s I) as (ctrl & frames & replies & F1 & F2 & F3).
        exists ctrl, frames, replies. split; auto. split; auto. now apply frames_mono.
      * right. eexists. rewrite return_unlink_spec by assumption. apply reply_unlink.
        rewrite unlinks_of_app. apply in_or_app. right. now left.
      * intros q Hq. pose proof (si_count s I q Hq) as Cn. rewrite P in Cn. cbn [opt_list] in *.
        rewrite app_nil_r in Cn. rewrite TR, filter_app, app_length, answered_app, submits_app.
        cbn [submits_of flat_map filter cb_for length]. rewrite app_nil_r.
        unfold answered at 2. cbn [filter]. rewrite return_unlink_spec, answers_unlink by assumption.
        cbn [length]. lia.
  - (* SWrite *)
    destruct (sy_pending s) as [f|] eqn:P; [|discriminate]. injection E as <-.
    constructor; cbn [sy_conn sy_in sy_subs sy_pending sy_delegate sy_out sy_log opt_list];
      try rewrite app_nil_r; try apply I.
    + destruct (si_frames s I) as (ctrl & frames & replies & F1 & F2 & F3).
      pose proof (si_pending s I) as Pn. rewrite P in Pn. destruct Pn as [(CR & Q1 & Q2)|R].
      * rewrite (no_frames _ _ _ Q1 Q2 F3) in *. exists (ctrl ++ [f]), [], [].
        rewrite F1, !app_nil_r. split; auto. split; [apply Forall_app; auto|constructor].
      * destruct (frames_snoc _ _ _ f F3 R) as [rs F4]. exists ctrl, (frames ++ [f]), rs.
        rewrite F1, <- app_assoc. auto.
    + exact Logic.I.
    + intros q Hq. pose proof (si_count s I q Hq) as Cn. rewrite P in Cn. try rewrite app_nil_r; exact Cn.
  - destruct (in_step (sy_in s) (IRespond choice data)) as [i|] eqn:IS; [|discriminate].
    cbn [obind] in E. injection E as <-.
    assert (in_inv i) by (eapply in_step_inv; eauto; [apply (si_in s I)|discriminate]).
    apply (inv_in_only s i [EvProduced data]); auto.
    + cbn [in_step] in IS. destruct (rb_respond _ _ _) as [[? ?]|]; [|discriminate].
      injection IS as <-. reflexivity.
    + intros k v [Q|[]]. discriminate.
  - (* SRun *)
    destruct (nth_error (in_flight (sy_in s)) j) as [f|] eqn:EF; [|discriminate]. cbn [obind] in E.
    destruct (nth_error (sy_subs s) (fl_key f)) as [[h b]|] eqn:ES; [|discriminate]. cbn [obind] in E.
    destruct (in_step (sy_in s) (IRun j)) as [i|] eqn:IS; [|discriminate]. cbn [obind] in E.
    injection E as <-.
    assert (in_inv i) by (eapply in_step_inv; eauto; [apply (si_in s I)|discriminate]).
    assert (in_trace i = in_trace (sy_in s) ++ [EvCallback (fl_key f) (fl_value f)]) as TR.
    { cbn [in_step] in IS. rewrite EF in IS. injection IS as <-. reflexivity. }
    destruct (si_log1 s I h b (nth_error_In _ _ ES)) as [Q1 [st Q2]].
    destruct (si_log2 s I h st b Q2) as (_ & Q3 & Q4 & Q5 & Q6).
    constructor; cbn [sy_conn sy_in sy_subs sy_pending sy_delegate sy_out sy_log]; try apply I; auto.
    + rewrite TR, submissions_app, app_nil_r. apply I.
    + destruct (si_frames s I) as (ctrl & frames & replies & F1 & F2 & F3).
      destruct (frames_snoc _ _ _ (return_submit h b (fl_value f)) F3) as [rs F4].
      { apply return_submit_reply with (st := st); auto. }
      exists ctrl, (frames ++ [return_submit h b (fl_value f)]), rs. rewrite F1, <- app_assoc. auto.
    + intros q Hq. pose proof (si_count s I q Hq) as Cn.
      rewrite TR, filter_app, app_length. rewrite !answered_app in *. cbn [filter cb_for]. rewrite ES.
      unfold answered at 2. cbn [filter]. rewrite return_submit_spec, answers_submit by assumption.
      destruct (hd_seq h =? q); cbn [length]; lia.
  - destruct (in_step (sy_in s) (ITimeout j)) as [i|] eqn:IS; [|discriminate].
    cbn [obind] in E. injection E as <-.
    assert (in_inv i) by (eapply in_step_inv; eauto; [apply (si_in s I)|discriminate]).
    cbn [in_step] in IS. destruct (nth_error (in_timers (sy_in s)) j) as [[id k]|]; [|discriminate].
    destruct (rb_cancel (in_buf (sy_in s)) id) as [bf r]. injection IS as <-.
    apply (inv_in_only s _ [EvTimeout k r]); auto. intros k' v [Q|[]]. discriminate.
Qed.
