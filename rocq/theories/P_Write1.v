(* The server with locks and failing writes does nothing the one of M_Usbip does not do. *)
From Verif Require Import Base M_Util M_Usb M_ReqBuf M_Usbip M_Write S_Write P_ReqBuf P_Usbip3.

(* ---- lists *)
Inductive subseq {A} : list A -> list A -> Prop :=
| sq_nil l : subseq [] l
| sq_skip x a b : subseq a b -> subseq a (x :: b)
| sq_take x a b : subseq a b -> subseq (x :: a) (x :: b).

Lemma subseq_refl {A} (l : list A) : subseq l l.
Proof. induction l; [apply sq_nil|now apply sq_take]. Qed.
Lemma subseq_snoc {A} (a b : list A) x : subseq a b -> subseq (a ++ [x]) (b ++ [x]).
Proof.
  induction 1; cbn; [|now apply sq_skip|now apply sq_take].
  induction l; cbn; [apply sq_take, sq_nil|now apply sq_skip].
Qed.
Lemma subseq_skip_last {A} (a b : list A) x : subseq a b -> subseq a (b ++ [x]).
Proof. induction 1; cbn; [apply sq_nil|now apply sq_skip|now apply sq_take]. Qed.
Lemma subseq_nth {A} (a b : list A) : subseq a b -> forall i x, nth_error a i = Some x ->
  exists j, nth_error b j = Some x /\ subseq (drop_nth i a) (drop_nth j b).
Proof.
  induction 1; intros i y H'.
  - destruct i; discriminate.
  - destruct (IHsubseq _ _ H') as (j & J & Q). exists (S j). split; auto. now apply sq_skip.
  - destruct i; cbn in H'.
    + injection H' as <-. exists 0%nat. split; auto.
    + destruct (IHsubseq _ _ H') as (j & J & Q). exists (S j). split; auto. now apply sq_take.
Qed.
Lemma subseq_incl {A} (a b : list A) : subseq a b -> incl a b.
Proof.
  induction 1; intros y Y; [destruct Y|right; auto|destruct Y as [<-|Y]; [left; auto|right; auto]].
Qed.

Lemma upd_last {A} (f : A -> A) l x : upd_nth (length l) f (l ++ [x]) = l ++ [f x].
Proof. induction l; cbn; congruence. Qed.
Lemma nth_last {A} (l : list A) x : nth_error (l ++ [x]) (length l) = Some x.
Proof. induction l; cbn; auto. Qed.
Lemma pred_snoc {A} (l : list A) x : pred (length (l ++ [x])) = length l.
Proof. rewrite app_length. cbn. lia. Qed.
Lemma map_drop {A B} (f : A -> B) l : forall i, map f (drop_nth i l) = drop_nth i (map f l).
Proof. induction l; destruct i; cbn; congruence. Qed.
Lemma map_upd_same {A B} (f : A -> B) g (l : list A) : (forall x, f (g x) = f x) -> forall i, map f (upd_nth i g l) = map f l.
Proof. intro H. induction l; destruct i; cbn; f_equal; auto. Qed.

Lemma cut_concat l : cut (concat l) l.
Proof. now left. Qed.
Lemma cut_fail l f k : cut (concat l ++ takeN k f) (l ++ [f]).
Proof. right. exists l, f, (takeN k f), (dropN k f). repeat split. symmetry. apply firstn_skipn. Qed.
Lemma concat_snoc (l : list bytes) f : concat (l ++ [f]) = concat l ++ f.
Proof. rewrite concat_app. cbn. now rewrite app_nil_r. Qed.

(* ---- after the import: the state of M_Usbip *)
Definition plain_sub (x : nat * header * bytes) : header * bytes := (snd (fst x), snd x).
Definition bool_nat (b : bool) : nat := if b then 1%nat else 0%nat.
Definition writers (n : net) : nat :=
  bool_nat (match ne_job n with Some j => jb_writing j | None => false end) + length (filter snd (ne_calls n)).

Definition keys_ok (s : sys) : Prop := let i := sy_in s in
  length (sy_subs s) = in_next i /\
  Forall (fun x => (snd x < in_next i)%nat) (rb_waiting (in_buf i)) /\
  Forall (fun x => (snd x < in_next i)%nat) (in_timers i) /\
  Forall (fun f => (fl_key f < in_next i)%nat) (in_flight i).

(* the part that belongs to the goroutine of the server *)
Definition reader_rel (n : net) (s : sys) : Prop :=
  match ne_job n with
  | Some (mk_job f _ (Some (id, k)) _) =>
    (* Request is running: M_Usbip has not made that step yet *)
    exists d h setup buffer data,
      conn_step [usb_device] (sy_conn s) = (ne_conn n, ASubmit d h setup buffer) /\ hd_ep h = 1 /\
      rb_request (in_buf (sy_in s)) (hd_seq h) (in_next (sy_in s)) = (ne_buf n, Some data) /\
      id = hd_seq h /\ k = in_next (sy_in s) /\ ne_next n = S k /\
      map plain_sub (ne_subs n) = sy_subs s ++ [(h, buffer)] /\
      f = return_submit h buffer (Some data) /\ sy_pending s = None
  | j =>
    sy_conn s = ne_conn n /\ in_buf (sy_in s) = ne_buf n /\ in_next (sy_in s) = ne_next n /\
    map plain_sub (ne_subs n) = sy_subs s /\ sy_pending s = option_map jb_frame j
  end.

(* [bad]: a write failed on the connection *)
Definition sent_rel (n : net) (L : link) (s : sys) (bad : bool) : Prop :=
  if bad then lk_locked L = true /\ writers n = 0%nat /\ cut (lk_sent L) (sy_out s)
  else lk_sent L = concat (sy_out s) /\ writers n = bool_nat (lk_locked L).

Definition com (n : net) (s : sys) (bad : bool) : Prop := exists old L,
  ne_links n = old ++ [L] /\ Forall (fun x => fst (fst x) = length old) (ne_subs n) /\
  (exists d, cn_phase (ne_conn n) = Commands d) /\
  match ne_job n with Some j => jb_inner j = true | None => True end /\
  subseq (ne_timers n) (in_timers (sy_in s)) /\ in_flight (sy_in s) = map fst (ne_calls n) /\
  sy_delegate s = ne_delegate n /\ keys_ok s /\ reader_rel n s /\ sent_rel n L s bad.

Definition did (l : net_label) (ls : list sys_label) : Prop := produced ls = net_produced [l].
Definition links_kept (n n' : net) : Prop := exists old L L', ne_links n = old ++ [L] /\ ne_links n' = old ++ [L'] /\ lk_input L' = lk_input L.

Lemma commands_phase devices d s : exists s', fst (conn_step devices (mk_conn (Commands d) s)) = mk_conn (Commands d) s'.
Proof.
  unfold conn_step. cbn [cn_phase cn_stream].
  destruct (read_full 20 s) as [[b s1]|]; [|cbn; eauto].
  destruct (hd_command (parse_header b) =? 1).
  - destruct (read_submit (parse_header b) s1) as [[[bd bu] s2]|]; cbn; eauto.
  - destruct (hd_command (parse_header b) =? 2); [|cbn; eauto].
    destruct (read_full 28 s1) as [[u s2]|]; cbn; eauto.
Qed.

Lemma filter_upd (l : list (inflight * bool)) : forall i f, nth_error l i = Some (f, false) ->
  length (filter snd (upd_nth i (fun x => (fst x, true)) l)) = S (length (filter snd l)).
Proof.
  induction l as [|[g b] r IH]; intros [|i] f H; try discriminate; cbn in H.
  - injection H as <- ->. cbn. auto.
  - cbn. destruct b; cbn; rewrite (IH i f H); auto.
Qed.
Lemma filter_drop (l : list (inflight * bool)) : forall i f, nth_error l i = Some (f, true) ->
  length (filter snd l) = S (length (filter snd (drop_nth i l))).
Proof.
  induction l as [|[g b] r IH]; intros [|i] f H; try discriminate; cbn in H.
  - injection H as <- ->. cbn. auto.
  - cbn. destruct b; cbn; rewrite (IH i f H); auto.
Qed.

Definition is_fail (l : net_label) : bool := match l with NFail _ => true | _ => false end.
Definition follows (n : net) (s : sys) (bad : bool) (l : net_label) (n' : net) : Prop :=
  exists ls s', sys_run s ls = Some s' /\ com n' s' (bad || is_fail l) /\ did l ls /\ links_kept n n'.

Lemma forall_lt_S {A} (g : A -> nat) l k : Forall (fun x => (g x < k)%nat) l -> Forall (fun x => (g x < S k)%nat) l.
Proof. intro H. eapply Forall_impl; [|exact H]. cbn. intros; lia. Qed.
Lemma forall_delete id k w : Forall (fun x : N * nat => (snd x < k)%nat) w -> Forall (fun x => (snd x < k)%nat) (map_delete id w).
Proof. intro H. apply Forall_forall. intros x X. apply in_delete in X. rewrite Forall_forall in H. apply H, X. Qed.
Lemma forall_drop {A} (P : A -> Prop) l i : Forall P l -> Forall P (drop_nth i l).
Proof. intro H. apply Forall_forall. intros x X. apply drop_nth_in in X. rewrite Forall_forall in H. now apply H. Qed.

Lemma cancel_keys b id b' r k : rb_cancel b id = (b', r) -> Forall (fun x => (snd x < k)%nat) (rb_waiting b) ->
  Forall (fun x => (snd x < k)%nat) (rb_waiting b').
Proof.
  unfold rb_cancel. destruct (map_has id (rb_waiting b)); intros H F; injection H as <- <-; auto.
  cbn. now apply forall_delete.
Qed.

Lemma com_read n s bad n' : com n s bad -> net_step n NRead = Some (NUp n') -> follows n s bad NRead n'.
Proof.
  intros (old & L & HL & HS & (ph & HP) & HI & HT & HF & HD & (K1 & K2 & K3 & K4) & HR & HW) H.
  destruct n as [links c job buf next timers subs calls del].
  destruct s as [sc [ib ifl it inx itr] ss sp sd so slog].
  cbn in *. unfold reader_rel in HR. cbn in HR.
  destruct job; [discriminate|]. destruct HR as (-> & -> & -> & R4 & ->). subst ss sd ifl.
  destruct c as [p st]. cbn in HP. subst p. cbn [cn_phase] in H.
  destruct (conn_step [usb_device] (mk_conn (Commands ph) st)) as [c a] eqn:Ec.
  assert (exists d, cn_phase c = Commands d) as HP'.
  { destruct (commands_phase [usb_device] ph st) as [s' E]. rewrite Ec in E. cbn in E. subst c. exists ph. reflexivity. }
  assert (links_kept (mk_net links (mk_conn (Commands ph) st) None buf next timers subs calls del) n') as LK.
  { exists old, L, L. cbn. split; auto. split; auto.
    injection H as <-. destruct a; cbn; auto.
    - destruct (hd_ep h =? 0); [destruct (handle_control_message _); auto|].
      destruct (hd_ep h =? 1); [destruct (rb_request _ _ _) as [? []]; auto|]. destruct (hd_ep h =? 2); auto.
    - destruct (rb_cancel _ _); auto. }
  unfold follows. cbn [is_fail]. rewrite orb_false_r.
  assert (forall pend del' log', (match pend with Some f => n' = mk_net links c (Some (mk_job f true None false)) buf next timers subs calls del'
      | None => n' = mk_net links c None buf next timers subs calls del' end) ->
    sys_step (mk_sys (mk_conn (Commands ph) st) (mk_in buf (map fst calls) it next itr) (map plain_sub subs) None del so slog) SRead =
      Some (mk_sys c (mk_in buf (map fst calls) it next itr) (map plain_sub subs) pend del' so log') ->
    exists ls s', sys_run (mk_sys (mk_conn (Commands ph) st) (mk_in buf (map fst calls) it next itr) (map plain_sub subs) None del so slog) ls = Some s' /\
      com n' s' bad /\ did NRead ls /\ links_kept (mk_net links (mk_conn (Commands ph) st) None buf next timers subs calls del) n') as Simple.
  { intros pend del' log' Hn Hs. exists [SRead]. eexists. split; [cbn [sys_run]; rewrite Hs; reflexivity|].
    split; [|split; [reflexivity|exact LK]].
    exists old, L. destruct pend; subst n'; cbn; unfold reader_rel, keys_ok; cbn; repeat split; auto;
      unfold sent_rel, writers in *; cbn in *; destruct bad; intuition. }
  injection H as Hn. cbn [sys_step sy_pending sy_conn] in Simple. rewrite Ec in Simple.
  destruct a as [|r|d h setup buffer|d h target].
  - eapply (Simple None); eauto.
  - eapply (Simple (Some r)); eauto.
  - destruct (hd_ep h =? 0) eqn:E0.
    { destruct (handle_control_message (read_setup setup)) as [r|] eqn:Eh.
      - eapply (Simple (Some _)); eauto.
      - eapply (Simple None); eauto. }
    destruct (hd_ep h =? 1) eqn:E1.
    + clear Simple. destruct (rb_request buf (hd_seq h) next) as [b now] eqn:Er. destruct now as [data|].
      * exists [], (mk_sys (mk_conn (Commands ph) st) (mk_in buf (map fst calls) it next itr) (map plain_sub subs) None del so slog).
        split; [reflexivity|]. split; [|split; [reflexivity|exact LK]].
        exists old, L. subst n'. cbn. split; auto. split.
        { apply Forall_app. split; auto. constructor; auto. cbn. unfold current. cbn. rewrite HL. apply pred_snoc. }
        split; [exact HP'|]. split; auto. split; auto. split; auto. split; auto. split; [repeat split; auto|].
        split; [|unfold sent_rel, writers in *; cbn in *; destruct bad; intuition].
        unfold reader_rel. cbn. exists d, h, setup, buffer, data. split; auto. apply N.eqb_eq in E1.
        repeat split; auto. rewrite map_app. reflexivity.
      * exists [SRead]. eexists. split; [cbn [sys_run sys_step sy_pending sy_conn sy_in in_buf in_next]; rewrite Ec, E0, E1, Er; cbn [in_step in_buf in_next]; rewrite Er; reflexivity|].
        split; [|split; [reflexivity|exact LK]].
        assert (rb_waiting b = (hd_seq h, next) :: map_delete (hd_seq h) (rb_waiting buf)) as Eb.
        { unfold rb_request in Er. destruct (rb_responses buf); [injection Er as <-; reflexivity|discriminate]. }
        exists old, L. subst n'. cbn. split; auto. split.
        { apply Forall_app. split; auto. constructor; auto. cbn. unfold current. cbn. rewrite HL. apply pred_snoc. }
        split; [exact HP'|]. split; auto. split; [now apply subseq_snoc|]. split; auto. split; auto. split.
        { unfold keys_ok. cbn. rewrite app_length. cbn. split; [lia|]. split.
          - rewrite Eb. constructor; [cbn; lia|]. apply forall_delete. now apply forall_lt_S.
          - split; [|now apply forall_lt_S]. apply Forall_app. split; [now apply forall_lt_S|]. constructor; auto. }
        split.
        { unfold reader_rel. cbn. repeat split; auto. rewrite map_app. reflexivity. }
        rewrite app_nil_r. unfold sent_rel, writers in *; cbn in *; destruct bad; intuition.
    + destruct (hd_ep h =? 2) eqn:E2.
      * eapply (Simple (Some _)); eauto.
      * eapply (Simple None); eauto.
  - clear Simple. destruct (rb_cancel buf target) as [b removed] eqn:Er.
    exists [SRead]. eexists. split; [cbn [sys_run sys_step sy_pending sy_conn sy_in in_buf in_next in_step]; rewrite Ec, Er; reflexivity|].
    split; [|split; [reflexivity|exact LK]].
    exists old, L. subst n'. cbn. split; auto. split; auto. split; auto. split; auto. split; auto. split; auto. split; auto.
    split; [unfold keys_ok; cbn; repeat split; auto; eapply cancel_keys; eauto|].
    split; [unfold reader_rel; cbn; repeat split; auto|].
    unfold sent_rel, writers in *; cbn in *; destruct bad; intuition.
Qed.

Lemma current_last n old L : ne_links n = old ++ [L] -> current n = length old.
Proof. unfold current. intros ->. apply pred_snoc. Qed.
Lemma lock_links n old L : ne_links n = old ++ [L] -> ne_links (lock (length old) n) = old ++ [mk_link (lk_input L) true (lk_sent L)].
Proof. intro H. unfold lock. cbn [ne_links with_links]. now rewrite H, upd_last. Qed.
Lemma wrote_links n old L b : ne_links n = old ++ [L] -> ne_links (wrote (length old) b n) = old ++ [mk_link (lk_input L) (lk_locked L) (lk_sent L ++ b)].
Proof. intro H. unfold wrote. cbn [ne_links with_links]. now rewrite H, upd_last. Qed.
Lemma done_links n old L b : ne_links n = old ++ [L] ->
  ne_links (unlock (length old) (wrote (length old) b n)) = old ++ [mk_link (lk_input L) false (lk_sent L ++ b)].
Proof. intro H. unfold unlock. cbn [ne_links with_links]. rewrite (wrote_links n old L b H), upd_last. reflexivity. Qed.

Lemma sub_at n s bad f : com n s bad -> In f (map fst (ne_calls n)) ->
  exists old L h b, ne_links n = old ++ [L] /\ nth_error (sy_subs s) (fl_key f) = Some (h, b) /\
    call_reply n f = Some (length old, return_submit h b (fl_value f)).
Proof.
  intros (old & L & HL & HS & _ & _ & _ & HF & _ & (K1 & _ & _ & K4) & HR & _) I.
  rewrite HF, Forall_forall in K4. specialize (K4 _ I). rewrite <- K1 in K4.
  destruct (nth_error (sy_subs s) (fl_key f)) as [[h b]|] eqn:E; [|apply nth_error_None in E; lia].
  exists old, L, h, b. split; auto. split; auto.
  assert (nth_error (map plain_sub (ne_subs n)) (fl_key f) = Some (h, b)) as P.
  { unfold reader_rel in HR. destruct (ne_job n) as [[fr inn [[id k]|] wr]|].
    - destruct HR as (d & h' & st & bu & da & _ & _ & _ & _ & _ & _ & M & _). rewrite M. now rewrite nth_error_app1.
    - destruct HR as (_ & _ & _ & M & _). now rewrite M.
    - destruct HR as (_ & _ & _ & M & _). now rewrite M. }
  rewrite nth_error_map in P. unfold call_reply.
  destruct (nth_error (ne_subs n) (fl_key f)) as [[[c h'] b']|] eqn:Es; [|discriminate].
  cbn in P. injection P as -> ->. apply nth_error_In in Es. rewrite Forall_forall in HS. apply HS in Es. cbn in Es. now subst c.
Qed.

Lemma com_lock n s bad n' : com n s bad -> net_step n NLock = Some (NUp n') -> follows n s bad NLock n'.
Proof.
  intros (old & L & HL & HS & HP & HI & HT & HF & HD & HK & HR & HW) H.
  cbn [net_step] in H. destruct (ne_job n) as [[fr inn rq wr]|] eqn:Ej; [|discriminate]. cbn [obind jb_writing jb_frame jb_inner jb_request] in H.
  destruct wr; [discriminate|]. unfold is_free in H. rewrite (current_last _ _ _ HL), HL, nth_last in H.
  destruct (lk_locked L) eqn:El; [discriminate|]. cbn [andb negb] in H. injection H as <-.
  exists [], s. split; [reflexivity|]. split; [|split; [reflexivity|]].
  - exists old, (mk_link (lk_input L) true (lk_sent L)). split; [exact (lock_links n old L HL)|]. cbn.
    split; auto. split; auto. split; auto. split; auto. split; auto. split; auto. split; auto.
    split; [unfold reader_rel in *; rewrite Ej in HR; cbn in *; exact HR|].
    rewrite orb_false_r. unfold sent_rel, writers in *. rewrite Ej in HW. cbn in *. destruct bad; [destruct HW; congruence|].
    destruct HW as [W1 W2]. split; auto. rewrite El in W2. cbn in W2. rewrite W2. reflexivity.
  - exists old, L, (mk_link (lk_input L) true (lk_sent L)). split; auto. split; [exact (lock_links n old L HL)|reflexivity].
Qed.

(* the step of M_Usbip that writes the reply of the server *)
Lemma reply_step n s j old : ne_job n = Some j -> keys_ok s -> reader_rel n s ->
  Forall (fun x => fst (fst x) = old) (ne_subs n) ->
  exists l s', sys_step s l = Some s' /\ produced [l] = [] /\ sy_out s' = sy_out s ++ [jb_frame j] /\
    sy_conn s' = ne_conn n /\ in_buf (sy_in s') = ne_buf n /\ in_next (sy_in s') = ne_next n /\
    map plain_sub (ne_subs n) = sy_subs s' /\ sy_pending s' = None /\ sy_delegate s' = sy_delegate s /\
    in_flight (sy_in s') = in_flight (sy_in s) /\ in_timers (sy_in s') = in_timers (sy_in s) ++ opt_list (jb_request j) /\ keys_ok s'.
Proof.
  intros Ej HK HR HS. unfold reader_rel in HR. rewrite Ej in HR.
  destruct s as [sc [ib ifl it inx itr] ss sp sd so slog]. destruct j as [fr inn [[id k]|] wr]; cbn in HR.
  - destruct HR as (d & h & st & bu & da & Ec & Ep & Er & -> & -> & Nx & M & -> & ->). exists SRead.
    eexists. split.
    { cbn [sys_step sy_pending sy_conn sy_in in_buf in_next in_step]. rewrite Ec.
      apply N.eqb_eq in Ep. rewrite Ep. apply N.eqb_eq in Ep. rewrite Ep. cbn [N.eqb]. rewrite Er. reflexivity. }
    cbn. repeat split; auto; unfold keys_ok in *; cbn in *; destruct HK as (K1 & K2 & K3 & K4).
    + rewrite app_length. cbn. lia.
    + unfold rb_request in Er. destruct (rb_responses ib); [discriminate|]. injection Er as <- _. cbn. now apply forall_lt_S.
    + apply Forall_app. split; [now apply forall_lt_S|]. constructor; auto.
    + now apply forall_lt_S.
  - destruct HR as (-> & -> & -> & M & ->). exists SWrite. eexists. split; [reflexivity|]. cbn. rewrite app_nil_r.
    repeat split; auto; apply HK.
Qed.

Lemma com_done n s bad n' : com n s bad -> net_step n NDone = Some (NUp n') -> follows n s bad NDone n'.
Proof.
  intros (old & L & HL & HS & HP & HI & HT & HF & HD & HK & HR & HW) H.
  cbn [net_step] in H. destruct (ne_job n) as [j|] eqn:Ej; [|discriminate]. cbn [obind] in H.
  destruct (jb_writing j) eqn:Ew; [|discriminate]. injection H as <-.
  assert (bad = false /\ lk_sent L = concat (sy_out s) /\ length (filter snd (ne_calls n)) = 0%nat) as (-> & W1 & W2).
  { unfold sent_rel, writers in HW. rewrite Ej, Ew in HW. cbn in HW. destruct bad; [destruct HW as (_ & X & _); exfalso; lia|].
    destruct HW as [W1 W2]. split; auto. split; auto. destruct (lk_locked L); cbn in W2; lia. }
  destruct (reply_step n s j (length old) Ej HK HR HS) as (l & s' & St & Pr & Out & C & B & Nx & Sb & Pe & De & Fl & Ti & K').
  exists [l], s'. split; [cbn; rewrite St; reflexivity|]. split; [|split; [exact Pr|]].
  - exists old, (mk_link (lk_input L) false (lk_sent L ++ jb_frame j)).
    rewrite (current_last _ _ _ HL). split; [exact (done_links n old L _ HL)|]. cbn.
     split; auto. split; auto. split; auto. split.
    { rewrite Ti. destruct (jb_request j); cbn; [now apply subseq_snoc|now rewrite !app_nil_r]. }
    split; [congruence|]. split; [congruence|]. split; auto. split; [unfold reader_rel; cbn; auto 10|].
    cbn. split; [rewrite Out, concat_snoc; congruence|]. unfold writers. cbn. exact W2.
  - exists old, L. eexists. split; auto. rewrite (current_last _ _ _ HL).
    split; [exact (done_links n old L _ HL)|reflexivity].
Qed.

Lemma com_fail n s bad k n' : com n s bad -> net_step n (NFail k) = Some (NUp n') -> follows n s bad (NFail k) n'.
Proof.
  intros (old & L & HL & HS & HP & HI & HT & HF & HD & HK & HR & HW) H.
  cbn [net_step] in H. destruct (ne_job n) as [j|] eqn:Ej; [|discriminate]. cbn [obind] in H.
  destruct (jb_writing j) eqn:Ew; [|discriminate]. rewrite HI in H.
  destruct (can_fail k (jb_frame j)); [|discriminate]. cbn [andb] in H. injection H as <-.
  assert (bad = false /\ lk_sent L = concat (sy_out s) /\ lk_locked L = true /\ length (filter snd (ne_calls n)) = 0%nat) as (-> & W1 & W3 & W2).
  { unfold sent_rel, writers in HW. rewrite Ej, Ew in HW. cbn in HW. destruct bad; [destruct HW as (_ & X & _); exfalso; lia|].
    destruct HW as [W1 W2]. destruct (lk_locked L); cbn in W2; [|discriminate]. repeat split; auto; lia. }
  destruct (reply_step n s j (length old) Ej HK HR HS) as (l & s' & St & Pr & Out & C & B & Nx & Sb & Pe & De & Fl & Ti & K').
  exists [l], s'. split; [cbn; rewrite St; reflexivity|]. split; [|split; [exact Pr|]].
  - exists old, (mk_link (lk_input L) (lk_locked L) (lk_sent L ++ takeN k (jb_frame j))).
    rewrite (current_last _ _ _ HL). split; [exact (wrote_links n old L _ HL)|]. cbn.
     split; auto. split; auto. split; auto. split.
    { rewrite Ti. destruct (jb_request j); cbn; [now apply subseq_skip_last|now rewrite app_nil_r]. }
    split; [congruence|]. split; [congruence|]. split; auto. split; [unfold reader_rel; cbn; auto 10|].
    cbn. split; auto. split; [unfold writers; cbn; exact W2|]. rewrite W1, Out. apply cut_fail.
  - exists old, L. eexists. split; auto. rewrite (current_last _ _ _ HL). split; [exact (wrote_links n old L _ HL)|reflexivity].
Qed.

Lemma com_call n s bad i n' : com n s bad -> net_step n (NCall i) = Some (NUp n') -> follows n s bad (NCall i) n'.
Proof.
  intros HC H. cbn [net_step] in H. destruct (nth_error (ne_calls n) i) as [[f []]|] eqn:Ei; try discriminate.
  assert (In f (map fst (ne_calls n))) as I by (apply nth_error_In in Ei; now apply (in_map fst) in Ei).
  destruct (sub_at n s bad f HC I) as (old' & L' & h & b & HL' & Es & Ec). rewrite Ec in H. cbn [obind] in H.
  destruct HC as (old & L & HL & HS & HP & HI & HT & HF & HD & HK & HR & HW).
  rewrite HL' in HL. apply app_inj_tail in HL as [-> ->]. unfold is_free in H. rewrite HL', nth_last in H.
  destruct (lk_locked L) eqn:El; [discriminate|]. cbn [negb] in H. injection H as <-.
  exists [], s. split; [reflexivity|]. split; [|split; [reflexivity|]].
  - exists old, (mk_link (lk_input L) true (lk_sent L)). split; [exact (lock_links n old L HL')|]. cbn.
    split; auto. split; auto. split; auto. split; auto.
    split; [rewrite HF; symmetry; apply map_upd_same; reflexivity|]. split; auto. split; auto.
    split; [exact HR|].
    rewrite orb_false_r. unfold sent_rel, writers in *. cbn. destruct bad; [destruct HW; congruence|].
    destruct HW as [W1 W2]. split; auto. rewrite (filter_upd _ _ _ Ei). rewrite El in W2. cbn in W2. lia.
  - exists old, L, (mk_link (lk_input L) true (lk_sent L)). split; auto. split; [exact (lock_links n old L HL')|reflexivity].
Qed.

Lemma com_call_done n s bad i n' : com n s bad -> net_step n (NCallDone i) = Some (NUp n') -> follows n s bad (NCallDone i) n'.
Proof.
  intros HC H. cbn [net_step] in H. destruct (nth_error (ne_calls n) i) as [[f []]|] eqn:Ei; try discriminate.
  assert (In f (map fst (ne_calls n))) as I by (apply nth_error_In in Ei; now apply (in_map fst) in Ei).
  destruct (sub_at n s bad f HC I) as (old' & L' & h & b & HL' & Es & Ec). rewrite Ec in H. cbn [obind] in H.
  destruct HC as (old & L & HL & HS & HP & HI & HT & HF & HD & HK & HR & HW).
  rewrite HL' in HL. apply app_inj_tail in HL as [-> ->]. injection H as <-.
  pose proof (filter_drop _ _ _ Ei) as Fd.
  assert (bad = false /\ lk_sent L = concat (sy_out s) /\ match ne_job n with Some j => jb_writing j | None => false end = false /\
    length (filter snd (drop_nth i (ne_calls n))) = 0%nat) as (-> & W1 & W3 & W2).
  { unfold sent_rel, writers in HW. rewrite Fd in HW. destruct bad; [destruct HW as (_ & X & _); lia|].
    destruct HW as [W1 W2]. split; auto. split; auto. destruct (ne_job n) as [j|]; [destruct (jb_writing j)|];
      destruct (lk_locked L); cbn in W2; split; auto; lia. }
  assert (nth_error (in_flight (sy_in s)) i = Some f) as Ef by (rewrite HF, nth_error_map, Ei; reflexivity).
  exists [SRun i]. eexists. split.
  { cbn [sys_run sys_step]. rewrite Ef. cbn [obind]. rewrite Es. cbn [obind in_step]. rewrite Ef. reflexivity. }
  split; [|split; [reflexivity|]].
  - exists old, (mk_link (lk_input L) false (lk_sent L ++ return_submit h b (fl_value f))).
    split; [exact (done_links n old L _ HL')|]. cbn.
     split; auto. split; auto. split; auto. split; auto.
    split; [rewrite HF; symmetry; apply map_drop|]. split; auto.
    split; [destruct HK as (K1 & K2 & K3 & K4); repeat split; auto; cbn; now apply forall_drop|].
    split; [exact HR|].
    cbn. split; [rewrite W1; now rewrite concat_snoc|].
    unfold writers. cbn. rewrite W2. destruct (ne_job n) as [j|]; [rewrite W3|]; reflexivity.
  - exists old, L. eexists. split; auto. split; [exact (done_links n old L _ HL')|reflexivity].
Qed.

Lemma com_call_fail n s bad i k links : com n s bad -> net_step n (NCallFail i k) = Some (NGone links) ->
  exists s' old L L', sys_run s [SRun i] = Some s' /\ ne_links n = old ++ [L] /\ links = old ++ [L'] /\ lk_input L' = lk_input L /\
    cut (lk_sent L') (sy_out s').
Proof.
  intros HC H. cbn [net_step] in H. destruct (nth_error (ne_calls n) i) as [[f []]|] eqn:Ei; try discriminate.
  assert (In f (map fst (ne_calls n))) as I by (apply nth_error_In in Ei; now apply (in_map fst) in Ei).
  destruct (sub_at n s bad f HC I) as (old' & L' & h & b & HL' & Es & Ec). rewrite Ec in H. cbn [obind] in H.
  destruct HC as (old & L & HL & HS & HP & HI & HT & HF & HD & HK & HR & HW).
  rewrite HL' in HL. apply app_inj_tail in HL as [-> ->].
  destruct (can_fail k _); [|discriminate]. injection H as <-.
  pose proof (filter_drop _ _ _ Ei) as Fd.
  assert (bad = false /\ lk_sent L = concat (sy_out s)) as (-> & W1).
  { unfold sent_rel, writers in HW. rewrite Fd in HW. destruct bad; [destruct HW as (_ & X & _); lia|]. intuition. }
  assert (nth_error (in_flight (sy_in s)) i = Some f) as Ef by (rewrite HF, nth_error_map, Ei; reflexivity).
  eexists. exists old, L. eexists. split.
  { cbn [sys_run sys_step]. rewrite Ef. cbn [obind]. rewrite Es. cbn [obind in_step]. rewrite Ef. reflexivity. }
  split; auto. split; [exact (wrote_links n old L _ HL')|]. split; [reflexivity|].
  cbn. rewrite W1. apply cut_fail.
Qed.

Lemma filter_snoc (l : list (inflight * bool)) x : length (filter snd (l ++ [(x, false)])) = length (filter snd l).
Proof. rewrite filter_app, app_length. cbn. lia. Qed.

(* the buffer is only used when the server is not inside Request *)
Lemma free_reader n s : buf_free n = true -> reader_rel n s ->
  sy_conn s = ne_conn n /\ in_buf (sy_in s) = ne_buf n /\ in_next (sy_in s) = ne_next n /\
  map plain_sub (ne_subs n) = sy_subs s /\ sy_pending s = option_map jb_frame (ne_job n).
Proof.
  unfold buf_free, reader_rel. destruct (ne_job n) as [[fr inn [[id k]|] wr]|]; cbn; auto; discriminate.
Qed.
Lemma reader_set n n' s s' : ne_job n' = ne_job n -> buf_free n = true -> ne_conn n' = sy_conn s' -> in_buf (sy_in s') = ne_buf n' ->
  in_next (sy_in s') = ne_next n' -> map plain_sub (ne_subs n') = sy_subs s' -> sy_pending s' = option_map jb_frame (ne_job n') ->
  reader_rel n s -> reader_rel n' s'.
Proof.
  unfold buf_free, reader_rel. intros -> B. destruct (ne_job n) as [[fr inn [[id k]|] wr]|]; cbn in *; auto 10; discriminate.
Qed.

Lemma com_responds n s bad c d n' : com n s bad -> net_step n (NRespond c d) = Some (NUp n') ->
  exists s', sys_step s (SRespond c d) = Some s' /\ com n' s' bad /\ links_kept n n'.
Proof.
  intros (old & L & HL & HS & HP & HI & HT & HF & HD & (K1 & K2 & K3 & K4) & HR & HW) H.
  cbn [net_step] in H. destruct (buf_free n) eqn:Bf; [|discriminate].
  destruct (free_reader n s Bf HR) as (C & B & Nx & Sb & Pe).
  destruct (rb_respond (ne_buf n) c d) as [[b cb]|] eqn:Er; [|discriminate]. cbn [obind] in H. injection H as <-.
  eexists. split; [cbn [sys_step in_step obind]; rewrite B, Er; reflexivity|].
  assert (Forall (fun x => (snd x < in_next (sy_in s))%nat) (rb_waiting b) /\ match cb with Some k => (k < in_next (sy_in s))%nat | None => True end) as [Kb Kc].
  { rewrite B in K2. unfold rb_respond in Er. destruct (rb_waiting (ne_buf n)) as [|w0 ws] eqn:Ew.
    - injection Er as <- <-. cbn. auto.
    - rewrite <- Ew in *. destruct (nth_error (rb_waiting (ne_buf n)) c) as [[id k]|] eqn:En; [|discriminate]. injection Er as <- <-. cbn.
      split; [now apply forall_delete|]. apply nth_error_In in En. rewrite Forall_forall in K2. now apply K2 in En. }
  split; [|exists old, L, L; auto].
  exists old, L. cbn. split; auto. split; auto. split; auto. split; auto. split; auto.
  split; [rewrite HF, map_app; f_equal; destruct cb; reflexivity|]. split; auto.
  split.
  { unfold keys_ok. cbn. repeat split; auto. apply Forall_app. split; auto. destruct cb; auto. }
  split; [eapply reader_set; [| | | | | | |exact HR]; cbn; auto|].
  unfold sent_rel, writers in *. cbn.
  destruct cb; [rewrite filter_snoc|rewrite app_nil_r]; exact HW.
Qed.
Lemma com_respond n s bad c d n' : com n s bad -> net_step n (NRespond c d) = Some (NUp n') -> follows n s bad (NRespond c d) n'.
Proof.
  intros C H. destruct (com_responds n s bad c d n' C H) as (s' & S & C' & K). exists [SRespond c d], s'.
  cbn [sys_run is_fail]. rewrite S, orb_false_r. repeat split; auto.
Qed.

Lemma com_timeout n s bad i n' : com n s bad -> net_step n (NTimeout i) = Some (NUp n') -> follows n s bad (NTimeout i) n'.
Proof.
  intros (old & L & HL & HS & HP & HI & HT & HF & HD & (K1 & K2 & K3 & K4) & HR & HW) H.
  cbn [net_step] in H. destruct (buf_free n) eqn:Bf; [|discriminate].
  destruct (free_reader n s Bf HR) as (C & B & Nx & Sb & Pe).
  destruct (nth_error (ne_timers n) i) as [[id k]|] eqn:Et; [|discriminate]. cbn [obind] in H.
  destruct (rb_cancel (ne_buf n) id) as [b r] eqn:Er. injection H as <-.
  destruct (subseq_nth _ _ HT _ _ Et) as (j & Ej & Sq).
  exists [STimeout j]. eexists. split; [cbn [sys_run sys_step in_step obind]; rewrite Ej, B, Er; reflexivity|].
  split; [|split; [reflexivity|exists old, L, L; auto]].
  exists old, L. cbn. split; auto. split; auto. split; auto. split; auto. split; auto.
  split; [rewrite HF, map_app; f_equal; destruct r; reflexivity|]. split; auto.
  split.
  { unfold keys_ok. cbn. split; auto. split; [rewrite B in K2; eapply cancel_keys; eauto|]. split; [now apply forall_drop|].
    apply Forall_app. split; auto. destruct r; auto. constructor; auto. cbn. apply nth_error_In in Ej.
    rewrite Forall_forall in K3. now apply K3 in Ej. }
  split; [eapply reader_set; [| | | | | | |exact HR]; cbn; auto|].
  rewrite orb_false_r. unfold sent_rel, writers in *. cbn.
  destruct r; [rewrite filter_snoc|rewrite app_nil_r]; exact HW.
Qed.

Lemma com_accept n s bad x : com n s bad -> net_step n (NAccept x) = None.
Proof. intros (old & L & _ & _ & (d & P) & _). cbn [net_step]. now rewrite P. Qed.

Lemma com_step n s bad l n' : com n s bad -> net_step n l = Some (NUp n') -> follows n s bad l n'.
Proof.
  intros C H. destruct l.
  - now apply com_read.
  - now apply com_lock.
  - now apply com_done.
  - now apply com_fail.
  - now apply com_call.
  - now apply com_call_done.
  - cbn [net_step] in H. destruct (nth_error (ne_calls n) i) as [[f []]|]; try discriminate.
    destruct (call_reply n f) as [[c b]|]; [|discriminate]. cbn [obind] in H. destruct (can_fail k b); discriminate.
  - now apply com_respond.
  - now apply com_timeout.
  - rewrite (com_accept _ _ _ _ C) in H. discriminate.
Qed.

(* Only the failing write of a callback ends the process. *)
Lemma gone_by n l k : net_step n l = Some (NGone k) -> exists i b, l = NCallFail i b.
Proof.
  destruct l; cbn [net_step]; intro H; eauto.
  - destruct (ne_job n); [discriminate|]. destruct (conn_step _ _); discriminate.
  - destruct (ne_job n); [|discriminate]. cbn [obind] in H. destruct (_ && _); discriminate.
  - destruct (ne_job n); [|discriminate]. cbn [obind] in H. destruct (jb_writing _); discriminate.
  - destruct (ne_job n); [|discriminate]. cbn [obind] in H. destruct (_ && _); discriminate.
  - destruct (nth_error _ _) as [[f []]|]; try discriminate. destruct (call_reply n f) as [[c b]|]; [|discriminate]. cbn [obind] in H.
    destruct (is_free n c); discriminate.
  - destruct (nth_error _ _) as [[f []]|]; try discriminate. destruct (call_reply n f) as [[c b]|]; discriminate.
  - destruct (buf_free n); [|discriminate]. destruct (rb_respond _ _ _) as [[b c]|]; cbn [obind] in H; discriminate.
  - destruct (buf_free n); [|discriminate]. destruct (nth_error _ _) as [[id x]|]; [|discriminate]. cbn [obind] in H. destruct (rb_cancel _ _); discriminate.
  - destruct (cn_phase _); try discriminate. destruct (ne_job n); discriminate.
Qed.
