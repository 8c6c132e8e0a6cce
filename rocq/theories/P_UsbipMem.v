(* Proofs about what the USB/IP server holds and sends (C157). *)
From Verif Require Import Base M_Util M_Usb M_ReqBuf M_Usbip S_Usbip S_UsbipSys P_Usbip1 P_Usbip2 S_UsbipMem.
Open Scope N_scope.

(* ---- reading *)
Lemma read_full_consumes n : forall s b s', read_full n s = Some (b, s') ->
  len b = n /\ concat s = b ++ concat s'.
Proof.
  intros s. revert n. induction s as [|c s IH]; intros n b s'; cbn [read_full].
  - destruct (N.eqb_spec n 0) as [->|E]; [|discriminate]. intros [= <- <-]. auto.
  - destruct (N.eqb_spec n 0) as [->|E]; [intros [= <- <-]; auto|].
    destruct (N.ltb_spec n (len c)) as [L|L].
    + intros [= <- <-]. rewrite takeN_len. split; [lia|]. cbn [concat]. now rewrite app_assoc, takeN_dropN.
    + destruct (read_full (n - len c) s) as [[d r]|] eqn:R; cbn [obind]; [|discriminate].
      intros [= <- <-]. destruct (IH _ _ _ R) as (Q1 & Q2). rewrite len_app. split; [lia|].
      cbn [concat]. now rewrite Q2, app_assoc.
Qed.

Lemma read_once_consumes n : forall s b s', read_once n s = Some (b, s') -> exists c, concat s = b ++ c ++ concat s' /\ c = [].
Proof.
  induction s as [|c s IH]; intros b s'; cbn [read_once]; [discriminate|].
  destruct c as [|x c]; [intro H; destruct (IH _ _ H) as (d & Q & ->); exists []; auto|].
  intros [= <- <-]. exists []. split; [|reflexivity]. cbn [app].
  destruct (N.leb_spec (len (x :: c)) n) as [L|L]; cbn [concat].
  - now rewrite takeN_all by exact L.
  - now rewrite app_assoc, takeN_dropN.
Qed.

Lemma pad_len b n : len (pad b n) = N.of_nat n.
Proof. unfold len, pad. rewrite firstn_length, app_length. unfold zeros. rewrite repeat_length. lia. Qed.

Definition action_ok (a : action) : Prop :=
  match a with
  | AWrite r => len r <= 320
  | ASubmit _ _ _ b => len b < 4294967296
  | _ => True
  end.

Lemma zeros_len n : len (zeros n) = N.of_nat n.
Proof. unfold len, zeros. now rewrite repeat_length. Qed.

Lemma conn_consumes c c' a : wfb (concat (cn_stream c)) -> conn_step [usb_device] c = (c', a) ->
  wfb (concat (cn_stream c')) /\ action_ok a /\
  len (concat (cn_stream c')) + (match a with ANone => 0 | _ => 8 end) <= len (concat (cn_stream c)).
Proof.
  intros W E. unfold conn_step in E. destruct c as [p s]. cbn [cn_phase cn_stream] in *.
  assert (forall c : conn, (c, ANone) = (c', a) -> cn_stream c = [] -> wfb (concat (cn_stream c')) /\ action_ok a /\
    len (concat (cn_stream c')) + (match a with ANone => 0 | _ => 8 end) <= len (concat s)) as X.
  { clear E. intros c H Hs. injection H as H1 H2. subst c' a. rewrite Hs. split; [apply wfb_nil|]. split; [exact I|].
    change (len (concat ([] : stream))) with 0. lia. }
  destruct p as [|d|].
  - destruct (read_full 8 s) as [[h s1]|] eqn:R; [|now apply X in E].
    apply read_full_consumes in R as (R1 & R2). rewrite R2, len_app in *. apply wfb_app in W as [_ W].
    destruct (_ =? 32773); [injection E as <- <-; cbn [cn_stream action_ok]; split; [exact W|]; split; [vm_compute; discriminate|lia]|].
    destruct (_ =? 32771).
    + unfold util_read in E. destruct (read_once 32 s1) as [[dt s2]|] eqn:R3; cbn [obind] in E; [|apply X in E; [|reflexivity]; exact E].
      apply read_once_consumes in R3 as (x & R3 & ->). cbn [app] in R3. rewrite R3, len_app in *. apply wfb_app in W as [_ W].
      destruct (cstring (pad dt (N.to_nat 32))) as [busid|]; [|apply X in E; [|reflexivity]; exact E].
      destruct (get_device [usb_device] busid 0) as [[i d]|] eqn:G; injection E as <- <-; cbn [cn_stream action_ok].
      * split; [exact W|]. split; [|lia]. cbn [get_device] in G. destruct (bytes_eqb _ _); [|discriminate G]. injection G as <- <-. vm_compute. discriminate.
      * split; [exact W|]. split; [vm_compute; discriminate|lia].
    + injection E as <- <-. cbn [cn_stream action_ok]. split; [exact W|]. split; [exact I|lia].
  - destruct (read_full 20 s) as [[h s1]|] eqn:R; [|now apply X in E].
    apply read_full_consumes in R as (R1 & R2). rewrite R2, len_app in *. apply wfb_app in W as [_ W].
    destruct (hd_command (parse_header h) =? 1).
    + destruct (read_submit (parse_header h) s1) as [[[body buffer] s2]|] eqn:R3; [|apply X in E; [|reflexivity]; exact E].
      injection E as <- <-. cbn [cn_stream action_ok].
      unfold read_submit in R3. destruct (read_full 28 s1) as [[b s3]|] eqn:R4; cbn [obind] in R3; [|discriminate R3].
      apply read_full_consumes in R4 as (Q1 & Q2). rewrite Q2, len_app in *. apply wfb_app in W as [W1 W].
      assert (sb_length (parse_body b) < 4294967296) as B.
      { unfold parse_body. cbn [sb_length]. eapply N.lt_le_trans; [apply be_dec_bound, wfb_takeN, wfb_dropN, W1|].
        rewrite takeN_len, dropN_len, Q1. vm_compute. discriminate. }
      destruct ((hd_dir (parse_header h) =? 0) && (0 <? sb_length (parse_body b))).
      * destruct (read_once _ s3) as [[dt s4]|] eqn:R5; cbn [obind] in R3; [|discriminate R3]. injection R3 as <- <- <-.
        apply read_once_consumes in R5 as (x & R5 & ->). cbn [app] in R5. rewrite R5, len_app in *. apply wfb_app in W as [_ W].
        split; [exact W|]. split; [rewrite pad_len, N2Nat.id; exact B|lia].
      * injection R3 as <- <- <-. split; [exact W|]. split; [rewrite zeros_len, N2Nat.id; exact B|lia].
    + destruct (hd_command (parse_header h) =? 2).
      * destruct (read_full 28 s1) as [[u s2]|] eqn:R3; [|apply X in E; [|reflexivity]; exact E]. injection E as <- <-.
        apply read_full_consumes in R3 as (Q1 & Q2). rewrite Q2, len_app in *. apply wfb_app in W as [_ W].
        cbn [cn_stream action_ok]. split; [exact W|]. split; [exact I|lia].
      * injection E as <- <-. cbn [cn_stream action_ok]. split; [exact W|]. split; [exact I|lia].
  - injection E as <- <-. cbn [cn_stream action_ok]. split; [exact W|]. split; [exact I|lia].
Qed.

(* ---- waiting requests *)
Lemma map_delete_le id m : (length (map_delete id m) <= length m)%nat.
Proof. induction m as [|x m IH]; cbn; [lia|]. destruct (negb (fst x =? id)); cbn; unfold map_delete in IH; lia. Qed.
Lemma map_delete_lt id m : map_has id m = true -> (S (length (map_delete id m)) <= length m)%nat.
Proof.
  induction m as [|x m IH]; cbn; [discriminate|]. pose proof (map_delete_le id m) as L. unfold map_delete in *.
  destruct (fst x =? id); cbn; [lia|]. intro H. apply IH in H. cbn. lia.
Qed.
Lemma nth_has (m : list (N * nat)) i id k : nth_error m i = Some (id, k) -> map_has id m = true.
Proof. intro H. apply nth_error_In in H. apply existsb_exists. exists (id, k). split; [exact H|apply N.eqb_refl]. Qed.
Lemma in_delete id m x : In x (map_delete id m) -> In x m /\ fst x <> id.
Proof. unfold map_delete. rewrite filter_In. intros [H E]. split; [exact H|]. destruct (N.eqb_spec (fst x) id); [discriminate|assumption]. Qed.

Lemma drop_nth_len {A} i (l : list A) x : nth_error l i = Some x -> (S (length (drop_nth i l)) = length l)%nat.
Proof.
  revert i. induction l as [|y l IH]; intros [|i] H; try discriminate H; [reflexivity|]. cbn. f_equal. now apply IH.
Qed.
Lemma in_drop_nth {A} i (l : list A) x y : nth_error l i = Some x -> In y l -> y <> x -> In y (drop_nth i l).
Proof.
  revert i. induction l as [|z l IH]; intros [|i] H I Ne; try discriminate H; cbn [drop_nth].
  - injection H as ->. destruct I as [->|I]; [now destruct Ne|exact I].
  - destruct I as [->|I]; [now left|right]. now apply (IH i).
Qed.

Definition load (i : in_state) : nat := (length (in_flight i) + length (rb_waiting (in_buf i)))%nat.
Definition timed (i : in_state) : Prop := forall x, In x (rb_waiting (in_buf i)) -> In x (in_timers i).

Lemma in_step_load i l i' : timed i -> in_step i l = Some i' ->
  timed i' /\ match l with
              | ISubmit id => (load i' + (if snd (rb_request (in_buf i) id (in_next i)) then 1 else 0) <= S (load i))%nat
              | IRun _ => (S (load i') <= load i)%nat
              | _ => (load i' <= load i)%nat
              end.
Proof.
  intros T E. unfold load, timed in *. destruct l as [id|choice dt|j|j|id]; cbn [in_step] in E.
  - destruct (rb_request (in_buf i) id (in_next i)) as [b now] eqn:R. injection E as <-. cbn [in_flight in_buf in_timers snd].
    unfold rb_request in R. destruct (rb_responses (in_buf i)); injection R as <- <-; cbn [rb_waiting].
    + split.
      * intros x [<-|H]; apply in_or_app; [right; now left|left]. apply T. now apply in_delete in H.
      * pose proof (map_delete_le id (rb_waiting (in_buf i))). cbn [length]. lia.
    + split; [|lia]. intros x H. apply in_or_app. left. now apply T.
  - unfold rb_respond in E. destruct (rb_waiting (in_buf i)) as [|w ws] eqn:Q.
    + injection E as <-. cbn [in_flight in_buf in_timers rb_waiting]. rewrite app_nil_r. split; [easy|]. cbn. lia.
    + rewrite <- Q in E. destruct (nth_error (rb_waiting (in_buf i)) choice) as [[id k]|] eqn:C; [|discriminate E].
      injection E as <-. cbn [in_flight in_buf in_timers rb_waiting]. rewrite <- Q in *. rewrite app_length. cbn [length].
      split; [intros x H; apply T; now apply in_delete in H|].
      pose proof (map_delete_lt id _ (nth_has _ _ _ _ C)). lia.
  - destruct (nth_error (in_flight i) j) as [f|] eqn:F; [|discriminate E]. injection E as <-. cbn [in_flight in_buf in_timers].
    split; [exact T|]. pose proof (drop_nth_len _ _ _ F). lia.
  - destruct (nth_error (in_timers i) j) as [[id k]|] eqn:F; [|discriminate E].
    unfold rb_cancel in E. destruct (map_has id (rb_waiting (in_buf i))) eqn:H; injection E as <-; cbn [in_flight in_buf in_timers rb_waiting].
    + split.
      * intros x Hx. apply in_delete in Hx as [Hx Ne]. apply (in_drop_nth _ _ _ _ F); [now apply T|]. intros ->. now apply Ne.
      * rewrite app_length. pose proof (map_delete_lt _ _ H). cbn [length]. lia.
    + split; [|rewrite app_nil_r; lia].
      intros x Hx. apply (in_drop_nth _ _ _ _ F); [now apply T|]. intros ->.
      assert (map_has id (rb_waiting (in_buf i)) = true) as Y; [|congruence].
      apply existsb_exists. exists (id, k). split; [exact Hx|apply N.eqb_refl].
  - unfold rb_cancel in E. destruct (map_has id (rb_waiting (in_buf i))) eqn:H; injection E as <-; cbn [in_flight in_buf in_timers rb_waiting].
    + split; [intros x Hx; apply T; now apply in_delete in Hx|]. pose proof (map_delete_le id (rb_waiting (in_buf i))). lia.
    + split; [exact T|lia].
Qed.

(* ---- the invariant *)
Record mem (total : N) (s : sys) : Prop := {
  m_wf : wfb (concat (cn_stream (sy_conn s)));
  m_count : 8 * (len (sy_out s) + len (opt_list (sy_pending s)) + N.of_nat (load (sy_in s))) + len (concat (cn_stream (sy_conn s))) <= total;
  m_frames : Forall (fun f => len f < 48 + 4294967296) (sy_out s ++ opt_list (sy_pending s));
  m_subs : Forall (fun x => len (snd x) < 4294967296) (sy_subs s);
  m_timed : timed (sy_in s) }.

Lemma to_be_len s : len (to_be s) = N.of_nat (fold_right (fun f n => (fst f + n)%nat) 0%nat s).
Proof.
  unfold to_be. induction s as [|[w v] s IH]; [reflexivity|]. cbn [map concat fst snd fold_right]. rewrite len_app, IH, len_be. lia.
Qed.

Lemma return_submit_len h b r : len (return_submit h b r) = 48 + (if hd_dir h =? 1 then len b else 0).
Proof.
  unfold return_submit, reply_header. rewrite !len_app, !to_be_len. cbn [fold_right fst].
  assert (len (match r with Some r0 => takeN (len b) r0 ++ dropN (len r0) b | None => b end) = len b) as L.
  { destruct r as [r|]; [|reflexivity]. rewrite len_app, takeN_len, dropN_len. lia. }
  destruct (hd_dir h =? 1); [rewrite L; lia|change (len (@nil N)) with 0; lia].
Qed.

Lemma return_unlink_len h x : len (return_unlink h x) = 48.
Proof. unfold return_unlink, reply_header. rewrite !len_app, !to_be_len, zeros_len. cbn [fold_right fst]. lia. Qed.

Lemma sys_step_mem total s l s' : mem total s -> sys_step s l = Some s' -> mem total s'.
Proof.
  intros [W C F S T] E. destruct l as [| |choice dt|j|j]; cbn [sys_step] in E.
  - destruct (sy_pending s) as [p|] eqn:P; [discriminate E|]. cbn [opt_list] in C, F. rewrite len_nil in C. rewrite app_nil_r in F.
    destruct (conn_step [usb_device] (sy_conn s)) as [c a] eqn:Q.
    destruct (conn_consumes _ _ _ W Q) as (W' & A & L).
    destruct a as [|r|d h st b|d h target].
    + injection E as <-. constructor; cbn [sy_conn sy_in sy_subs sy_pending sy_out opt_list]; auto; [rewrite len_nil; lia|now rewrite app_nil_r].
    + injection E as <-. cbn [action_ok] in A. constructor; cbn [sy_conn sy_in sy_subs sy_pending sy_out opt_list]; auto; [rewrite len_cons, len_nil; lia|].
      apply Forall_app. split; [exact F|]. constructor; [lia|constructor].
    + cbn [action_ok] in A. assert (forall r, len (return_submit h b r) < 48 + 4294967296) as B.
      { intro r. rewrite return_submit_len. destruct (hd_dir h =? 1); lia. }
      destruct (hd_ep h =? 0).
      * destruct (handle_control_message (read_setup st)) as [r|]; injection E as <-;
          constructor; cbn [sy_conn sy_in sy_subs sy_pending sy_out opt_list]; auto; try (rewrite ?len_cons, len_nil; lia).
        -- apply Forall_app. split; [exact F|]. constructor; [apply B|constructor].
        -- now rewrite app_nil_r.
      * destruct (hd_ep h =? 1).
        { destruct (in_step (sy_in s) (ISubmit (hd_seq h))) as [i|] eqn:I; cbn [obind] in E; [|discriminate E].
          destruct (in_step_load _ _ _ T I) as (T' & L'). injection E as <-.
          constructor; cbn [sy_conn sy_in sy_subs sy_pending sy_out opt_list]; auto.
          - rewrite len_app, len_nil. destruct (snd (rb_request _ _ _)); [rewrite len_cons, len_nil|rewrite len_nil]; lia.
          - rewrite app_nil_r. apply Forall_app. split; [exact F|]. destruct (snd (rb_request _ _ _)); [|constructor]. constructor; [apply B|constructor].
          - apply Forall_app. split; [exact S|]. constructor; [exact A|constructor]. }
        destruct (hd_ep h =? 2); injection E as <-; constructor; cbn [sy_conn sy_in sy_subs sy_pending sy_out opt_list]; auto; try (rewrite ?len_cons, len_nil; lia).
        -- apply Forall_app. split; [exact F|]. constructor; [apply B|constructor].
        -- now rewrite app_nil_r.
    + destruct (in_step (sy_in s) (IUnlink target)) as [i|] eqn:I; cbn [obind] in E; [|discriminate E].
      destruct (in_step_load _ _ _ T I) as (T' & L'). injection E as <-.
      constructor; cbn [sy_conn sy_in sy_subs sy_pending sy_out opt_list]; auto; [rewrite len_cons, len_nil; lia|].
      apply Forall_app. split; [exact F|]. constructor; [rewrite return_unlink_len; lia|constructor].
  - destruct (sy_pending s) as [p|] eqn:P; [|discriminate E]. injection E as <-. cbn [opt_list] in C, F. rewrite len_cons, len_nil in C.
    constructor; cbn [sy_conn sy_in sy_subs sy_pending sy_out opt_list]; auto; [rewrite len_app, len_cons, !len_nil; lia|now rewrite app_nil_r].
  - destruct (in_step (sy_in s) (IRespond choice dt)) as [i|] eqn:I; cbn [obind] in E; [|discriminate E].
    destruct (in_step_load _ _ _ T I) as (T' & L'). injection E as <-.
    constructor; cbn [sy_conn sy_in sy_subs sy_pending sy_out opt_list]; auto. lia.
  - destruct (nth_error (in_flight (sy_in s)) j) as [f|] eqn:Q1; cbn [obind] in E; [|discriminate E].
    destruct (nth_error (sy_subs s) (fl_key f)) as [[h b]|] eqn:Q2; cbn [obind] in E; [|discriminate E].
    destruct (in_step (sy_in s) (IRun j)) as [i|] eqn:I; cbn [obind] in E; [|discriminate E].
    destruct (in_step_load _ _ _ T I) as (T' & L'). injection E as <-.
    constructor; cbn [sy_conn sy_in sy_subs sy_pending sy_out opt_list]; auto.
    + rewrite len_app, len_cons, len_nil. lia.
    + apply Forall_app in F as [F1 F2]. apply Forall_app. split; [|exact F2]. apply Forall_app. split; [exact F1|]. constructor; [|constructor].
      apply nth_error_In in Q2. pose proof (proj1 (Forall_forall _ _) S _ Q2) as B. cbn [snd] in B.
      rewrite return_submit_len. destruct (hd_dir h =? 1); lia.
  - destruct (in_step (sy_in s) (ITimeout j)) as [i|] eqn:I; cbn [obind] in E; [|discriminate E].
    destruct (in_step_load _ _ _ T I) as (T' & L'). injection E as <-.
    constructor; cbn [sy_conn sy_in sy_subs sy_pending sy_out opt_list]; auto. lia.
Qed.

Lemma sys_run_mem total : forall ls s s', mem total s -> sys_run s ls = Some s' -> mem total s'.
Proof.
  induction ls as [|l ls IH]; intros s s' M R; cbn [sys_run] in R; [now injection R as <-|].
  destruct (sys_step s l) as [t|] eqn:E; cbn [obind] in R; [|discriminate R]. apply (IH t); [|exact R]. now apply (sys_step_mem _ s l).
Qed.

Lemma mem_init stream : wfb (concat stream) -> mem (len (concat stream)) (sys_init stream).
Proof. intro W. constructor; [exact W| |constructor|constructor|intros x []].
  change (8 * (0 + 0 + N.of_nat 0) + len (concat stream) <= len (concat stream)). lia.
Qed.

Lemma held_bound subs w : Forall (fun x : header * bytes => len (snd x) < 4294967296) subs -> held_for subs w <= 4294967295 * len w.
Proof.
  intro S. induction w as [|[id k] w IH]; [cbn; lia|]. cbn [held_for]. rewrite len_cons.
  destruct (nth_error subs k) as [[h b]|] eqn:Q; [|lia]. apply nth_error_In in Q. pose proof (proj1 (Forall_forall _ _) S _ Q) as B. cbn [snd] in B. lia.
Qed.

Lemma concat_bound (l : list bytes) : Forall (fun f => len f < 48 + 4294967296) l -> len (concat l) <= (47 + 4294967296) * len l.
Proof. induction 1 as [|f l F _ IH]; [vm_compute; discriminate|]. cbn [concat]. rewrite len_app, len_cons. lia. Qed.

Lemma sent_bound stream ls s : wfb (concat stream) -> sys_run (sys_init stream) ls = Some s ->
  8 * (len (sy_out s) + len (rb_waiting (in_buf (sy_in s)))) <= len (concat stream) /\
  8 * (len (concat (sy_out s)) + held s) <= (47 + 4294967296) * len (concat stream) /\
  (in_timers (sy_in s) = [] -> held s = 0).
Proof.
  intros W R. destruct (sys_run_mem _ _ _ _ (mem_init stream W) R) as [M1 M2 M3 M4 M5].
  assert (8 * (len (sy_out s) + len (rb_waiting (in_buf (sy_in s)))) <= len (concat stream)) as B by (unfold load, len in *; lia).
  split; [exact B|]. split.
  - apply Forall_app in M3 as [M3 _]. apply concat_bound in M3. pose proof (held_bound _ (rb_waiting (in_buf (sy_in s))) M4) as H.
    unfold held. lia.
  - intro Z. unfold held. destruct (rb_waiting (in_buf (sy_in s))) as [|x w] eqn:Q; [reflexivity|].
    exfalso. unfold timed in M5. rewrite Z, Q in M5. exact (M5 x (or_introl eq_refl)).
Qed.

(* ---- little said, much held *)
Definition attach_it : message := MImport 0x0111 0 ([50; 45; 50] ++ zeros 29).
Definition ask (ep seq n : N) : message := MSubmit seq 0 1 ep 0 0 0 0 n [0x80; 0; 0; 0; 0; 0; 2; 0] [].

Lemma ask_len ep seq n : len (message_bytes (ask ep seq n)) = 48.
Proof. unfold message_bytes, ask, head, data. rewrite !len_app, !len_be. reflexivity. Qed.

Lemma ask_wf ep seq n : wfb (message_bytes (ask ep seq n)).
Proof.
  unfold message_bytes, ask, head, data. rewrite !wfb_app. repeat split; try apply be_wf; repeat constructor.
Qed.

Lemma read_ask ep seq n s rest : ep < 4294967296 -> seq < 4294967296 -> n < 4294967296 ->
  cn_phase (sy_conn s) = Commands 0 -> concat (cn_stream (sy_conn s)) = message_bytes (ask ep seq n) ++ rest ->
  exists cs, conn_step [usb_device] (sy_conn s) = (mk_conn (Commands 0) cs, ASubmit 0 (mk_header 1 seq 0 1 ep) [0x80; 0; 0; 0; 0; 0; 2; 0] (zeros (N.to_nat n))) /\
    concat cs = rest.
Proof.
  intros E Q L P C. destruct (sy_conn s) as [p st]. cbn [cn_phase cn_stream] in *. subst p.
  destruct (conn_step_message [usb_device] (Commands 0) (ask ep seq n) st rest (Commands 0)
    (ASubmit 0 (mk_header 1 seq 0 1 ep) [0x80; 0; 0; 0; 0; 0; 2; 0] (zeros (N.to_nat n)))) as (cs & R & _ & R2); auto.
  - discriminate.
  - cbn. unfold u32. repeat split; auto; lia.
  - unfold uncut. apply Forall_forall. intros b _. change (len (data (ask ep seq n))) with 0. lia.
  - exists cs. auto.
Qed.

Lemma held_more subs x w : Forall (fun y => (snd y < length subs)%nat) w -> held_for (subs ++ [x]) w = held_for subs w.
Proof.
  induction 1 as [|[id k] w K _ IH]; [reflexivity|]. cbn [held_for snd] in *. rewrite IH, nth_error_app1 by exact K. reflexivity.
Qed.

Lemma delete_none id w : Forall (fun y : N * nat => fst y < id) w -> map_delete id w = w.
Proof.
  induction 1 as [|y w K _ IH]; [reflexivity|]. unfold map_delete in *. cbn [filter].
  replace (fst y =? id) with false by lia. cbn [negb]. now rewrite IH.
Qed.

Fixpoint asks (seq n : N) (m : nat) : list bytes :=
  match m with O => [] | S m => message_bytes (ask 1 seq n) :: asks (seq + 1) n m end.

Lemma asks_len m : forall seq n, len (concat (asks seq n m)) = 48 * N.of_nat m.
Proof. induction m as [|m IH]; intros seq n; [reflexivity|]. cbn [asks concat]. rewrite len_app, ask_len, IH. lia. Qed.

Lemma asks_wf m : forall seq n, wfb (concat (asks seq n m)).
Proof. induction m as [|m IH]; intros seq n; [apply wfb_nil|]. cbn [asks concat]. apply wfb_app. split; [apply ask_wf|apply IH]. Qed.

Lemma asks_wait n : n < 4294967296 -> forall m seq s, seq + N.of_nat m <= 4294967296 ->
  cn_phase (sy_conn s) = Commands 0 -> concat (cn_stream (sy_conn s)) = concat (asks seq n m) -> sy_pending s = None ->
  rb_responses (in_buf (sy_in s)) = [] -> in_next (sy_in s) = length (sy_subs s) ->
  Forall (fun y => fst y < seq /\ (snd y < length (sy_subs s))%nat) (rb_waiting (in_buf (sy_in s))) ->
  exists s', sys_run s (repeat SRead m) = Some s' /\ sy_out s' = sy_out s /\ held s' = held s + n * N.of_nat m.
Proof.
  intro L. induction m as [|m IH]; intros seq s B P C Pe Re Nx F.
  - exists s. split; [reflexivity|]. split; [reflexivity|]. lia.
  - cbn [asks concat] in C. destruct (read_ask 1 seq n s (concat (asks (seq + 1) n m))) as (cs & R & R2); auto; try lia.
    cbn [repeat sys_run sys_step]. rewrite Pe, R. cbn [hd_ep hd_seq]. change (1 =? 0) with false. change (1 =? 1) with true. cbv iota.
    unfold rb_request at 1. rewrite Re. cbn [snd]. cbn [in_step]. unfold rb_request. rewrite Re. cbn [obind].
    set (s1 := mk_sys _ _ _ _ _ _ _).
    assert (Forall (fun y => fst y < seq) (rb_waiting (in_buf (sy_in s)))) as F1 by (eapply Forall_impl; [|exact F]; intros y H; apply H).
    assert (Forall (fun y => (snd y < length (sy_subs s))%nat) (rb_waiting (in_buf (sy_in s)))) as F2 by (eapply Forall_impl; [|exact F]; intros y H; apply H).
    destruct (IH (seq + 1) s1) as (s' & Q1 & Q2 & Q3); unfold s1; cbn [sy_conn sy_pending sy_in sy_subs cn_phase cn_stream in_buf in_next rb_responses rb_waiting]; auto; try lia.
    + rewrite app_length. cbn [length]. lia.
    + rewrite delete_none by exact F1. rewrite app_length. cbn [length]. constructor; [cbn [fst snd]; lia|].
      eapply Forall_impl; [|exact F]. cbv beta. intros y [H1 H2]. lia.
    + exists s'. split; [exact Q1|]. split; [rewrite Q2; unfold s1; cbn [sy_out]; apply app_nil_r|]. rewrite Q3. unfold s1, held.
      cbn [sy_in sy_subs in_buf rb_waiting held_for]. rewrite delete_none by exact F1. rewrite held_more by exact F2.
      rewrite Nx, nth_error_app2, Nat.sub_diag by lia. cbn [nth_error]. rewrite zeros_len, N2Nat.id. lia.
Qed.

Lemma held_much n m : n < 4294967296 -> m < 4294967296 -> exists stream ls s, wfb (concat stream) /\ len (concat stream) = 40 + 48 * m /\
  sys_run (sys_init stream) ls = Some s /\ len (concat (sy_out s)) = 320 /\ held s = n * m.
Proof.
  intros L B. exists (message_bytes attach_it :: asks 0 n (N.to_nat m)), (SRead :: SWrite :: repeat SRead (N.to_nat m)).
  destruct (asks_wait n L (N.to_nat m) 0 (mk_sys (mk_conn (Commands 0) (asks 0 n (N.to_nat m))) in_init [] None [] [op_rep_import usb_device]
    [AWrite (op_rep_import usb_device)])) as (s & Q1 & Q2 & Q3); cbn [sy_conn sy_pending sy_in sy_subs cn_phase cn_stream]; auto; try lia; try constructor.
  exists s. split.
  { cbn [concat]. apply wfb_app. split; [apply wfbb_iff; vm_compute; reflexivity|apply asks_wf]. }
  split.
  { cbn [concat]. rewrite len_app, asks_len. change (len (message_bytes attach_it)) with 40. lia. }
  split.
  - etransitivity; [|exact Q1]. reflexivity.
  - split; [rewrite Q2; vm_compute; reflexivity|]. rewrite Q3. unfold held. cbn [sy_in sy_subs in_init in_buf make_request_buffer rb_waiting held_for]. lia.
Qed.

Lemma sent_much n : n < 4294967296 -> exists stream ls s, wfb (concat stream) /\ len (concat stream) = 88 /\
  sys_run (sys_init stream) ls = Some s /\ len (concat (sy_out s)) = 368 + n.
Proof.
  intro L. exists [message_bytes attach_it; message_bytes (ask 0 7 n)], [SRead; SWrite; SRead; SWrite].
  set (s0 := mk_sys (mk_conn (Commands 0) [message_bytes (ask 0 7 n)]) in_init [] None [] [op_rep_import usb_device]
    [AWrite (op_rep_import usb_device)]).
  destruct (read_ask 0 7 n s0 []) as (cs & R & R2); try reflexivity; try exact L.
  assert (sys_run (sys_init [message_bytes attach_it; message_bytes (ask 0 7 n)]) [SRead; SWrite; SRead; SWrite] = sys_run s0 [SRead; SWrite]) as E by reflexivity.
  rewrite E. cbn [sys_run sys_step]. change (sy_pending s0) with (@None bytes). rewrite R. cbv iota. cbn [hd_ep]. change (0 =? 0) with true. cbv iota.
  change (handle_control_message (read_setup [128; 0; 0; 0; 0; 0; 2; 0])) with (Ok (Some [1])).
  eexists. split; [|split; [|split; [reflexivity|]]].
  - cbn [concat]. apply wfb_app. split; [apply wfbb_iff; vm_compute; reflexivity|]. apply wfb_app. split; [apply ask_wf|apply wfb_nil].
  - cbn [concat]. rewrite !len_app, ask_len. reflexivity.
  - cbn [sy_out s0 app concat]. rewrite !len_app, return_submit_len. cbn [hd_dir]. change (1 =? 1) with true. cbv iota.
    rewrite zeros_len, N2Nat.id. change (len (op_rep_import usb_device)) with 320. change (len (@nil N)) with 0. lia.
Qed.
