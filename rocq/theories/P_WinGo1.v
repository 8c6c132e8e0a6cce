(* The Go server reading a part of the messages of a client that attached the device:
   what it logs, and where every frame that it writes comes from. *)
From Verif Require Import Base M_Util M_Usb M_ReqBuf M_Usbip S_ReqBuf S_Usbip S_UsbipSys
  P_ReqBuf P_Usb P_Usbip1 P_Usbip2 P_Usbip3 S_Device P_Device2.
From Coq Require Import Lia.
Open Scope N_scope.

(* ------------------------------------------------- a message that came only in part *)
Lemma end_boundary cs : forall off, cs <> [] -> In (off + len (concat cs)) (boundaries off cs).
Proof.
  induction cs as [|c cs IH]; intros off H; [congruence|]. cbn [boundaries concat]. rewrite len_app.
  destruct cs as [|c' cs]; [left; cbn [concat]; unfold len; cbn [length]; lia|].
  right. rewrite N.add_assoc. apply IH. discriminate.
Qed.

Lemma part_head m cs x : concat cs ++ x = message_bytes m -> x <> [] -> uncut cs (len (head m)) (len (data m)) ->
  exists y, head m = concat cs ++ y.
Proof.
  intros E X U. unfold message_bytes in E. destruct (app_eq_app _ _ _ _ E) as (l & [[A B]|[A B]]); [|eauto].
  destruct l as [|b l]; [rewrite app_nil_r in A; exists []; now rewrite app_nil_r|]. exfalso.
  destruct cs as [|c cs]; [symmetry in A; cbn [concat] in A; apply app_eq_nil in A; destruct A; discriminate|].
  unfold uncut in U. rewrite Forall_forall in U.
  specialize (U _ (end_boundary (c :: cs) 0 ltac:(discriminate))). rewrite A, len_app, B, len_app in U.
  destruct x; [congruence|]. unfold len in U. cbn [length] in U. lia.
Qed.

Lemma read_once_nil cs n : concat cs = [] -> read_once n cs = None.
Proof. induction cs as [|c cs IH]; cbn; auto. destruct c; [auto|discriminate]. Qed.

Definition command (m : message) : Prop :=
  match m with MSubmit _ _ _ _ _ _ _ _ _ _ _ => True | MUnlink _ _ _ _ _ _ => True | _ => False end.

Lemma step_part devices d m cs x : command m -> well_formed m -> concat cs ++ x = message_bytes m -> x <> [] ->
  uncut cs (len (head m)) (len (data m)) ->
  conn_step devices (mk_conn (Commands d) cs) = (mk_conn (Commands d) [], ANone).
Proof.
  intros K W E X U. destruct (part_head m cs x E X U) as (y & Ey).
  unfold conn_step. cbn [cn_phase cn_stream].
  destruct m as [| |seq devid dir ep flags start packets interval n setup dt|
                 seq devid dir ep target padding]; try contradiction.
  - destruct W as (W1 & W2 & W3 & W4 & W5 & W6 & W7).
    unfold message_bytes in *. cbn [data] in *.
    assert (head (MSubmit seq devid dir ep flags start packets interval n setup dt) =
      (be 4 1 ++ be 4 seq ++ be 4 devid ++ be 4 dir ++ be 4 ep) ++
      (be 4 flags ++ be 4 n ++ be 4 start ++ be 4 packets ++ be 4 interval ++ setup)) as Hh
      by (cbn [head]; now rewrite <- !app_assoc).
    rewrite Hh in *. clear Hh.
    set (h1 := be 4 1 ++ be 4 seq ++ be 4 devid ++ be 4 dir ++ be 4 ep) in *.
    set (h2 := be 4 flags ++ be 4 n ++ be 4 start ++ be 4 packets ++ be 4 interval ++ setup) in *.
    assert (len h1 = 20) as L1 by reflexivity.
    assert (len h2 = 28) as L2 by (unfold h2; rewrite !len_app, !len_be, W6; reflexivity).
    destruct (app_eq_app _ _ _ _ Ey) as (l & [[A B]|[A B]]).
    + destruct l as [|b l].
      { rewrite app_nil_r in A. cbn [app] in B. symmetry in A.
        destruct (read_full_exact cs h1 [] ltac:(now rewrite app_nil_r)) as (cs1 & R1 & _ & E1).
        rewrite L1 in R1. rewrite R1.
        assert (parse_header h1 = mk_header 1 seq devid dir ep) as -> by
          (apply parse_header_ok; assumption || reflexivity).
        cbn [hd_command N.eqb Pos.eqb]. unfold read_submit.
        rewrite (read_full_short cs1 28); [reflexivity|]. rewrite E1. reflexivity. }
      rewrite read_full_short; [reflexivity|]. apply (f_equal len) in A. rewrite len_app in A.
      unfold len in *. cbn [length] in A. lia.
    + destruct (read_full_exact cs h1 l A) as (cs1 & R1 & S1 & E1). rewrite L1 in R1. rewrite R1.
      assert (parse_header h1 = mk_header 1 seq devid dir ep) as -> by
        (apply parse_header_ok; assumption || reflexivity).
      cbn [hd_command N.eqb Pos.eqb]. unfold read_submit.
      destruct y as [|b y].
      * rewrite app_nil_r in B. subst l.
        destruct (read_full_exact cs1 h2 [] ltac:(now rewrite app_nil_r)) as (cs2 & R2 & _ & E2).
        rewrite L2 in R2. rewrite R2. cbn [obind]. unfold h2. rewrite parse_body_ok by assumption.
        cbn [sb_length sb_setup hd_dir].
        assert (x = dt) as -> by (rewrite A in E; now apply app_inv_head in E).
        destruct (dir =? 0); [|congruence]. cbn [andb].
        destruct (N.ltb_spec 0 n) as [Hn|Hn].
        -- now rewrite read_once_nil by exact E2.
        -- exfalso. apply X. apply length_zero_iff_nil. unfold len in *. lia.
      * rewrite (read_full_short cs1 28); [reflexivity|]. rewrite E1.
        apply (f_equal len) in B. rewrite len_app in B. unfold len in *. cbn [length] in B. lia.
  - destruct W as (W1 & W2 & W3 & W4 & W5 & W6).
    unfold message_bytes in *. cbn [data] in *. rewrite app_nil_r in E.
    assert (head (MUnlink seq devid dir ep target padding) =
      (be 4 2 ++ be 4 seq ++ be 4 devid ++ be 4 dir ++ be 4 ep) ++ (be 4 target ++ padding)) as Hh
      by (cbn [head]; now rewrite <- !app_assoc).
    rewrite Hh in *. clear Hh Ey.
    set (h1 := be 4 2 ++ be 4 seq ++ be 4 devid ++ be 4 dir ++ be 4 ep) in *.
    set (h2 := be 4 target ++ padding) in *.
    assert (len h1 = 20) as L1 by reflexivity.
    assert (len h2 = 28) as L2 by (unfold h2; rewrite !len_app, !len_be, W6; reflexivity).
    destruct (app_eq_app _ _ _ _ E) as (l & [[A B]|[A B]]).
    + destruct (read_full_exact cs h1 l A) as (cs1 & R1 & S1 & E1). rewrite L1 in R1. rewrite R1.
      assert (parse_header h1 = mk_header 2 seq devid dir ep) as -> by
        (apply parse_header_ok; assumption || reflexivity).
      cbn [hd_command N.eqb Pos.eqb].
      rewrite (read_full_short cs1 28); [reflexivity|]. rewrite E1.
      apply (f_equal len) in B. rewrite len_app in B. destruct x; [congruence|]. unfold len in *. cbn [length] in B. lia.
    + destruct l as [|b l].
      { rewrite app_nil_r in A. symmetry in A.
        destruct (read_full_exact cs h1 [] ltac:(now rewrite app_nil_r)) as (cs1 & R1 & _ & E1).
        rewrite L1 in R1. rewrite R1.
        assert (parse_header h1 = mk_header 2 seq devid dir ep) as -> by
          (apply parse_header_ok; assumption || reflexivity).
        cbn [hd_command N.eqb Pos.eqb].
        rewrite (read_full_short cs1 28); [reflexivity|]. rewrite E1. reflexivity. }
      rewrite read_full_short; [reflexivity|]. apply (f_equal len) in A. rewrite len_app in A.
      unfold len in *. cbn [length] in A. lia.
Qed.

Lemma import_part devices v st field cs x : well_formed (MImport v st field) ->
  concat cs ++ x = message_bytes (MImport v st field) -> x <> [] -> uncut cs 8 32 ->
  conn_step devices (mk_conn Control cs) = (mk_conn Closed [], ANone).
Proof.
  intros (W1 & W2 & W3) E X U.
  destruct (part_head (MImport v st field) cs x E X) as (y & Ey).
  { cbn [data head]. rewrite W3. exact U. }
  unfold message_bytes in E. unfold conn_step. cbn [cn_phase cn_stream data head] in *.
  set (h := be 2 v ++ be 2 0x8003 ++ be 4 st) in *. assert (len h = 8) as L by reflexivity.
  destruct y as [|b y].
  - rewrite app_nil_r in Ey. symmetry in Ey.
    destruct (read_full_exact cs h [] ltac:(now rewrite app_nil_r)) as (cs1 & R1 & _ & E1).
    rewrite L in R1. rewrite R1. unfold h. rewrite (drop_be 2), (take_be 2).
    replace (be_dec (be 2 0x8003) =? 0x8005) with false by reflexivity.
    replace (be_dec (be 2 0x8003) =? 0x8003) with true by reflexivity.
    unfold util_read. now rewrite read_once_nil by exact E1.
  - rewrite read_full_short; [reflexivity|]. apply (f_equal len) in Ey. rewrite len_app in Ey.
    unfold len in *. cbn [length] in Ey. lia.
Qed.

(* ------------------------------------------------- what is read of a part of the messages *)
Definition read_of (ms : list message) (a : action) : Prop :=
  a = ANone \/ exists m d, In m ms /\ spec_phase_action [usb_device] (Commands d) m = Some (Commands d, a).

Lemma command_spec d m : command m -> exists a, spec_phase_action [usb_device] (Commands d) m = Some (Commands d, a).
Proof. destruct m; try contradiction; intros _; eexists; reflexivity. Qed.

Lemma run_nothing n d cs : concat cs = [] ->
  Forall (fun a => a = ANone) (snd (conn_run [usb_device] n (mk_conn (Commands d) cs))).
Proof.
  revert cs. induction n as [|n IH]; intros cs C; [constructor|]. cbn [conn_run].
  assert (conn_step [usb_device] (mk_conn (Commands d) cs) = (mk_conn (Commands d) [], ANone)) as ->.
  { unfold conn_step. cbn [cn_phase cn_stream]. rewrite read_full_short; [reflexivity|]. rewrite C. reflexivity. }
  specialize (IH [] eq_refl). destruct (conn_run _ n _) as [c l]. cbn [snd] in *. constructor; auto.
Qed.

Lemma run_closed n : Forall (fun a => a = ANone) (snd (conn_run [usb_device] n (mk_conn Closed []))).
Proof.
  induction n as [|n IH]; [constructor|]. cbn [conn_run]. unfold conn_step at 1. cbn [cn_phase].
  destruct (conn_run _ n _) as [c l]. cbn [snd] in *. constructor; auto.
Qed.

Lemma spans_next m ms cs cs' : Forall (fun sp => uncut cs (fst sp) (snd sp)) (data_spans 0 (m :: ms)) ->
  shifted (len (message_bytes m)) cs cs' ->
  Forall (fun sp => uncut cs' (fst sp) (snd sp)) (data_spans 0 ms).
Proof.
  intros U [_ S2]. cbn [data_spans] in U. rewrite N.add_0_l in U. inversion U as [|? ? U1 U2]; subst.
  rewrite N.add_0_l in U2.
  replace (len (message_bytes m)) with (len (message_bytes m) + 0) in U2 by lia.
  rewrite data_spans_shift, Forall_map in U2. eapply Forall_impl; [|exact U2].
  cbn [fst snd]. intros [i k] H. cbn [fst snd] in *.
  apply S2 in H; [|lia]. replace (len (message_bytes m) + i - len (message_bytes m)) with i in H by lia. exact H.
Qed.

Lemma run_part n : forall d ms cs, Forall well_formed ms -> Forall command ms ->
  (exists x, concat cs ++ x = concat (map message_bytes ms)) ->
  Forall (fun sp => uncut cs (fst sp) (snd sp)) (data_spans 0 ms) ->
  Forall (read_of ms) (snd (conn_run [usb_device] n (mk_conn (Commands d) cs))).
Proof.
  induction n as [|n IH]; intros d ms cs W K (x & E) U; [constructor|].
  assert (forall l, Forall (fun a => a = ANone) l -> Forall (read_of ms) l) as None_.
  { intros l. apply Forall_impl. intros a ->. now left. }
  destruct ms as [|m ms].
  { cbn [map concat] in E. apply app_eq_nil in E. destruct E as [E _]. apply None_. now apply run_nothing. }
  cbn [map concat] in E. pose proof (Forall_inv W) as Wm. pose proof (Forall_inv K) as Km.
  assert (uncut cs (len (head m)) (len (data m))) as Um.
  { cbn [data_spans] in U. rewrite N.add_0_l in U. exact (Forall_inv U). }
  destruct (app_eq_app _ _ _ _ E) as (l & [[A B]|[A B]]).
  - destruct (command_spec d m Km) as (a & Sa).
    destruct (conn_step_message [usb_device] (Commands d) m cs l (Commands d) a Sa ltac:(discriminate) Wm A Um) as (cs' & R & S & C').
    cbn [conn_run]. rewrite R.
    assert (Forall (read_of ms) (snd (conn_run [usb_device] n (mk_conn (Commands d) cs')))) as H.
    { apply IH; [exact (Forall_inv_tail W)|exact (Forall_inv_tail K)| |].
      - exists x. now rewrite C'.
      - eapply spans_next; eauto. }
    destruct (conn_run _ n _) as [c l']. cbn [snd] in *. constructor.
    + right. exists m, d. split; [now left|exact Sa].
    + eapply Forall_impl; [|exact H]. intros b [->|(m' & d' & I & Sb)]; [now left|]. right. exists m', d'. split; [now right|exact Sb].
  - destruct l as [|b l].
    + rewrite app_nil_r in A. destruct (command_spec d m Km) as (a & Sa).
      destruct (conn_step_message [usb_device] (Commands d) m cs [] (Commands d) a Sa ltac:(discriminate) Wm ltac:(now rewrite app_nil_r, A) Um) as (cs' & R & S & C').
      cbn [conn_run]. rewrite R. pose proof (run_nothing n d cs' C') as H.
      destruct (conn_run _ n _) as [c l']. cbn [snd] in *. constructor; [|now apply None_].
      right. exists m, d. split; [now left|exact Sa].
    + cbn [conn_run]. rewrite (step_part [usb_device] d m cs (b :: l) Km Wm (eq_sym A) ltac:(discriminate) Um).
      pose proof (run_nothing n d [] eq_refl) as H. destruct (conn_run _ n _) as [c l']. cbn [snd] in *.
      constructor; [now left|now apply None_].
Qed.

Definition no_write (a : action) : Prop := match a with AWrite _ => False | _ => True end.

(* the log: at most the import, and then what was read *)
Definition attached_log (ms : list message) (log : list action) : Prop :=
  log = [] \/ exists a r, log = a :: r /\ (a = ANone /\ Forall (fun x => x = ANone) r \/ a = AWrite (op_rep_import usb_device)) /\ Forall (read_of ms) r.

Definition bus_id : bytes := [50; 45; 50].

Lemma run_import n v st field ms cs : well_formed (MImport v st field) -> named field bus_id ->
  Forall well_formed ms -> Forall command ms ->
  (exists x, concat cs ++ x = message_bytes (MImport v st field) ++ concat (map message_bytes ms)) ->
  Forall (fun sp => uncut cs (fst sp) (snd sp)) (data_spans 0 (MImport v st field :: ms)) ->
  attached_log ms (snd (conn_run [usb_device] n (mk_conn Control cs))).
Proof.
  intros Wi Nm W K (x & E) U. set (m := MImport v st field) in *.
  destruct n as [|n]; [now left|]. right.
  assert (spec_phase_action [usb_device] Control m = Some (Commands 0, AWrite (op_rep_import usb_device))) as Sa.
  { cbn [spec_phase_action m]. rewrite (cstring_named _ _ Nm). reflexivity. }
  assert (uncut cs (len (head m)) (len (data m))) as Um.
  { cbn [data_spans] in U. rewrite N.add_0_l in U. exact (Forall_inv U). }
  assert (forall l, concat cs = message_bytes m ++ l -> (exists x, l ++ x = concat (map message_bytes ms)) ->
    exists a r, snd (conn_run [usb_device] (S n) (mk_conn Control cs)) = a :: r /\
      (a = ANone /\ Forall (fun x => x = ANone) r \/ a = AWrite (op_rep_import usb_device)) /\ Forall (read_of ms) r) as Whole.
  { intros l A B.
    destruct (conn_step_message [usb_device] Control m cs l _ _ Sa ltac:(discriminate) Wi A Um) as (cs' & R & S & C').
    cbn [conn_run]. rewrite R.
    assert (Forall (read_of ms) (snd (conn_run [usb_device] n (mk_conn (Commands 0) cs')))) as H.
    { apply run_part; [exact W|exact K|now rewrite C'|]. eapply spans_next; [exact U|exact S]. }
    destruct (conn_run _ n _) as [c l']. cbn [snd] in *. eexists _, l'. split; [reflexivity|]. auto. }
  destruct (app_eq_app _ _ _ _ E) as (l & [[A B]|[A B]]); [apply (Whole l A); exists x; auto|].
  destruct l as [|b l]; [apply (Whole []); [now rewrite app_nil_r in *|eauto]|].
  cbn [conn_run]. rewrite (import_part [usb_device] v st field cs (b :: l) Wi (eq_sym A) ltac:(discriminate)).
  - pose proof (run_closed n) as H. destruct (conn_run _ n _) as [c l']. cbn [snd] in *.
    exists ANone, l'. split; [reflexivity|]. split; [left; auto|]. eapply Forall_impl; [|exact H]. intros a ->. now left.
  - destruct Wi as (_ & _ & W3). unfold m in Um. cbn [head data] in Um. rewrite W3 in Um. exact Um.
Qed.

(* ------------------------------------------------- the reader of the system *)
Lemma step_conn s l s' : sys_step s l = Some s' ->
  (sy_conn s' = sy_conn s /\ sy_log s' = sy_log s) \/
  (exists a, conn_step [usb_device] (sy_conn s) = (sy_conn s', a) /\ sy_log s' = sy_log s ++ [a]).
Proof.
  destruct l as [| |choice data|j|j]; cbn [sys_step]; intro E.
  - destruct (sy_pending s); [discriminate|]. destruct (conn_step [usb_device] (sy_conn s)) as [c a]. right. exists a.
    destruct a as [|r|d h st b|d h t].
    + injection E as <-. auto.
    + injection E as <-. auto.
    + destruct (hd_ep h =? 0); [destruct (handle_control_message _); injection E as <-; auto|].
      destruct (hd_ep h =? 1).
      * destruct (in_step (sy_in s) _); [|discriminate]. cbn [obind] in E. injection E as <-. auto.
      * destruct (hd_ep h =? 2); injection E as <-; auto.
    + destruct (in_step (sy_in s) _); [|discriminate]. cbn [obind] in E. injection E as <-. auto.
  - destruct (sy_pending s); [|discriminate]. injection E as <-. now left.
  - destruct (in_step (sy_in s) _); [|discriminate]. cbn [obind] in E. injection E as <-. now left.
  - destruct (nth_error (in_flight (sy_in s)) j) as [f|]; [|discriminate]. cbn [obind] in E.
    destruct (nth_error (sy_subs s) (fl_key f)) as [[h b]|]; [|discriminate]. cbn [obind] in E.
    destruct (in_step (sy_in s) _); [|discriminate]. cbn [obind] in E. injection E as <-. now left.
  - destruct (in_step (sy_in s) _); [|discriminate]. cbn [obind] in E. injection E as <-. now left.
Qed.

Lemma run_log ls : forall s s', sys_run s ls = Some s' -> exists n,
  sy_log s' = sy_log s ++ snd (conn_run [usb_device] n (sy_conn s)).
Proof.
  induction ls as [|l ls IH]; intros s s' R; cbn [sys_run] in R.
  - injection R as <-. exists 0%nat. cbn. now rewrite app_nil_r.
  - destruct (sys_step s l) as [s1|] eqn:E; [|discriminate]. cbn [obind] in R.
    destruct (IH _ _ R) as (n & En). destruct (step_conn _ _ _ E) as [[C L]|(a & C & L)].
    + exists n. now rewrite <- C, <- L.
    + exists (S n). cbn [conn_run]. rewrite C. destruct (conn_run [usb_device] n (sy_conn s1)) as [c2 l2]. cbn [snd] in *.
      rewrite En, L, <- app_assoc. reflexivity.
Qed.

(* ------------------------------------------------- where frames come from *)
Definition answers_with (s : sys) (h : header) (st : bytes) (r : option bytes) : Prop :=
  (hd_ep h = 0 /\ handle_control_message (read_setup st) = Ok r) \/
  (hd_ep h = 1 /\ forall d, r = Some d -> made s d) \/
  (hd_ep h = 2 /\ r = None).

Definition frame_from (s : sys) (f : bytes) : Prop :=
  (exists h st b r, In (h, st, b) (submits_of (sy_log s)) /\ f = return_submit h b r /\ answers_with s h st r) \/
  (exists h removed, In h (unlinks_of (sy_log s)) /\ f = return_unlink h removed).

Definition grows (s s' : sys) : Prop :=
  (exists x, sy_log s' = sy_log s ++ x) /\ forall d, made s d -> made s' d.

Lemma frame_grows s s' f : grows s s' -> frame_from s f -> frame_from s' f.
Proof.
  intros ((x & L) & M) [(h & st & b & r & I & E & A)|(h & rm & I & E)].
  - left. exists h, st, b, r. rewrite L, submits_app. split; [apply in_or_app; now left|]. split; [exact E|].
    destruct A as [A|[[A1 A2]|A]]; [now left|right; left; auto|right; now right].
  - right. exists h, rm. rewrite L, unlinks_of_app. split; [apply in_or_app; now left|exact E].
Qed.

Lemma in_step_made s l i : in_step (sy_in s) l = Some i -> forall d, made s d -> In (EvProduced d) (in_trace i).
Proof.
  unfold made. intros E d I. destruct l as [id|k dt|k|k|id]; cbn [in_step] in E.
  - destruct (rb_request _ _ _) as [b' o]. injection E as <-. cbn [in_trace]. apply in_or_app. now left.
  - destruct (rb_respond _ _ _) as [[b' o]|]; [|discriminate]. injection E as <-. cbn [in_trace]. apply in_or_app. now left.
  - destruct (nth_error _ _); [|discriminate]. injection E as <-. cbn [in_trace]. apply in_or_app. now left.
  - destruct (nth_error _ _) as [[id k']|]; [|discriminate]. destruct (rb_cancel _ _) as [b' o]. injection E as <-. cbn [in_trace]. apply in_or_app. now left.
  - destruct (rb_cancel _ _) as [b' o]. injection E as <-. cbn [in_trace]. apply in_or_app. now left.
Qed.

(* at most the answer to the import, and after it frames with an origin *)
Definition framed_inv (s : sys) : Prop :=
  (exists frames, sy_out s = flat_map (fun a => match a with AWrite r => [r] | _ => [] end) (sy_log s) ++ frames /\
     Forall (frame_from s) frames /\ Forall (frame_from s) (opt_list (sy_pending s))) \/
  (exists r, sy_out s = [] /\ sy_pending s = Some r /\ sy_log s = [AWrite r]).

Lemma frames_first s s' : grows s s' -> framed_inv s -> sy_pending s = None -> sy_log s = sy_log s' \/
    (exists a, sy_log s' = sy_log s ++ [a] /\ no_write a) ->
  (exists fs, sy_out s' = sy_out s ++ fs /\ Forall (frame_from s') fs) -> Forall (frame_from s') (opt_list (sy_pending s')) ->
  framed_inv s'.
Proof.
  intros G [(frames & O & F & P)|(r & _ & P & _)] Pn L (fs & Of & Ff) Ps; [|congruence].
  left. exists (frames ++ fs). split; [|split; [|exact Ps]].
  - rewrite Of, O, app_assoc. f_equal. f_equal. destruct L as [->|(a & -> & Na)]; [reflexivity|].
    rewrite flat_map_app. cbn [flat_map]. destruct a; try contradiction; now rewrite !app_nil_r.
  - apply Forall_app. split; [|exact Ff]. eapply Forall_impl; [|exact F]. intros f. now apply frame_grows.
Qed.

Lemma framed_step ms s l s' : wire_inv s -> framed_inv s -> sys_step s l = Some s' -> attached_log ms (sy_log s') -> framed_inv s'.
Proof.
  intros I J E A. destruct l as [| |choice data|j|j]; cbn [sys_step] in E.
  - (* SRead *)
    destruct (sy_pending s) eqn:P; [discriminate|].
    destruct (conn_step [usb_device] (sy_conn s)) as [c a] eqn:CS.
    assert (grows s (mk_sys c (sy_in s) (sy_subs s) None (sy_delegate s) (sy_out s) (sy_log s ++ [a]))) as G0
      by (split; [eexists; reflexivity|auto]).
    destruct a as [|r|d h st b|d h t].
    + injection E as <-. eapply (frames_first s); [exact G0|exact J|exact P|right; eexists; split; [reflexivity|exact Logic.I]
            |exists []; rewrite app_nil_r; split; [reflexivity|constructor]|constructor].
    + injection E as <-. right. exists r. cbn [sy_out sy_pending sy_log] in *.
      destruct J as [(frames & O & F & _)|(r' & _ & P' & _)]; [|congruence].
      assert (sy_log s = []) as L.
      { destruct A as [A|(a0 & rest & A & _ & R)]; [now apply app_eq_nil in A|].
        destruct (sy_log s) as [|a1 l1]; [reflexivity|]. exfalso. cbn [app] in A. injection A as _ A. subst rest.
        apply Forall_app in R. destruct R as [_ R]. pose proof (Forall_inv R) as [R0|(m & dd & _ & R0)]; [discriminate|].
        destruct m; discriminate. }
      rewrite L in *. cbn [flat_map app] in O. split; [|auto]. rewrite O.
      destruct frames as [|f frames]; [reflexivity|]. exfalso. pose proof (Forall_inv F) as Ff. unfold frame_from in Ff.
      rewrite L in Ff. destruct Ff as [(? & ? & ? & ? & [] & _)|(? & ? & [] & _)].
    + assert (In (h, st, b) (submits_of (sy_log s ++ [ASubmit d h st b]))) as Hi
        by (rewrite submits_app; apply in_or_app; right; now left).
      destruct (N.eqb_spec (hd_ep h) 0) as [E0|E0].
      { destruct (handle_control_message (read_setup st)) as [r|] eqn:Hc; injection E as <-;
          (eapply (frames_first s); [split; [eexists; reflexivity|auto]|exact J|exact P|right; eexists; split; [reflexivity|exact Logic.I]
            |exists []; rewrite app_nil_r; split; [reflexivity|constructor]|]); cbn [sy_pending opt_list]; [|constructor].
        constructor; [|constructor]. left. exists h, st, b, r. split; [exact Hi|]. split; [reflexivity|]. left. auto. }
      destruct (N.eqb_spec (hd_ep h) 1) as [E1|E1].
      { destruct (in_step (sy_in s) (ISubmit (hd_seq h))) as [i|] eqn:IS; [|discriminate].
        cbn [obind] in E. injection E as <-. pose proof (in_step_made s _ i IS) as M.
        eapply (frames_first s); [split; [eexists; reflexivity|exact M]|exact J|exact P|right; eexists; split; [reflexivity|exact Logic.I]
            |eexists; split; [reflexivity|]|constructor].
        destruct (snd (rb_request (in_buf (sy_in s)) (hd_seq h) (in_next (sy_in s)))) as [dt|] eqn:Q; constructor; [|constructor].
        left. exists h, st, b, (Some dt). split; [exact Hi|]. split; [reflexivity|]. right. left. split; [exact E1|].
        intros d' [= <-]. apply M. unfold rb_request in Q. pose proof (wi_responses s I) as IR.
        destruct (rb_responses (in_buf (sy_in s))) as [|y ys]; [discriminate|]. injection Q as <-. exact (Forall_inv IR). }
      destruct (N.eqb_spec (hd_ep h) 2) as [E2|E2]; injection E as <-;
        (eapply (frames_first s); [split; [eexists; reflexivity|auto]|exact J|exact P|right; eexists; split; [reflexivity|exact Logic.I]
            |exists []; rewrite app_nil_r; split; [reflexivity|constructor]|]); cbn [sy_pending opt_list]; [|constructor].
      constructor; [|constructor]. left. exists h, st, b, None. split; [exact Hi|]. split; [reflexivity|]. right. right. auto.
    + destruct (in_step (sy_in s) (IUnlink t)) as [i|] eqn:IS; [|discriminate]. cbn [obind] in E. injection E as <-.
      pose proof (in_step_made s _ i IS) as M.
      eapply (frames_first s); [split; [eexists; reflexivity|exact M]|exact J|exact P|right; eexists; split; [reflexivity|exact Logic.I]
            |exists []; rewrite app_nil_r; split; [reflexivity|constructor]|]. cbn [sy_pending opt_list].
      constructor; [|constructor]. right. exists h. eexists. split; [|reflexivity]. cbn [sy_log]. rewrite unlinks_of_app. apply in_or_app. right. now left.
  - destruct (sy_pending s) as [f|] eqn:P; [|discriminate]. injection E as <-.
    assert (forall g, frame_from s g -> frame_from (mk_sys (sy_conn s) (sy_in s) (sy_subs s) None (sy_delegate s) (sy_out s ++ [f]) (sy_log s)) g) as Fg.
    { intros g. apply frame_grows. split; [exists []; now rewrite app_nil_r|auto]. }
    left. destruct J as [(frames & O & F & Fp)|(r & O & P' & L)].
    + exists (frames ++ [f]). cbn [sy_out sy_log sy_pending opt_list]. rewrite O, app_assoc. split; [reflexivity|]. split; [|constructor].
      apply Forall_app. split; [eapply Forall_impl; [|exact F]; exact Fg|].
      rewrite P in Fp. constructor; [|constructor]. apply Fg. exact (Forall_inv Fp).
    + exists []. cbn [sy_out sy_log sy_pending opt_list]. rewrite O, L. rewrite P in P'. injection P' as ->. split; [reflexivity|]. split; constructor.
  - destruct (in_step (sy_in s) _) as [i|] eqn:IS; [|discriminate]. cbn [obind] in E. injection E as <-.
    pose proof (in_step_made s _ i IS) as M.
    assert (grows s (mk_sys (sy_conn s) i (sy_subs s) (sy_pending s) (sy_delegate s) (sy_out s) (sy_log s))) as G
      by (split; [exists []; now rewrite app_nil_r|exact M]).
    destruct J as [(frames & O & F & Fp)|(r & O & P' & L)]; [left; exists frames|right; exists r; auto].
    split; [exact O|]. split; eapply Forall_impl; try (intros g; apply (frame_grows s)); eauto.
  - destruct (nth_error (in_flight (sy_in s)) j) as [f|] eqn:Nf; [|discriminate]. cbn [obind] in E.
    destruct (nth_error (sy_subs s) (fl_key f)) as [[h b]|] eqn:Ns; [|discriminate]. cbn [obind] in E.
    destruct (in_step (sy_in s) _) as [i|] eqn:IS; [|discriminate]. cbn [obind] in E. injection E as <-.
    pose proof (in_step_made s _ i IS) as M. apply nth_error_In in Ns, Nf.
    destruct (wi_subs s I h b Ns) as (E1 & st & Hi).
    set (s' := mk_sys _ _ _ _ _ _ _).
    assert (grows s s') as G by (split; [exists []; now rewrite app_nil_r|exact M]).
    destruct J as [(frames & O & F & Fp)|(r & O & P' & L)]; [|exfalso; rewrite L in Hi; exact Hi].
    left. exists (frames ++ [return_submit h b (fl_value f)]). unfold s' at 1 2. cbn [sy_out sy_log]. rewrite O, app_assoc.
    split; [reflexivity|]. split; [apply Forall_app; split|].
    + eapply Forall_impl; [intros g; now apply (frame_grows s)|exact F].
    + constructor; [|constructor]. left. exists h, st, b, (fl_value f). split; [exact Hi|]. split; [reflexivity|].
      right. left. split; [exact E1|]. intros d Hd. apply M. exact (wi_flight s I f d Nf Hd).
    + eapply Forall_impl; [intros g; now apply (frame_grows s)|exact Fp].
  - destruct (in_step (sy_in s) _) as [i|] eqn:IS; [|discriminate]. cbn [obind] in E. injection E as <-.
    pose proof (in_step_made s _ i IS) as M.
    assert (grows s (mk_sys (sy_conn s) i (sy_subs s) (sy_pending s) (sy_delegate s) (sy_out s) (sy_log s))) as G
      by (split; [exists []; now rewrite app_nil_r|exact M]).
    destruct J as [(frames & O & F & Fp)|(r & O & P' & L)]; [left; exists frames|right; exists r; auto].
    split; [exact O|]. split; eapply Forall_impl; try (intros g; apply (frame_grows s)); eauto.
Qed.

Lemma attached_prefix ms a b : attached_log ms (a ++ b) -> attached_log ms a.
Proof.
  intros [A|(x & r & A & X & R)]; [left; now apply app_eq_nil in A|].
  destruct a as [|y a]; [now left|]. injection A as -> A. subst r. apply Forall_app in R. right. exists x, a.
  split; [reflexivity|]. split; [|exact (proj1 R)]. destruct X as [[-> X]|X]; [|now right]. left. split; [reflexivity|].
  apply Forall_app in X. exact (proj1 X).
Qed.

Lemma framed_run ms ls : forall s s', wire_inv s -> framed_inv s -> sys_run s ls = Some s' -> attached_log ms (sy_log s') -> framed_inv s'.
Proof.
  induction ls as [|l ls IH]; intros s s' I J R A; cbn [sys_run] in R; [injection R as <-; exact J|].
  destruct (sys_step s l) as [s1|] eqn:E; [|discriminate]. cbn [obind] in R.
  destruct (run_log _ _ _ R) as (n & En). apply (IH s1); auto; [eapply wire_step; eauto|].
  eapply framed_step; eauto. rewrite En in A. eapply attached_prefix; eauto.
Qed.

(* what is in the log of submits and unlinks *)
Lemma log_submit ms log h st b : attached_log ms log -> In (h, st, b) (submits_of log) ->
  exists m, In m ms /\ exists seq devid dir ep flags start packets interval n d,
    m = MSubmit seq devid dir ep flags start packets interval n st d /\ h = mk_header 1 seq devid dir ep /\
    b = if dir =? 0 then d else zeros (N.to_nat n).
Proof.
  intros A I. unfold submits_of in I. apply in_flat_map in I. destruct I as (a & Ia & Ib).
  destruct a as [|r|d0 h' st' b'|]; try contradiction. destruct Ib as [[= -> -> ->]|[]].
  destruct A as [->|(a0 & rest & -> & Ha & R)]; [contradiction|].
  destruct Ia as [->|Ia]; [destruct Ha as [[? _]|?]; discriminate|]. rewrite Forall_forall in R.
  destruct (R _ Ia) as [X|(m & d & Im & Sm)]; [discriminate|]. exists m. split; [exact Im|].
  destruct m as [| |seq devid dir ep flags start packets interval n setup dt|]; try discriminate.
  cbn [spec_phase_action msg_header] in Sm. injection Sm as _ <- <- <-. repeat eexists.
Qed.

Lemma log_unlink ms log h : attached_log ms log -> In h (unlinks_of log) ->
  exists seq devid dir ep target padding, In (MUnlink seq devid dir ep target padding) ms /\ h = mk_header 2 seq devid dir ep.
Proof.
  intros A I. unfold unlinks_of in I. apply in_flat_map in I. destruct I as (a & Ia & Ib).
  destruct a as [|r|d0 h' st' b'|d0 h' t]; try contradiction. destruct Ib as [->|[]].
  destruct A as [->|(a0 & rest & -> & Ha & R)]; [contradiction|].
  destruct Ia as [->|Ia]; [destruct Ha as [[? _]|?]; discriminate|]. rewrite Forall_forall in R.
  destruct (R _ Ia) as [X|(m & d & Im & Sm)]; [discriminate|].
  destruct m as [| | |seq devid dir ep target padding]; try discriminate.
  cbn [spec_phase_action msg_header] in Sm. injection Sm as _ <- _. repeat eexists. exact Im.
Qed.

(* everything about a session of a client that attached the device *)
Theorem attached_session v st field ms stream ls s : well_formed (MImport v st field) -> named field bus_id ->
  Forall well_formed ms -> Forall command ms -> Forall wfb stream ->
  (exists x, concat stream ++ x = message_bytes (MImport v st field) ++ concat (map message_bytes ms)) ->
  Forall (fun sp => uncut stream (fst sp) (snd sp)) (data_spans 0 (MImport v st field :: ms)) ->
  sys_run (sys_init stream) ls = Some s ->
  wire_inv s /\ attached_log ms (sy_log s) /\
  exists ctrl frames, sy_out s = ctrl ++ frames /\ Forall (frame_from s) frames /\
    (ctrl = [] /\ frames = [] \/ ctrl = [op_rep_import usb_device]).
Proof.
  intros Wi Nm W K Wb E U R.
  assert (wire_inv s) as I by (eapply wire_run; [apply wire_init; exact Wb|exact R]).
  destruct (run_log _ _ _ R) as (n & En). cbn [sys_init sy_log sy_conn app] in En.
  pose proof (run_import n v st field ms stream Wi Nm W K E U) as A. rewrite <- En in A.
  assert (framed_inv s) as J.
  { eapply framed_run; [apply wire_init; exact Wb| |exact R|exact A]. left. exists []. cbn. auto. }
  split; [exact I|]. split; [exact A|].
  destruct J as [(frames & O & F & _)|(r & O & P & L)]; [|exists [], []; split; [exact O|split; [constructor|auto]]].
  eexists _, frames. split; [exact O|]. split; [exact F|].
  assert (forall l, Forall (read_of ms) l -> flat_map (fun a => match a with AWrite r => [r] | _ => [] end) l = []) as Z.
  { induction l as [|a l IHl]; intro Fl; [reflexivity|]. cbn [flat_map]. rewrite IHl by exact (Forall_inv_tail Fl).
    destruct (Forall_inv Fl) as [->|(m & d & _ & Sm)]; [reflexivity|]. destruct m; try discriminate; injection Sm as <-; reflexivity. }
  destruct A as [A|(a & r & A & Ha & Fr)]; rewrite A.
  - left. split; [reflexivity|]. destruct frames as [|f frames]; [reflexivity|]. exfalso.
    pose proof (Forall_inv F) as Ff. unfold frame_from in Ff. rewrite A in Ff. destruct Ff as [(? & ? & ? & ? & [] & _)|(? & ? & [] & _)].
  - cbn [flat_map]. rewrite (Z r Fr), app_nil_r. destruct Ha as [[-> Hn]| ->]; [|now right]. left. split; [reflexivity|].
    destruct frames as [|f frames]; [reflexivity|]. exfalso.
    assert (submits_of (ANone :: r) = [] /\ unlinks_of (ANone :: r) = []) as [Sn Un].
    { clear - Hn. cbn [submits_of unlinks_of flat_map app]. induction Hn as [|x r -> Hn IHr]; [auto|exact IHr]. }
    pose proof (Forall_inv F) as Ff. unfold frame_from in Ff. rewrite A, Sn, Un in Ff. destruct Ff as [(? & ? & ? & ? & [] & _)|(? & ? & [] & _)].
Qed.
