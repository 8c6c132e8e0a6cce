From Verif Require Import Base M_Str M_Log S_Log.

Lemma kind_eqb_eq a b : kind_eqb a b = true <-> a = b.
Proof. destruct a, b; cbn; split; congruence. Qed.
Lemma kind_eqb_refl a : kind_eqb a a = true.
Proof. now apply kind_eqb_eq. Qed.

Lemma log_run_app l l' s : log_run (l ++ l') s = match log_run l s with Ok s' => log_run l' s' | Panic => Panic end.
Proof. revert s. induction l as [|c l IH]; intro s; cbn; [reflexivity|]. destruct (log_step s c); auto. Qed.

Lemma logged_app k a b : logged k (a ++ b) = logged k a ++ logged k b.
Proof. induction a as [|c a IH]; [reflexivity|]. destruct c; cbn; rewrite IH, ?app_assoc; reflexivity. Qed.

Lemma writer_app a b o : writer (a ++ b) o = writer b (writer a o).
Proof. revert o. induction a as [|c a IH]; intro o; [reflexivity|]. destruct c; cbn; apply IH. Qed.

Lemma part_app k a b : part k (a ++ b) = part k a ++ part k b.
Proof. unfold part. now rewrite filter_app, map_app. Qed.

Lemma part_all k l : part k (map (fun p => (k, p)) l) = l.
Proof. unfold part. induction l as [|p l IH]; [reflexivity|]. cbn. rewrite kind_eqb_refl. cbn. now rewrite IH. Qed.

Lemma part_none k j l : k <> j -> part k (map (fun p => (j, p)) l) = [].
Proof.
  intro N. unfold part. induction l as [|p l IH]; [reflexivity|]. cbn.
  destruct (kind_eqb j k) eqn:Q; [apply kind_eqb_eq in Q; congruence|exact IH].
Qed.

Lemma enabled_more k cs c : enabled k (cs ++ [c]) = (enabled k cs || enables k c)%bool.
Proof. destruct k; cbn; rewrite ?existsb_app; cbn; rewrite ?orb_false_r; reflexivity. Qed.

Local Arguments enabled : simpl never.

(* The three buffers and everything that got past them. *)
Record view : Type := mk_view { vu : bytes; vuo : bool; vt : bytes; vto : bool; vd : bytes; vdo : bool; ve : bytes }.
Definition view_of (s : log_state) : view :=
  mk_view (unsafe_buf s) (unsafe_on s) (trace_buf s) (trace_on s) (debug_buf s) (debug_on s) (shown s ++ enabled_buf s).
Definition held_ok (s : log_state) : Prop := forall o, enabled_out s = Some o -> enabled_buf s = [].

Definition v_enabled p v := mk_view (vu v) (vuo v) (vt v) (vto v) (vd v) (vdo v) (ve v ++ p).
Definition v_debug p v := if vdo v then v_enabled p v else mk_view (vu v) (vuo v) (vt v) (vto v) (vd v ++ p) (vdo v) (ve v).
Definition v_trace p v := if vto v then v_debug p v else mk_view (vu v) (vuo v) (vt v ++ p) (vto v) (vd v) (vdo v) (ve v).
Definition v_unsafe p v := if vuo v then v_trace p v else mk_view (vu v ++ p) (vuo v) (vt v) (vto v) (vd v) (vdo v) (ve v).

Definition same_out (s s' : log_state) : Prop := enabled_out s' = enabled_out s /\ (held_ok s -> held_ok s').

Lemma same_out_refl s : same_out s s.
Proof. split; auto. Qed.

Lemma write_enabled_view p s : held_ok s -> view_of (write_enabled p s) = v_enabled p (view_of s) /\ same_out s (write_enabled p s).
Proof.
  intro H. unfold write_enabled, view_of, v_enabled, shown, same_out, held_ok in *.
  destruct (enabled_out s) as [o|] eqn:O; cbn.
  - split; [|split; [reflexivity|intros _ o' _; exact (H o eq_refl)]].
    rewrite map_app, concat_app. cbn. rewrite (H o eq_refl), !app_nil_r. reflexivity.
  - split; [|split; [reflexivity|intros _ o' Q; discriminate Q]]. now rewrite app_assoc.
Qed.
Lemma write_debug_view p s : held_ok s -> view_of (write_debug p s) = v_debug p (view_of s) /\ same_out s (write_debug p s).
Proof.
  intro H. unfold write_debug, v_debug. cbn. destruct (debug_on s) eqn:Q; [now apply write_enabled_view|].
  split; [unfold view_of; cbn; rewrite ?Q; reflexivity|split; [reflexivity|intros K o O; exact (K o O)]].
Qed.
Lemma write_trace_view p s : held_ok s -> view_of (write_trace p s) = v_trace p (view_of s) /\ same_out s (write_trace p s).
Proof.
  intro H. unfold write_trace, v_trace. cbn. destruct (trace_on s) eqn:Q; [now apply write_debug_view|].
  split; [unfold view_of; cbn; rewrite ?Q; reflexivity|split; [reflexivity|intros K o O; exact (K o O)]].
Qed.
Lemma write_unsafe_view p s : held_ok s -> view_of (write_unsafe p s) = v_unsafe p (view_of s) /\ same_out s (write_unsafe p s).
Proof.
  intro H. unfold write_unsafe, v_unsafe. cbn. destruct (unsafe_on s) eqn:Q; [now apply write_trace_view|].
  split; [unfold view_of; cbn; rewrite ?Q; reflexivity|split; [reflexivity|intros K o O; exact (K o O)]].
Qed.

Lemma len0 {A} (b : list A) : (0 <? len b) = false -> b = [].
Proof. destruct b; [reflexivity|]. rewrite len_cons. intro H. apply N.ltb_ge in H. lia. Qed.

Definition va_unsafe v := let v := v_trace (vu v) (mk_view [] (vuo v) (vt v) (vto v) (vd v) (vdo v) (ve v)) in
  mk_view (vu v) true (vt v) (vto v) (vd v) (vdo v) (ve v).
Definition va_trace v := let v := v_debug (vt v) (mk_view (vu v) (vuo v) [] (vto v) (vd v) (vdo v) (ve v)) in
  mk_view (vu v) (vuo v) (vt v) true (vd v) (vdo v) (ve v).
Definition va_debug v := let v := v_enabled (vd v) (mk_view (vu v) (vuo v) (vt v) (vto v) [] (vdo v) (ve v)) in
  mk_view (vu v) (vuo v) (vt v) (vto v) (vd v) true (ve v).

Lemma attach_unsafe_view s : held_ok s -> view_of (attach_unsafe s) = va_unsafe (view_of s) /\ same_out s (attach_unsafe s).
Proof.
  intro H. unfold attach_unsafe, va_unsafe. cbv zeta.
  match goal with |- context [write_trace ?p ?t] => destruct (write_trace_view p t H) as [W [O K]] end.
  destruct (0 <? len (unsafe_buf s)) eqn:Q.
  - split; [|split; [exact O|intros _; exact (K H)]].
    change (view_of (mk_log [] (unsafe_on s) (trace_buf s) (trace_on s) (debug_buf s) (debug_on s)
                  (enabled_buf s) (enabled_out s) (sink s))) with
      (mk_view [] (unsafe_on s) (trace_buf s) (trace_on s) (debug_buf s) (debug_on s) (shown s ++ enabled_buf s)) in W.
    cbn [vu vuo vt vto vd vdo ve view_of]. rewrite <- W. reflexivity.
  - apply len0 in Q. split; [|split; [reflexivity|intros K' o O'; exact (K' o O')]].
    unfold view_of, v_trace, v_debug, v_enabled, shown. cbn. rewrite Q.
    destruct (trace_on s), (debug_on s); cbn; rewrite ?app_nil_r; reflexivity.
Qed.
Lemma attach_trace_view s : held_ok s -> view_of (attach_trace s) = va_trace (view_of s) /\ same_out s (attach_trace s).
Proof.
  intro H. unfold attach_trace, va_trace. cbv zeta.
  match goal with |- context [write_debug ?p ?t] => destruct (write_debug_view p t H) as [W [O K]] end.
  destruct (0 <? len (trace_buf s)) eqn:Q.
  - split; [|split; [exact O|intros _; exact (K H)]].
    change (view_of (mk_log (unsafe_buf s) (unsafe_on s) [] (trace_on s) (debug_buf s) (debug_on s)
                  (enabled_buf s) (enabled_out s) (sink s))) with
      (mk_view (unsafe_buf s) (unsafe_on s) [] (trace_on s) (debug_buf s) (debug_on s) (shown s ++ enabled_buf s)) in W.
    cbn [vu vuo vt vto vd vdo ve view_of]. rewrite <- W. reflexivity.
  - apply len0 in Q. split; [|split; [reflexivity|intros K' o O'; exact (K' o O')]].
    unfold view_of, v_debug, v_enabled, shown. cbn. rewrite Q.
    destruct (debug_on s); cbn; rewrite ?app_nil_r; reflexivity.
Qed.
Lemma attach_debug_view s : held_ok s -> view_of (attach_debug s) = va_debug (view_of s) /\ same_out s (attach_debug s).
Proof.
  intro H. unfold attach_debug, va_debug. cbv zeta.
  match goal with |- context [write_enabled ?p ?t] => destruct (write_enabled_view p t H) as [W [O K]] end.
  destruct (0 <? len (debug_buf s)) eqn:Q.
  - split; [|split; [exact O|intros _; exact (K H)]].
    change (view_of (mk_log (unsafe_buf s) (unsafe_on s) (trace_buf s) (trace_on s) [] (debug_on s)
                  (enabled_buf s) (enabled_out s) (sink s))) with
      (mk_view (unsafe_buf s) (unsafe_on s) (trace_buf s) (trace_on s) [] (debug_on s) (shown s ++ enabled_buf s)) in W.
    cbn [vu vuo vt vto vd vdo ve view_of]. rewrite <- W. reflexivity.
  - apply len0 in Q. split; [|split; [reflexivity|intros K' o O'; exact (K' o O')]].
    unfold view_of, v_enabled, shown. cbn. rewrite Q. rewrite ?app_nil_r; reflexivity.
Qed.

Definition v_level (l : N) v :=
  let v := if l <=? lv_unsafe then va_unsafe v else v in
  let v := if l <=? lv_trace then va_trace v else v in
  let v := if l <=? lv_debug then va_debug v else v in
  v_enabled (level_line l) v.

Lemma same_out_trans a b c : same_out a b -> same_out b c -> same_out a c.
Proof. intros [A B] [C D]. split; [congruence|auto]. Qed.

Lemma set_level_view l s : held_ok s -> view_of (set_level l s) = v_level l (view_of s) /\ same_out s (set_level l s).
Proof.
  intro H. unfold set_level, v_level. cbv zeta.
  set (a := if l <=? lv_unsafe then attach_unsafe s else s).
  assert (A : view_of a = (if l <=? lv_unsafe then va_unsafe (view_of s) else view_of s) /\ same_out s a)
    by (subst a; destruct (l <=? lv_unsafe); [now apply attach_unsafe_view|split; [reflexivity|apply same_out_refl]]).
  clearbody a. destruct A as [A A2]. rewrite <- A. pose proof (proj2 A2 H) as Ha.
  set (b := if l <=? lv_trace then attach_trace a else a).
  assert (B : view_of b = (if l <=? lv_trace then va_trace (view_of a) else view_of a) /\ same_out a b)
    by (subst b; destruct (l <=? lv_trace); [now apply attach_trace_view|split; [reflexivity|apply same_out_refl]]).
  clearbody b. destruct B as [B B2]. rewrite <- B. pose proof (proj2 B2 Ha) as Hb.
  set (c := if l <=? lv_debug then attach_debug b else b).
  assert (C : view_of c = (if l <=? lv_debug then va_debug (view_of b) else view_of b) /\ same_out b c)
    by (subst c; destruct (l <=? lv_debug); [now apply attach_debug_view|split; [reflexivity|apply same_out_refl]]).
  clearbody c. destruct C as [C C2]. rewrite <- C. pose proof (proj2 C2 Hb) as Hc.
  destruct (write_enabled_view (level_line l) c Hc) as [D D2]. split; [exact D|].
  eauto using same_out_trans.
Qed.

Definition v_write l p v :=
  match kind_of l with KEnabled => v_enabled p v | KDebug => v_debug p v | KTrace => v_trace p v | KUnsafe => v_unsafe p v end.

Lemma log_write_view l p s : held_ok s -> view_of (log_write l p s) = v_write l p (view_of s) /\ same_out s (log_write l p s).
Proof.
  intro H. unfold log_write, v_write, kind_of.
  destruct (l =? lv_enabled) eqn:A; [apply N.eqb_eq in A; subst l; now apply write_enabled_view|].
  destruct (l =? lv_debug) eqn:B; [apply N.eqb_eq in B; subst l; now apply write_debug_view|].
  destruct (l =? lv_trace) eqn:C; [apply N.eqb_eq in C; subst l; now apply write_trace_view|].
  assert (K : kind_of l = KUnsafe) by (destruct l as [|[[q|q|]|[q|q|]|]]; try reflexivity; discriminate).
  unfold kind_of in K. rewrite K. now apply write_unsafe_view.
Qed.

(* The view after some calls. *)
Record view_inv (cs : list log_call) (v : view) : Prop := {
  vi_u : vuo v = enabled KUnsafe cs;
  vi_t : vto v = enabled KTrace cs;
  vi_d : vdo v = enabled KDebug cs;
  vi_ut : vuo v = true -> vto v = true;
  vi_td : vto v = true -> vdo v = true;
  vi_ub : vu v = if vuo v then [] else concat (logged KUnsafe cs);
  vi_tb : vt v = if vto v then [] else concat (logged KTrace cs);
  vi_db : vd v = if vdo v then [] else concat (logged KDebug cs);
  vi_m : exists m, ve v = concat (map snd m) /\ forall k, part k m = if enabled k cs then logged k cs else []
}.

Lemma enables_write k l p : enables k (LWrite l p) = false.
Proof. reflexivity. Qed.

Lemma merge_one cs l p m (e : bytes) :
  e = concat (map snd m) -> (forall k, part k m = if enabled k cs then logged k cs else []) ->
  enabled (kind_of l) cs = true ->
  exists m', e ++ p = concat (map snd m') /\
    forall k, part k m' = if enabled k (cs ++ [LWrite l p]) then logged k (cs ++ [LWrite l p]) else [].
Proof.
  intros E P En. exists (m ++ [(kind_of l, p)]). split.
  - rewrite map_app, concat_app. cbn. now rewrite app_nil_r, E.
  - intro k. rewrite part_app, P, enabled_more, logged_app, enables_write, orb_false_r. cbn [logged].
    unfold part. cbn. rewrite app_nil_r. destruct (kind_eqb (kind_of l) k) eqn:K; cbn.
    + apply kind_eqb_eq in K. subst k. now rewrite En.
    + rewrite !app_nil_r. reflexivity.
Qed.
Lemma merge_hidden cs l p m (e : bytes) :
  e = concat (map snd m) -> (forall k, part k m = if enabled k cs then logged k cs else []) ->
  enabled (kind_of l) cs = false ->
  exists m', e = concat (map snd m') /\
    forall k, part k m' = if enabled k (cs ++ [LWrite l p]) then logged k (cs ++ [LWrite l p]) else [].
Proof.
  intros E P En. exists m. split; [exact E|].
  intro k. rewrite P, enabled_more, logged_app, enables_write, orb_false_r. cbn [logged].
  destruct (kind_eqb (kind_of l) k) eqn:K.
  - apply kind_eqb_eq in K. subst k. now rewrite En.
  - cbn. rewrite !app_nil_r. reflexivity.
Qed.

Lemma logged_write k cs l p : logged k (cs ++ [LWrite l p]) = logged k cs ++ (if kind_eqb (kind_of l) k then [p] else []).
Proof. rewrite logged_app. cbn. now rewrite app_nil_r. Qed.

Lemma view_write cs l p v : view_inv cs v -> view_inv (cs ++ [LWrite l p]) (v_write l p v).
Proof.
  intros [A B C D E F G H [m [M1 M2]]].
  pose proof (merge_one cs l p m (ve v) M1 M2) as Yes.
  pose proof (merge_hidden cs l p m (ve v) M1 M2) as No.
  pose proof (logged_write KUnsafe cs l p) as L0. pose proof (logged_write KTrace cs l p) as L1.
  pose proof (logged_write KDebug cs l p) as L2.
  pose proof (enabled_more KUnsafe cs (LWrite l p)) as E0. pose proof (enabled_more KTrace cs (LWrite l p)) as E1.
  pose proof (enabled_more KDebug cs (LWrite l p)) as E2. rewrite enables_write, orb_false_r in E0, E1, E2.
  unfold v_write, v_unsafe, v_trace, v_debug, v_enabled.
  destruct v as [u uo t to d do_ e]; cbn in *. subst u t d.
  destruct (kind_of l); cbn in L0, L1, L2; rewrite ?app_nil_r in L0; rewrite ?app_nil_r in L1; rewrite ?app_nil_r in L2; subst uo to do_.
  - destruct (enabled KUnsafe cs) eqn:Q; [pose proof (D eq_refl) as D'; pose proof (E D') as E'; rewrite D', E' in *|]; split; cbn;
      rewrite ?E0, ?E1, ?E2, ?L0, ?L1, ?L2, ?concat_app; cbn; rewrite ?app_nil_r; auto.
  - destruct (enabled KTrace cs) eqn:Q; [pose proof (E eq_refl) as E'; rewrite E' in *|]; split; cbn;
      rewrite ?E0, ?E1, ?E2, ?L0, ?L1, ?L2, ?concat_app; cbn; rewrite ?app_nil_r; auto.
  - destruct (enabled KDebug cs) eqn:Q; split; cbn;
      rewrite ?E0, ?E1, ?E2, ?L0, ?L1, ?L2, ?concat_app; cbn; rewrite ?app_nil_r; auto.
  - split; cbn; rewrite ?E0, ?E1, ?E2, ?L0, ?L1, ?L2, ?concat_app; cbn; rewrite ?app_nil_r; auto.
Qed.

(* Text that was waiting in a buffer, as parts of the merged log. *)
Definition tag (k : kind) (l : list bytes) : list (kind * bytes) := map (fun p => (k, p)) l.
Lemma tag_text k l : concat (map snd (tag k l)) = concat l.
Proof. unfold tag. rewrite map_map. cbn. now rewrite map_id. Qed.
Lemma part_tag k j l : part k (tag j l) = if kind_eqb j k then l else [].
Proof.
  destruct (kind_eqb j k) eqn:Q; [apply kind_eqb_eq in Q; subst; apply part_all|].
  apply part_none. intro; subst. now rewrite kind_eqb_refl in Q.
Qed.

Definition late (k : kind) (cs : list log_call) (l : N) : list (kind * bytes) :=
  if enabled k cs then [] else if l <=? threshold k then tag k (logged k cs) else [].

Lemma part_late j k cs l : part j (late k cs l) =
  if kind_eqb k j then if enabled k cs then [] else if l <=? threshold k then logged k cs else [] else [].
Proof.
  unfold late. destruct (enabled k cs); [now destruct (kind_eqb k j)|].
  destruct (l <=? threshold k); [apply part_tag|now destruct (kind_eqb k j)].
Qed.

Lemma merge_level cs l m (e : bytes) :
  e = concat (map snd m) -> (forall k, part k m = if enabled k cs then logged k cs else []) ->
  exists m', e ++ concat (map snd (late KDebug cs l)) ++ concat (map snd (late KTrace cs l)) ++
                  concat (map snd (late KUnsafe cs l)) ++ level_line l = concat (map snd m') /\
    forall k, part k m' = if enabled k (cs ++ [LSetLevel l]) then logged k (cs ++ [LSetLevel l]) else [].
Proof.
  intros E P. exists (m ++ late KDebug cs l ++ late KTrace cs l ++ late KUnsafe cs l ++ [(KEnabled, level_line l)]). split.
  - rewrite !map_app, !concat_app. cbn. now rewrite app_nil_r, E.
  - intro k. rewrite !part_app, P, enabled_more, logged_app, !part_late. cbn [logged enables].
    destruct k; cbn [kind_eqb]; unfold part; cbn [filter map kind_eqb fst snd app threshold];
      rewrite ?app_nil_r; [..|reflexivity];
      match goal with |- context [enabled ?k cs] => destruct (enabled k cs) eqn:? end; cbn [orb app]; rewrite ?app_nil_r; try reflexivity;
      match goal with |- context [l <=? ?n] => destruct (l <=? n) end; reflexivity.
Qed.

Lemma logged_level k cs l : k <> KEnabled -> logged k (cs ++ [LSetLevel l]) = logged k cs.
Proof. intro N. rewrite logged_app. cbn. destruct k; cbn; rewrite ?app_nil_r; congruence. Qed.

Lemma view_level cs l v : view_inv cs v -> view_inv (cs ++ [LSetLevel l]) (v_level l v).
Proof.
  intros [A B C D E F G H [m [M1 M2]]].
  pose proof (merge_level cs l m (ve v) M1 M2) as Yes.
  pose proof (logged_level KUnsafe cs l ltac:(discriminate)) as L0. pose proof (logged_level KTrace cs l ltac:(discriminate)) as L1.
  pose proof (logged_level KDebug cs l ltac:(discriminate)) as L2.
  pose proof (enabled_more KUnsafe cs (LSetLevel l)) as E0. pose proof (enabled_more KTrace cs (LSetLevel l)) as E1.
  pose proof (enabled_more KDebug cs (LSetLevel l)) as E2. cbn [enables threshold] in E0, E1, E2.
  unfold late in Yes. cbn [threshold] in Yes.
  unfold v_level, lv_unsafe, lv_trace, lv_debug.
  destruct v as [u uo t to d do_ e]; cbn in A, B, C, D, E, F, G, H, M1, Yes. subst u t d.
  assert (I1 : (l <=? 0) = true -> (l <=? 1) = true) by (intro X; apply N.leb_le in X; apply N.leb_le; lia).
  assert (I2 : (l <=? 1) = true -> (l <=? 2) = true) by (intro X; apply N.leb_le in X; apply N.leb_le; lia).
  rewrite <- A, <- B, <- C in *. clear A B C.
  destruct (l <=? 0) eqn:Q0, (l <=? 1) eqn:Q1, (l <=? 2) eqn:Q2;
    try discriminate (I1 eq_refl); try discriminate (I2 eq_refl); clear I1 I2;
    destruct uo, to, do_; try discriminate (D eq_refl); try discriminate (E eq_refl); clear D E;
    cbv beta iota zeta delta [va_unsafe va_trace va_debug v_trace v_debug v_enabled vu vuo vt vto vd vdo ve]; split; cbn [vu vuo vt vto vd vdo ve];
    rewrite ?E0, ?E1, ?E2, ?L0, ?L1, ?L2; try reflexivity; try discriminate;
    rewrite ?tag_text in Yes; cbn [app map concat] in Yes; rewrite ?app_nil_r in *; rewrite <- ?app_assoc; auto.
Qed.

Lemma view_output cs o v : view_inv cs v -> view_inv (cs ++ [LSetOutput o]) v.
Proof.
  intros [A B C D E F G H [m [M1 M2]]].
  assert (L : forall k, logged k (cs ++ [LSetOutput o]) = logged k cs) by (intro k; rewrite logged_app; cbn; apply app_nil_r).
  assert (N : forall k, enabled k (cs ++ [LSetOutput o]) = enabled k cs) by (intro k; rewrite enabled_more; cbn; apply orb_false_r).
  split; rewrite ?L, ?N; auto. exists m. split; [exact M1|]. intro k. rewrite L, N. apply M2.
Qed.

(* The invariant of the package. *)
Definition log_inv (cs : list log_call) (s : log_state) : Prop :=
  view_inv cs (view_of s) /\ held_ok s /\ enabled_out s = writer cs None.

Lemma log_start_inv : log_inv [] log_start.
Proof.
  split; [|split; [intros o Q; discriminate Q|reflexivity]].
  split; cbn; auto; try discriminate. exists []. split; [reflexivity|]. intros []; reflexivity.
Qed.

Lemma log_step_inv cs s c s' : log_inv cs s -> log_step s c = Ok s' -> log_inv (cs ++ [c]) s'.
Proof.
  intros [V [H O]] S. unfold log_inv. rewrite writer_app. destruct c as [l p|l|o]; cbn in S.
  - injection S as <-. destruct (log_write_view l p s H) as [W [O' K]]. rewrite W. cbn.
    split; [now apply view_write|split; [auto|congruence]].
  - injection S as <-. destruct (set_level_view l s H) as [W [O' K]]. rewrite W. cbn.
    split; [now apply view_level|split; [auto|congruence]].
  - cbn. unfold attach_enabled in S. destruct o as [w|].
    + injection S as <-. split; [|split; [intros o' _; reflexivity|reflexivity]].
      apply view_output. unfold view_of, shown in *. cbn.
      replace (concat (map snd (if 0 <? len (enabled_buf s) then sink s ++ [(w, enabled_buf s)] else sink s)) ++ [])
        with (concat (map snd (sink s)) ++ enabled_buf s); [exact V|].
      destruct (0 <? len (enabled_buf s)) eqn:Q.
      * rewrite map_app, concat_app. cbn. now rewrite !app_nil_r.
      * apply len0 in Q. now rewrite Q.
    + destruct (0 <? len (enabled_buf s)) eqn:Q; [discriminate S|]. injection S as <-.
      split; [now apply view_output|split; [intros o' Q'; discriminate Q'|reflexivity]].
Qed.

Lemma log_run_inv cs s : log_run cs log_start = Ok s -> log_inv cs s.
Proof.
  revert s. induction cs as [|c cs IH] using rev_ind; intros s H; [injection H as <-; exact log_start_inv|].
  rewrite log_run_app in H. destruct (log_run cs log_start) as [t|] eqn:T; [|discriminate H].
  cbn in H. destruct (log_step t c) as [t'|] eqn:T'; [|discriminate H]. injection H as <-.
  eapply log_step_inv; eauto.
Qed.

(* Everything of the enabled kinds is shown, once and in order; of the others, nothing. *)
Lemma log_shown cs s o : log_run cs log_start = Ok s -> writer cs None = Some o ->
  exists m, shown s = concat (map snd m) /\ forall k, part k m = if enabled k cs then logged k cs else [].
Proof.
  intros R W. destruct (log_run_inv cs s R) as [V [H O]]. rewrite W in O.
  destruct (vi_m _ _ V) as [m [M1 M2]]. cbn in M1. rewrite (H o O), app_nil_r in M1. eauto.
Qed.

(* Nothing crashes as long as no nil writer is passed. *)
Definition outputs_given (cs : list log_call) : Prop := forall o, In (LSetOutput o) cs -> o <> None.
Lemma log_never_crashes cs s : outputs_given cs -> exists s', log_run cs s = Ok s'.
Proof.
  revert s. induction cs as [|c cs IH]; intros s H; [eexists; reflexivity|]. cbn.
  assert (exists t, log_step s c = Ok t) as [t T].
  { destruct c as [l p|l|[w|]]; cbn; eauto. exfalso. apply (H None); [now left|reflexivity]. }
  rewrite T. apply IH. intros o I. apply H. now right.
Qed.

(* Once enabled, a text reaches the writer at once. *)
Lemma log_at_once cs s l p o : log_run cs log_start = Ok s -> writer cs None = Some o -> enabled (kind_of l) cs = true ->
  exists s', log_step s (LWrite l p) = Ok s' /\ sink s' = sink s ++ [(o, p)].
Proof.
  intros R W En. destruct (log_run_inv cs s R) as [V [H O]]. rewrite W in O.
  assert (X : forall t, t = s -> sink (write_enabled p t) = sink s ++ [(o, p)])
    by (intros t ->; unfold write_enabled; rewrite O; reflexivity).
  eexists. split; [reflexivity|]. destruct V as [A B C D E _ _ _ _]. cbn in A, B, C, D, E.
  unfold log_write, write_unsafe, write_trace, write_debug, kind_of in *.
  destruct (l =? lv_enabled) eqn:Q3; [now apply X|].
  destruct (l =? lv_debug) eqn:Q2; [apply N.eqb_eq in Q2; subst l; change (enabled KDebug cs = true) in En; rewrite C, En; now apply X|].
  destruct (l =? lv_trace) eqn:Q1; [apply N.eqb_eq in Q1; subst l; cbn [lv_trace] in En; change (enabled KTrace cs = true) in En; rewrite B, En, E by congruence; now apply X|].
  assert (En' : enabled KUnsafe cs = true) by (destruct l as [|[[q|q|]|[q|q|]|]]; try exact En; discriminate).
  rewrite A, En', D, E by (try apply D; congruence). now apply X.
Qed.

(* Texts of a kind that is not enabled leave no trace in the output. *)
Definition sees (k : kind) (a b : log_state) : Prop :=
  unsafe_on a = unsafe_on b /\ trace_on a = trace_on b /\ debug_on a = debug_on b /\
  enabled_out a = enabled_out b /\ enabled_buf a = enabled_buf b /\ sink a = sink b /\
  (k <> KUnsafe -> unsafe_buf a = unsafe_buf b) /\ (k <> KTrace -> trace_buf a = trace_buf b) /\
  (k <> KDebug -> debug_buf a = debug_buf b) /\
  match k with
  | KUnsafe => unsafe_on b = false
  | KTrace => unsafe_on b = false /\ trace_on b = false
  | KDebug => unsafe_on b = false /\ trace_on b = false /\ debug_on b = false
  | KEnabled => False
  end.

Lemma sees_start k : k <> KEnabled -> sees k log_start log_start.
Proof. intro N. unfold sees. cbn. do 9 (split; [reflexivity|]). destruct k; auto. Qed.

Ltac see S := 
  destruct S as (S1 & S2 & S3 & S4 & S5 & S6 & S7 & S8 & S9 & S10);
  cbn in S1, S2, S3, S4, S5, S6, S7, S8, S9, S10; subst.
Ltac got H := let X := fresh in assert (X := H ltac:(discriminate)); clear H; rename X into H; try subst.

Lemma sees_text k l p q a b : sees k a b -> kind_of l = k -> sees k (log_write l p a) (log_write l q b).
Proof.
  intros S <-. destruct a as [u uo t to d do_ e eo k], b as [u' uo' t' to' d' do_' e' eo' k']. unfold log_write.
  destruct (l =? lv_enabled) eqn:Q3; [apply N.eqb_eq in Q3; subst l; now see S|].
  destruct (l =? lv_debug) eqn:Q2;
    [apply N.eqb_eq in Q2; subst l; see S; destruct S10 as (-> & -> & ->); unfold sees; cbn; auto 15; do 9 (split; [auto; congruence|]); auto|].
  destruct (l =? lv_trace) eqn:Q1;
    [apply N.eqb_eq in Q1; subst l; see S; destruct S10 as (-> & ->); unfold sees; cbn; do 9 (split; [auto; congruence|]); auto|].
  assert (E : kind_of l = KUnsafe) by (destruct l as [|[[?|?|]|[?|?|]|]]; try reflexivity; discriminate).
  rewrite E in *. see S; unfold sees; cbn; do 9 (split; [auto; congruence|]); auto.
Qed.

Lemma sees_we k p a b : sees k a b -> sees k (write_enabled p a) (write_enabled p b).
Proof.
  intro S. destruct a as [u uo t to d do_ e eo s], b as [u' uo' t' to' d' do_' e' eo' s'].
  see S. unfold write_enabled. cbn. destruct eo'; unfold sees; cbn; do 9 (split; [auto; congruence|]); exact S10.
Qed.

Lemma sees_ad k a b : k <> KDebug -> sees k a b -> sees k (attach_debug a) (attach_debug b).
Proof.
  intros K S. destruct a as [u uo t to d do_ e eo s], b as [u' uo' t' to' d' do_' e' eo' s'].
  see S. rewrite (S9 K). unfold attach_debug, write_enabled. cbn.
  destruct (0 <? len d'), eo'; cbn; unfold sees; cbn; do 9 (split; [auto; congruence|]);
    destruct k; solve [assumption|congruence].
Qed.

Lemma sees_at a b : sees KUnsafe a b -> sees KUnsafe (attach_trace a) (attach_trace b).
Proof.
  intros S. destruct a as [u uo t to d do_ e eo s], b as [u' uo' t' to' d' do_' e' eo' s'].
  see S. assert (t = t') by (apply S8; discriminate). assert (d = d') by (apply S9; discriminate). subst.
  unfold attach_trace, write_debug, write_enabled. cbn.
  destruct (0 <? len t'), do_', eo'; cbn; unfold sees; cbn; do 9 (split; [auto; congruence|]); auto.
Qed.

Lemma sees_step k c a b a' : sees k a b -> enables k c = false -> log_step a c = Ok a' ->
  exists b', log_step b c = Ok b' /\ sees k a' b'.
Proof.
  intros S N H. destruct a as [u uo t to d do_ e eo s], b as [u' uo' t' to' d' do_' e' eo' s'].
  destruct c as [l p|l|o].
  - cbn in H. injection H as <-. eexists. split; [reflexivity|].
    unfold log_write, write_unsafe, write_trace, write_debug, write_enabled.
    see S. destruct k; cbn in *; [got S8; got S9|got S7; got S9; destruct S10 as [-> ->]
      |got S7; got S8; destruct S10 as (-> & -> & ->)|contradiction]; subst;
    destruct (l =? lv_enabled), (l =? lv_debug), (l =? lv_trace), eo' as [w|]; cbn;
    try destruct to'; try destruct do_'; cbn; unfold sees; cbn; do 9 (split; [auto; congruence|]); auto.
  - cbn in H. injection H as <-. eexists. split; [reflexivity|]. cbn in N.
    unfold set_level, lv_unsafe, lv_trace, lv_debug. apply sees_we. apply N.leb_gt in N.
    assert (Q0 : (l <=? 0) = false) by (apply N.leb_gt; lia). rewrite Q0.
    destruct k; cbn in N.
    + destruct (l <=? 1), (l <=? 2); repeat first [apply sees_ad; [discriminate|]|apply sees_at]; exact S.
    + replace (l <=? 1) with false by (symmetry; apply N.leb_gt; lia).
      destruct (l <=? 2); [apply sees_ad; [discriminate|]|]; exact S.
    + replace (l <=? 1) with false by (symmetry; apply N.leb_gt; lia).
      replace (l <=? 2) with false by (symmetry; apply N.leb_gt; lia). exact S.
    + destruct S as (_ & _ & _ & _ & _ & _ & _ & _ & _ & []).
  - cbn in *. unfold attach_enabled in *. see S. cbn in *.
    destruct o as [w|]; [injection H as <-|destruct (0 <? len e'); [discriminate H|]; injection H as <-];
    (eexists; split; [reflexivity|]); unfold sees; cbn; do 9 (split; [auto; congruence|]); exact S10.
Qed.

Lemma sees_run k cs cs' : differ_in k cs cs' -> forall a b, sees k a b -> existsb (enables k) cs = false ->
  forall a', log_run cs a = Ok a' -> exists b', log_run cs' b = Ok b' /\ sees k a' b'.
Proof.
  induction 1 as [|l p q r r' K D IH|c r r' D IH]; intros a b S N a' H.
  - injection H as <-. exists b. auto.
  - cbn in *. eapply IH; eauto using sees_text.
  - cbn in N, H. apply orb_false_iff in N. destruct N as [N1 N2].
    destruct (log_step a c) as [a1|] eqn:A; [|discriminate H].
    destruct (sees_step k c a b a1 S N1 A) as [b1 [B1 S1]]. cbn. rewrite B1. eapply IH; eauto.
Qed.

Lemma hidden_texts k cs cs' s : k <> KEnabled -> differ_in k cs cs' -> enabled k cs = false ->
  log_run cs log_start = Ok s -> exists s', log_run cs' log_start = Ok s' /\ sink s' = sink s.
Proof.
  intros K D N H. assert (N' : existsb (enables k) cs = false) by (destruct k; [exact N..|congruence]).
  destruct (sees_run k cs cs' D _ _ (sees_start k K) N' s H) as (s' & H' & S).
  exists s'. split; [exact H'|]. symmetry. apply S.
Qed.

(* The line about the level. *)
Lemma byte_decimal n : n < 256 -> decimal n (byte_digits n).
Proof.
  intro H. unfold decimal, byte_digits. destruct (100 <=? n) eqn:A; destruct (10 <=? n) eqn:B; try lia; cbn [app fold_left hd len length].
  - assert (n / 100 < 3) by (apply N.div_lt_upper_bound; lia). assert (1 <= n / 100) by (apply N.div_le_lower_bound; lia).
    assert (n / 10 mod 10 < 10) by (apply N.mod_lt; lia). assert (n mod 10 < 10) by (apply N.mod_lt; lia).
    pose proof (N.div_mod n 10 ltac:(lia)). pose proof (N.div_mod (n / 10) 10 ltac:(lia)) as D. rewrite N.div_div in D by lia. change (10 * 10) with 100 in D.
    split; [repeat (apply Forall_cons; [lia|]); apply Forall_nil|]. split; [lia|]. split; [unfold len; cbn; lia|]. intro; exfalso; lia.
  - assert (n / 10 < 10) by (apply N.div_lt_upper_bound; lia). assert (1 <= n / 10) by (apply N.div_le_lower_bound; lia).
    assert (n mod 10 < 10) by (apply N.mod_lt; lia). rewrite (N.mod_small (n / 10)) by lia. pose proof (N.div_mod n 10 ltac:(lia)).
    split; [repeat (apply Forall_cons; [lia|]); apply Forall_nil|]. split; [lia|]. split; [unfold len; cbn; lia|]. intro; exfalso; lia.
  - rewrite (N.mod_small n) by lia. split; [repeat (apply Forall_cons; [lia|]); apply Forall_nil|]. split; [lia|]. split; [unfold len; cbn; lia|reflexivity].
Qed.

Lemma we_out p s o : enabled_out s = Some o -> sink (write_enabled p s) = sink s ++ [(o, p)] /\ enabled_out (write_enabled p s) = Some o.
Proof. intro O. unfold write_enabled. rewrite O. split; reflexivity. Qed.

Definition grows (o : N) (s s' : log_state) : Prop := enabled_out s' = Some o /\ exists pre, sink s' = sink s ++ pre.
Lemma grows_write o s t p : enabled_out t = Some o -> sink t = sink s -> grows o s (write_enabled p t).
Proof. intros O S. destruct (we_out p t o O) as [A B]. split; [exact B|]. rewrite A, S. eauto. Qed.
Lemma grows_self o s t : enabled_out t = Some o -> sink t = sink s -> grows o s t.
Proof. intros O S. split; [exact O|]. exists []. now rewrite S, app_nil_r. Qed.
Lemma grows_trans o a b c : grows o a b -> grows o b c -> grows o a c.
Proof. intros [_ [p P]] [O [q Q]]. split; [exact O|]. exists (p ++ q). now rewrite Q, P, app_assoc. Qed.

Lemma level_line_shown cs s l o : log_run cs log_start = Ok s -> writer cs None = Some o -> l < 256 ->
  exists s' pre d, log_step s (LSetLevel l) = Ok s' /\ decimal l d /\
    sink s' = sink s ++ pre ++ [(o, str "[LOG] Log Level Set: " ++ d ++ [10])].
Proof.
  intros R W B. destruct (log_run_inv cs s R) as [_ [_ O]]. rewrite W in O.
  assert (Wd : forall p a b, enabled_out b = Some o -> sink b = sink a -> grows o a (write_debug p b)).
  { intros p a b Ob Sb. unfold write_debug. destruct (debug_on b); [now apply grows_write|now apply grows_self]. }
  assert (Wt : forall p a b, enabled_out b = Some o -> sink b = sink a -> grows o a (write_trace p b)).
  { intros p a b Ob Sb. unfold write_trace. destruct (trace_on b); [now apply Wd|now apply grows_self]. }
  assert (Au : forall a, enabled_out a = Some o -> grows o a (attach_unsafe a)).
  { intros a Oa. unfold attach_unsafe. destruct (0 <? len (unsafe_buf a)); [|now apply grows_self].
    match goal with |- context [write_trace ?p ?b] => destruct (Wt p a b Oa eq_refl) as [X Y]; split; [exact X|exact Y] end. }
  assert (At : forall a, enabled_out a = Some o -> grows o a (attach_trace a)).
  { intros a Oa. unfold attach_trace. destruct (0 <? len (trace_buf a)); [|now apply grows_self].
    match goal with |- context [write_debug ?p ?b] => destruct (Wd p a b Oa eq_refl) as [X Y]; split; [exact X|exact Y] end. }
  assert (Ad : forall a, enabled_out a = Some o -> grows o a (attach_debug a)).
  { intros a Oa. unfold attach_debug. destruct (0 <? len (debug_buf a)); [|now apply grows_self].
    match goal with |- context [write_enabled ?p ?b] => destruct (grows_write o a b p Oa eq_refl) as [X Y]; split; [exact X|exact Y] end. }
  assert (G0 : grows o s s) by now apply grows_self.
  cbn [log_step]. unfold set_level.
  set (s1 := if l <=? lv_unsafe then attach_unsafe s else s).
  assert (G1 : grows o s s1) by (unfold s1; destruct (l <=? lv_unsafe); auto).
  set (s2 := if l <=? lv_trace then attach_trace s1 else s1).
  assert (G2 : grows o s s2) by (unfold s2; destruct (l <=? lv_trace); [eapply grows_trans; [exact G1|apply At, G1]|exact G1]).
  set (s3 := if l <=? lv_debug then attach_debug s2 else s2).
  assert (G3 : grows o s s3) by (unfold s3; destruct (l <=? lv_debug); [eapply grows_trans; [exact G2|apply Ad, G2]|exact G2]).
  clearbody s3. clear s1 s2 G1 G2. destruct G3 as [O3 [pre P3]]. destruct (we_out (level_line l) s3 o O3) as [S4 _].
  exists (write_enabled (level_line l) s3), pre, (byte_digits l). split; [reflexivity|]. split; [now apply byte_decimal|].
  rewrite S4, P3, <- app_assoc. reflexivity.
Qed.
