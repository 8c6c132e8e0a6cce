From Verif Require Import Base M_HidConc M_VaultRace S_VaultRace.
Local Open Scope nat_scope.

Lemma set_length {A} i (x : A) l : length (list_set i x l) = length l.
Proof. revert i. induction l as [|y l IH]; intros [|i]; cbn; auto. Qed.

Lemma set_nth_same {A} i (x d : A) l : i < length l -> nth i (list_set i x l) d = x.
Proof. revert i. induction l as [|y l IH]; intros [|i] L; cbn in *; try lia. reflexivity. apply IH. lia. Qed.

Lemma set_nth_other {A} i j (x d : A) l : i <> j -> nth j (list_set i x l) d = nth j l d.
Proof. revert i j. induction l as [|y l IH]; intros [|i] [|j] N; cbn; try reflexivity; try lia. apply IH. lia. Qed.

Lemma set_firstn_far {A} i (x : A) l n : n <= i -> firstn n (list_set i x l) = firstn n l.
Proof.
  revert i n. induction l as [|y l IH]; intros [|i] [|n] L; cbn; try reflexivity; try lia.
  rewrite IH by lia. reflexivity.
Qed.

Lemma set_firstn_near {A} i (x : A) l n : i < n -> firstn n (list_set i x l) = list_set i x (firstn n l).
Proof.
  revert i n. induction l as [|y l IH]; intros [|i] [|n] L; cbn; try reflexivity; try lia.
  rewrite IH by lia. reflexivity.
Qed.

Lemma set_app {A} (a b : list A) i x : length a <= i -> list_set i x (a ++ b) = a ++ list_set (i - length a) x b.
Proof.
  revert i. induction a as [|y a IH]; intros i L; cbn in *. now rewrite Nat.sub_0_r.
  destruct i as [|i]. lia. cbn. rewrite IH by lia. reflexivity.
Qed.

Lemma set_map {A B} (f : A -> B) i x l : list_set i (f x) (map f l) = map f (list_set i x l).
Proof. revert i. induction l as [|y l IH]; intros [|i]; cbn; try reflexivity. now rewrite IH. Qed.

Lemma set_in {A} i (x : A) l : forall y, In y (list_set i x l) -> y = x \/ In y l.
Proof.
  revert i. induction l as [|z l IH]; intros [|i] y; cbn; intuition. apply IH in H0. intuition.
Qed.

Lemma firstn_snoc {A} n (x d : A) l : n < length l -> firstn (S n) (list_set n x l) = firstn n l ++ [x].
Proof.
  revert n. induction l as [|y l IH]; intros [|n] L; cbn in *; try lia. reflexivity.
  f_equal. apply IH. lia.
Qed.

(* ---- nothing is invented, and what was there stays ---- *)

(* The slice sl shows l0 and some more out of A. *)
Definition shows (l0 A : list N) (h : list array) (sl : slice) : Prop :=
  sl_array sl < length h /\
  exists more, firstn (sl_len sl) (arr h (sl_array sl)) = map Some (l0 ++ more) /\
    sl_len sl = length l0 + length more /\ incl more A.

Definition sound_thread (l0 A : list N) (h : list array) (t : N * add_thread) : Prop :=
  match snd t with
  | V_call | V_done => True
  | V_loaded sl => shows l0 A h sl
  | V_room sl => shows l0 A h sl /\ sl_len sl < length (arr h (sl_array sl))
  | V_wrote sl => shows l0 A h (mk_slice (sl_array sl) (S (sl_len sl)))
  end.

Record sound (l0 : list N) (s : vaults) : Prop := {
  so_slice : shows l0 (asked s) (va_heap s) (va_slice s);
  so_threads : Forall (sound_thread l0 (asked s) (va_heap s)) (va_threads s)
}.

Lemma shows_more l0 A B h sl : incl A B -> shows l0 A h sl -> shows l0 B h sl.
Proof. intros I (L & m & E & N & J). split. exact L. exists m. repeat split; auto. eapply incl_tran; eauto. Qed.
Lemma sound_more l0 A B h t : incl A B -> sound_thread l0 A h t -> sound_thread l0 B h t.
Proof.
  intros I. unfold sound_thread. destruct (snd t); auto; [| |]; try (intro H; eapply shows_more; eauto).
  intros [H L]. split; [|exact L]. eapply shows_more; eauto.
Qed.

Lemma arr_app h x a : a < length h -> arr (h ++ [x]) a = arr h a.
Proof. intro L. unfold arr. now rewrite app_nth1. Qed.

Lemma shows_grow l0 A h x sl : shows l0 A h sl -> shows l0 A (h ++ [x]) sl.
Proof.
  intros (L & m & E & N & J). split. rewrite app_length; lia. exists m. rewrite arr_app by exact L. auto.
Qed.
Lemma sound_grow l0 A h x t : sound_thread l0 A h t -> sound_thread l0 A (h ++ [x]) t.
Proof.
  unfold sound_thread. destruct (snd t); auto using shows_grow.
  intros [S L]. split. auto using shows_grow. destruct S as (La & _). rewrite arr_app by exact La. exact L.
Qed.

Definition write (h : list array) (sl : slice) (c : N) : list array :=
  list_set (sl_array sl) (list_set (sl_len sl) (Some c) (arr h (sl_array sl))) h.

Lemma arr_write h sl c a : sl_array sl < length h ->
  arr (write h sl c) a = if Nat.eqb (sl_array sl) a then list_set (sl_len sl) (Some c) (arr h a) else arr h a.
Proof.
  intro L. unfold write, arr. destruct (Nat.eqb_spec (sl_array sl) a) as [<-|N].
  - now rewrite set_nth_same.
  - now rewrite set_nth_other.
Qed.

Lemma shows_write l0 A h sl0 c sl : shows l0 A h sl0 -> In c A -> shows l0 A h sl -> shows l0 A (write h sl0 c) sl.
Proof.
  intros (L0 & m0 & _ & N0 & _) I (L & m & E & N & J). split. unfold write; now rewrite set_length.
  rewrite arr_write by exact L0. destruct (Nat.eqb (sl_array sl0) (sl_array sl)).
  2: { exists m. auto. }
  destruct (Nat.lt_ge_cases (sl_len sl0) (sl_len sl)) as [C|C].
  - exists (list_set (sl_len sl0 - length l0) c m). rewrite set_firstn_near by exact C. rewrite E.
    rewrite set_map, set_app by lia. rewrite set_length. split; [reflexivity|]. split; [exact N|].
    intros y Iy. apply set_in in Iy as [->|Iy]; auto.
  - exists m. rewrite set_firstn_far by exact C. auto.
Qed.
Lemma sound_write l0 A h sl0 c t : shows l0 A h sl0 -> In c A -> sound_thread l0 A h t -> sound_thread l0 A (write h sl0 c) t.
Proof.
  intros S I. unfold sound_thread. destruct (snd t); auto using shows_write.
  intros [T L]. split. auto using shows_write. destruct S as (La & _). rewrite arr_write by exact La.
  destruct (Nat.eqb _ _); [|exact L]. now rewrite set_length.
Qed.

Lemma shows_wrote l0 A h sl c : shows l0 A h sl -> In c A -> sl_len sl < length (arr h (sl_array sl)) ->
  shows l0 A (write h sl c) (mk_slice (sl_array sl) (S (sl_len sl))).
Proof.
  intros (L & m & E & N & J) I R. split. unfold write; cbn; now rewrite set_length.
  cbn [sl_array sl_len]. rewrite arr_write by exact L. rewrite Nat.eqb_refl.
  exists (m ++ [c]). rewrite (firstn_snoc _ _ None) by exact R. rewrite E. rewrite !map_app, app_assoc.
  split; [reflexivity|]. split. rewrite app_length; cbn; lia.
  intros y Iy. apply in_app_or in Iy as [Iy|[<-|[]]]; auto.
Qed.

Lemma fst_set {A B} i (x : A) (t t' : B) l : nth_error l i = Some (x, t) -> map fst (list_set i (x, t') l) = map fst l.
Proof. revert i. induction l as [|y l IH]; intros [|i] E; cbn in *; try discriminate. injection E as ->. reflexivity. now rewrite IH. Qed.

Lemma Forall_set {A} (P : A -> Prop) i x l : Forall P l -> P x -> Forall P (list_set i x l).
Proof. intros F H. revert i. induction F as [|y l Hy F IH]; intros [|i]; cbn; constructor; auto. Qed.

Lemma sound_start l0 spare : sound l0 (vault_start l0 spare).
Proof.
  split; [|constructor]. split. cbn; lia. exists []. cbn. rewrite !app_nil_r, Nat.add_0_r.
  split; [|split; [reflexivity|intros ? []]]. rewrite firstn_app, map_length, Nat.sub_diag. cbn.
  rewrite app_nil_r. rewrite <- (map_length Some l0). apply firstn_all.
Qed.

Lemma sound_step l0 s e s' : sound l0 s -> vault_step s e = Some s' -> sound l0 s'.
Proof.
  intros [S T] E. destruct e as [c|i spare]; cbn [vault_step] in E.
  - injection E as <-. assert (incl (asked s) (asked (mk_vaults (va_heap s) (va_slice s) (va_threads s ++ [(c, V_call)])))) as I.
    { unfold asked. cbn. rewrite map_app. apply incl_appl, incl_refl. }
    split. eapply shows_more; eauto. apply Forall_app. split.
    eapply Forall_impl; [|exact T]. intros t. apply sound_more, I.
    constructor; [exact Logic.I|constructor].
  - destruct (nth_error (va_threads s) i) as [[c t]|] eqn:G; [|discriminate].
    assert (sound_thread l0 (asked s) (va_heap s) (c, t)) as Q by (eapply Forall_forall; [exact T|eapply nth_error_In, G]).
    assert (In c (asked s)) as Ic by (unfold asked; apply nth_error_In in G; apply (in_map fst) in G; exact G).
    assert (forall h sl t', asked (mk_vaults h sl (list_set i (c, t') (va_threads s))) = asked s) as EA.
    { intros. unfold asked. cbn. eapply fst_set, G. }
    destruct t as [|sl|sl|sl|]; cbn in Q.
    + injection E as <-. split; unfold add_goes; rewrite EA; cbn [va_heap va_slice va_threads]. exact S. apply Forall_set. exact T. exact S.
    + destruct (Nat.ltb_spec (sl_len sl) (length (arr (va_heap s) (sl_array sl)))) as [L|L]; injection E as <-;
        (split; unfold add_goes; rewrite EA; cbn [va_heap va_slice va_threads]).
      * exact S. 
      * apply Forall_set. exact T. split; assumption.
      * now apply shows_grow.
      * apply Forall_set. { eapply Forall_impl; [|exact T]. intros x. apply sound_grow. }
        destruct Q as (La & m & Em & Nm & J).
        assert (length (firstn (sl_len sl) (arr (va_heap s) (sl_array sl))) = sl_len sl) as Lf.
        { rewrite Em, map_length, app_length. lia. }
        unfold sound_thread, shows. cbn [snd sl_array sl_len].
        replace (arr (va_heap s ++ [firstn (sl_len sl) (arr (va_heap s) (sl_array sl)) ++ None :: repeat None spare]) (length (va_heap s)))
          with (firstn (sl_len sl) (arr (va_heap s) (sl_array sl)) ++ None :: repeat (@None N) spare).
        2: { unfold arr at 2. rewrite app_nth2, Nat.sub_diag by lia. reflexivity. }
        split; [split|].
        -- rewrite app_length; cbn; lia.
        -- exists m. split; [|split; [exact Nm|exact J]]. rewrite firstn_app, Lf, Nat.sub_diag. cbn [firstn].
           rewrite app_nil_r, firstn_firstn, Nat.min_id. exact Em.
        -- rewrite app_length, Lf. cbn. lia.
    + destruct Q as [Q R]. injection E as <-. fold (write (va_heap s) sl c).
      split; rewrite EA; cbn [va_heap va_slice va_threads]. now apply shows_write.
      apply Forall_set. { eapply Forall_impl; [|exact T]. intros x. now apply sound_write. }
      cbn. now apply shows_wrote.
    + injection E as <-. split; rewrite EA; cbn [va_heap va_slice va_threads]. exact Q. apply Forall_set. exact T. exact Logic.I.
    + discriminate.
Qed.

Lemma vault_run_app l1 l2 s : vault_run (l1 ++ l2) s = match vault_run l1 s with Some s' => vault_run l2 s' | None => None end.
Proof. revert s. induction l1 as [|e l1 IH]; intro s. reflexivity. cbn. destruct (vault_step s e). apply IH. reflexivity. Qed.

Lemma sound_run l0 l : forall s s', sound l0 s -> vault_run l s = Some s' -> sound l0 s'.
Proof.
  induction l as [|e l IH]; intros s s' S R; cbn in R. injection R as <-. exact S.
  destruct (vault_step s e) as [s1|] eqn:E; [|discriminate]. eapply IH; [|exact R]. eapply sound_step; eauto.
Qed.

Lemma kept l0 spare l s : vault_run l (vault_start l0 spare) = Some s ->
  exists more, va_list s = map Some (l0 ++ more) /\ incl more (asked s).
Proof.
  intro R. apply (sound_run l0) in R; [|apply sound_start]. destruct R as [(L & m & E & N & J) _].
  exists m. split; assumption.
Qed.

(* ---- one at a time ---- *)

Definition finished (t : N * add_thread) : Prop := snd t = V_done.

(* The invariant: what the vault holds, and what the one at work has seen. *)
Definition tidy (l0 : list N) (s : vaults) : Prop :=
  (Forall finished (va_threads s) /\ va_list s = map Some (l0 ++ map fst (va_threads s))) \/
  exists a c t, va_threads s = a ++ [(c, t)] /\ Forall finished a /\ va_list s = map Some (l0 ++ map fst a) /\
    match t with
    | V_call => True
    | V_loaded sl => sl = va_slice s
    | V_room sl => firstn (sl_len sl) (arr (va_heap s) (sl_array sl)) = va_list s
    | V_wrote sl => firstn (S (sl_len sl)) (arr (va_heap s) (sl_array sl)) = va_list s ++ [Some c]
    | V_done => False
    end.

Lemma over_done ts : Forall finished ts ->
  filter (fun t : N * add_thread => match snd t with V_done => true | _ => false end) ts = ts.
Proof. induction 1 as [|[c t] ts H F IH]. reflexivity. unfold finished in H. cbn in H. subst t. cbn. rewrite IH. reflexivity. Qed.

Lemma shows_len l0 A h sl : shows l0 A h sl -> length (firstn (sl_len sl) (arr h (sl_array sl))) = sl_len sl.
Proof. intros (L & m & E & N & J). rewrite E, map_length, app_length. lia. Qed.

Lemma set_last {A} (a : list A) x y : list_set (length a) x (a ++ [y]) = a ++ [x].
Proof. induction a as [|z a IH]; cbn. reflexivity. now rewrite IH. Qed.

Lemma nth_end (a : list (N * add_thread)) c t i x : Forall finished a -> nth_error (a ++ [(c, t)]) i = Some x ->
  finished x \/ (i = length a /\ x = (c, t)).
Proof.
  intros F. revert i. induction F as [|y a H F IH]; intros [|i] E; cbn in *.
  - right. injection E as <-. auto.
  - destruct i; discriminate.
  - left. injection E as <-. exact H.
  - destruct (IH _ E) as [Q|[-> ->]]; auto.
Qed.

Lemma tidy_step l0 s e s' : sound l0 s -> tidy l0 s -> vault_step s e = Some s' ->
  length (asked s') <= 1 + length (over s') -> tidy l0 s'.
Proof.
  intros [S ST] T E C. destruct e as [c|i spare]; cbn [vault_step] in E.
  - injection E as <-. destruct T as [[F V]|(a & c0 & t & Ts & F & V & Q)].
    + right. exists (va_threads s), c, V_call. cbn. auto.
    + exfalso. unfold asked, over in C. cbn in C. rewrite Ts in C.
      rewrite !map_length, !filter_app, !app_length in C. cbn in C. rewrite over_done in C by exact F.
      destruct t; cbn in C; try lia.
  - destruct (nth_error (va_threads s) i) as [[c t]|] eqn:G; [|discriminate].
    destruct T as [[F V]|(a & c0 & t0 & Ts & F & V & Q)].
    { exfalso. apply nth_error_In in G. rewrite Forall_forall in F. pose proof (F _ G) as Ft. unfold finished in Ft. cbn in Ft. subst t. discriminate. }
    rewrite Ts in G. destruct (nth_end _ _ _ _ _ F G) as [Ft|[-> [= -> ->]]].
    { unfold finished in Ft. cbn in Ft. subst t. discriminate. }
    assert (sound_thread l0 (asked s) (va_heap s) (c0, t0)) as Qs.
    { eapply Forall_forall; [exact ST|]. rewrite Ts. apply in_or_app. right. now left. }
    destruct t0 as [|sl|sl|sl|]; cbn in Qs.
    + injection E as <-. right. exists a, c0, (V_loaded (va_slice s)). cbn. rewrite Ts, set_last. auto.
    + subst sl. destruct (Nat.ltb_spec (sl_len (va_slice s)) (length (arr (va_heap s) (sl_array (va_slice s))))) as [L|L]; injection E as <-.
      * right. exists a, c0, (V_room (va_slice s)). cbn. rewrite Ts, set_last. auto.
      * right. exists a, c0, (V_room (mk_slice (length (va_heap s)) (sl_len (va_slice s)))). cbn [va_threads va_heap va_slice sl_len sl_array].
        rewrite Ts, set_last. destruct S as (La & m & Em & Nm & J).
        split; [reflexivity|]. split; [exact F|]. unfold va_list. cbn [va_threads va_heap va_slice sl_len sl_array].
        rewrite arr_app by exact La. split; [exact V|].
        unfold arr at 1. rewrite app_nth2, Nat.sub_diag by lia. cbn [nth].
        rewrite firstn_app. rewrite (shows_len l0 (asked s)) by (split; [exact La|exists m; auto]).
        rewrite Nat.sub_diag. cbn [firstn]. rewrite app_nil_r, firstn_firstn, Nat.min_id. reflexivity.
    + destruct Qs as [Qs R]. injection E as <-. fold (write (va_heap s) sl c0).
      assert (sl_len sl = sl_len (va_slice s)) as EL.
      { rewrite <- (shows_len _ _ _ _ Qs), Q. exact (shows_len _ _ _ _ S). }
      assert (sl_array sl < length (va_heap s)) as La by apply Qs.
      assert (va_list (mk_vaults (write (va_heap s) sl c0) (va_slice s) (list_set (length a) (c0, V_wrote sl) (va_threads s))) = va_list s) as EV.
      { unfold va_list. cbn [va_heap va_slice]. rewrite arr_write by exact La.
        destruct (Nat.eqb _ _); [|reflexivity]. rewrite set_firstn_far by lia. reflexivity. }
      right. exists a, c0, (V_wrote sl). rewrite EV. cbn [va_threads va_heap]. rewrite Ts, set_last.
      split; [reflexivity|]. split; [exact F|]. split; [exact V|].
      rewrite arr_write by exact La. rewrite Nat.eqb_refl. rewrite (firstn_snoc _ _ None) by exact R. now rewrite Q.
    + injection E as <-. left. cbn [va_threads]. rewrite Ts, set_last. split.
      { apply Forall_app. split. exact F. constructor. reflexivity. constructor. }
      unfold va_list at 1. cbn [va_slice va_heap sl_len sl_array]. rewrite Q, V, !map_app, <- app_assoc. reflexivity.
    + destruct Q.
Qed.

Lemma serial_keeps l0 spare l s : one_by_one l0 spare l -> vault_run l (vault_start l0 spare) = Some s ->
  va_list s = map Some (l0 ++ over s).
Proof.
  intros O R. assert (sound l0 s /\ tidy l0 s) as [S T].
  { revert s O R. induction l as [|e l IH] using rev_ind; intros s O R.
    - injection R as <-. split. apply sound_start. left. split. constructor. cbn.
      rewrite app_nil_r. unfold va_list. cbn. rewrite firstn_app, map_length, Nat.sub_diag. cbn.
      rewrite app_nil_r. rewrite <- (map_length Some l0). apply firstn_all.
    - rewrite vault_run_app in R. destruct (vault_run l (vault_start l0 spare)) as [s1|] eqn:R1; [|discriminate].
      destruct (IH s1) as [S1 T1]; [|reflexivity|].
      { intros l1 l2 t -> R'. apply (O l1 (l2 ++ [e]) t). now rewrite app_assoc. exact R'. }
      cbn in R. destruct (vault_step s1 e) as [s2|] eqn:E; [|discriminate]. injection R as ->.
      split. eapply sound_step; eauto. eapply tidy_step; eauto.
      apply (O (l ++ [e]) [] s). now rewrite app_nil_r. rewrite vault_run_app, R1. cbn. now rewrite E. }
  destruct T as [[F V]|(a & c & t & Ts & F & V & Q)].
  - unfold over. rewrite over_done by exact F. exact V.
  - unfold over. rewrite Ts, filter_app, over_done by exact F. cbn. destruct t; cbn; rewrite ?app_nil_r; try exact V. destruct Q.
Qed.
