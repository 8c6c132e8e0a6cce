(* What a failed write costs, and what the locks give while none fails. *)
From Verif Require Import Base M_Util M_Usb M_ReqBuf M_Usbip M_Write S_Write P_ReqBuf P_Usbip3 P_Write1 P_Write2.

(* ---- after a failed write inside handleCommands *)
Definition stuck (n : net) (links : list link) (d : nat) : Prop :=
  (exists s, com n s true) /\ ne_links n = links /\
  (length (ne_delegate n) <= d + match ne_job n with Some _ => 1 | None => 0 end)%nat.

Lemma stuck_step n links d l m : stuck n links d -> net_step n l = Some m -> exists n', m = NUp n' /\ stuck n' links d.
Proof.
  intros ((s & C) & HL & HD) H.
  destruct m as [n'|g].
  2: { destruct (gone_by _ _ _ H) as (i & b & ->). cbn [net_step] in H.
       destruct (nth_error (ne_calls n) i) as [[f []]|] eqn:Ei; try discriminate.
       destruct C as (old & L & _ & _ & _ & _ & _ & _ & _ & _ & _ & _ & W & _).
       unfold writers in W. rewrite (filter_drop _ _ _ Ei) in W. lia. }
  exists n'. split; auto.
  destruct (com_step n s true l n' C H) as (ls & s' & _ & C' & _ & _). cbn [orb] in C'.
  split; [eauto|]. 
  pose proof C as (old & L & HL' & HS & HP & HI & HT & HF & HDel & HK & HR & Lk & W & _).
  destruct l as [| | |k|i|i|i k|ch dt|i|st]; cbn [net_step] in H.
  - destruct (ne_job n) eqn:Ej; [discriminate|]. destruct (conn_step [usb_device] (ne_conn n)) as [c a]. injection H as <-.
    destruct a as [|r|dd h setup buffer|dd h target]; cbn.
    + rewrite Ej. auto.
    + split; auto. lia.
    + destruct (hd_ep h =? 0); [destruct (handle_control_message _); cbn; rewrite ?Ej; split; auto; lia|].
      destruct (hd_ep h =? 1); [destruct (rb_request _ _ _) as [b []]; cbn; split; auto; lia|].
      destruct (hd_ep h =? 2); cbn; rewrite ?Ej; split; auto. rewrite app_length. cbn. lia.
    + destruct (rb_cancel _ _). cbn. split; auto. lia.
  - destruct (ne_job n) as [j|] eqn:Ej; [|discriminate]. cbn [obind] in H. unfold is_free in H.
    rewrite (current_last _ _ _ HL'), HL', nth_last, Lk, andb_false_r in H. discriminate.
  - destruct (ne_job n) as [j|] eqn:Ej; [|discriminate]. cbn [obind] in H. unfold writers in W. rewrite Ej in W.
    destruct (jb_writing j); [discriminate|discriminate].
  - destruct (ne_job n) as [j|] eqn:Ej; [|discriminate]. cbn [obind] in H. unfold writers in W. rewrite Ej in W.
    destruct (jb_writing j); [discriminate|discriminate].
  - destruct (nth_error (ne_calls n) i) as [[f []]|] eqn:Ei; try discriminate.
    assert (In f (map fst (ne_calls n))) as I by (apply nth_error_In in Ei; now apply (in_map fst) in Ei).
    destruct (sub_at n s true f C I) as (old' & L' & h & b & HL2 & Es & Ec). rewrite Ec in H. cbn [obind] in H.
    rewrite HL' in HL2. apply links_same in HL2 as [<- <-]. unfold is_free in H. rewrite HL', nth_last, Lk in H. discriminate.
  - destruct (nth_error (ne_calls n) i) as [[f []]|] eqn:Ei; try discriminate.
    unfold writers in W. rewrite (filter_drop _ _ _ Ei) in W. lia.
  - destruct (nth_error (ne_calls n) i) as [[f []]|]; try discriminate.
    destruct (call_reply n f) as [[c b]|]; [|discriminate]. cbn [obind] in H. destruct (can_fail k b); discriminate.
  - destruct (buf_free n); [|discriminate]. destruct (rb_respond _ _ _) as [[b cb]|]; [|discriminate]. cbn [obind] in H. injection H as <-. cbn. auto.
  - destruct (buf_free n); [|discriminate]. destruct (nth_error _ _) as [[id k]|]; [|discriminate]. cbn [obind] in H.
    destruct (rb_cancel _ _). injection H as <-. cbn. auto.
  - destruct HP as [d0 HP]. rewrite HP in H. discriminate.
Qed.

Lemma stuck_run ls : forall n links d m, stuck n links d -> net_run n ls = Some m ->
  exists n', m = NUp n' /\ ne_links n' = links /\ (length (ne_delegate n') <= S d)%nat.
Proof.
  induction ls as [|l r IH]; intros n links d m S H; cbn in H.
  - injection H as <-. exists n. destruct S as (_ & L & D). repeat split; auto. destruct (ne_job n); lia.
  - destruct (net_step n l) as [m1|] eqn:E; [|discriminate]. cbn in H.
    destruct (stuck_step n links d l m1 S E) as (n1 & -> & S1). eapply IH; eauto.
Qed.

Lemma fail_hangs st ls n k n' d : net_run (net_init st) ls = Some (NUp n) -> net_step n (NFail k) = Some (NUp n') ->
  cn_phase (ne_conn n') = Commands d -> forall ls2 m, net_run n' ls2 = Some m ->
  exists n2, m = NUp n2 /\ ne_links n2 = ne_links n' /\ (length (ne_delegate n2) <= S (length (ne_delegate n')))%nat.
Proof.
  intros R H P ls2 m R2.
  destruct (good_run st ls n R) as (old & L & HL & HO & [[C Pr]|(ls' & s & bad & Rs & C & Pr)]).
  - exfalso. destruct C as (old' & L' & l1 & out & c & pend & E & _ & _ & _ & _ & _ & _ & _ & _ & HJ).
    cbn [net_step] in H. destruct (ne_job n) as [j|]; [|discriminate]. cbn [obind] in H.
    destruct HJ as (Hi & _). rewrite Hi in H. destruct (_ && _); [|discriminate]. injection H as <-. discriminate.
  - destruct (com_fail n s bad k n' C H) as (l2 & s' & _ & C' & _ & _). cbn [is_fail] in C'. rewrite orb_true_r in C'.
    eapply stuck_run; [|exact R2]. split; [eauto|]. split; auto. destruct (ne_job n'); lia.
Qed.

(* ---- connections that were not imported leave nothing behind *)
Lemma accept_new st ls n s n' : net_run (net_init st) ls = Some (NUp n) -> net_step n (NAccept s) = Some (NUp n') -> as_new n' s.
Proof.
  intros R H. destruct (good_run st ls n R) as (old & L & HL & HO & [[C Pr]|(ls' & s0 & bad & Rs & C & Pr)]).
  - destruct C as (old' & L' & l1 & out & c & pend & E & HS & HC & HT & HB & HX & HD & _ & _ & HJ).
    cbn [net_step] in H. destruct (cn_phase (ne_conn n)); try discriminate. destruct (ne_job n) eqn:Ej; [discriminate|]. injection H as <-.
    exists (ne_links n), (rb_responses (ne_buf n)). unfold with_conn, with_links. cbn.
    rewrite HS, HC, HT, HX, HD, Ej. destruct (ne_buf n) as [wa rs]. cbn in *. now subst wa.
  - rewrite (com_accept _ _ _ _ C) in H. discriminate.
Qed.

Lemma fail_closes st ls n k n' : net_run (net_init st) ls = Some (NUp n) -> net_step n (NFail k) = Some (NUp n') ->
  (exists d, cn_phase (ne_conn n') = Commands d) \/
  forall s, exists n2, net_step n' (NAccept s) = Some (NUp n2) /\ as_new n2 s.
Proof.
  intros R H.
  destruct (good_run st ls n R) as (old & L & HL & HO & [[C Pr]|(ls' & s & bad & Rs & C & Pr)]).
  - right. intro s. 
    assert (cn_phase (ne_conn n') = Closed /\ ne_job n' = None) as [P J].
    { destruct C as (old' & L' & l1 & out & c & pend & E & _ & _ & _ & _ & _ & _ & _ & _ & HJ).
      cbn [net_step] in H. destruct (ne_job n) as [j|]; [|discriminate]. cbn [obind] in H.
      destruct HJ as (Hi & _). rewrite Hi in H. destruct (_ && _); [|discriminate]. injection H as <-. auto. }
    assert (exists n2, net_step n' (NAccept s) = Some (NUp n2)) as [n2 H2] by (cbn [net_step]; rewrite P, J; eauto).
    exists n2. split; auto. apply (accept_new st (ls ++ [NFail k]) n'); auto. now rewrite net_run_snoc, R.
  - left. destruct (com_fail n s bad k n' C H) as (l2 & s' & _ & C' & _ & _). destruct C' as (? & ? & _ & _ & D & _). exact D.
Qed.

(* ---- one at a time *)
Lemma filter_all {A} (f g : A -> bool) l : (forall x, In x l -> f x = g x) -> filter f l = filter g l.
Proof. induction l as [|x r IH]; intro H; cbn; auto. rewrite (H x); [|now left]. rewrite IH; auto. intros y Y. apply H. now right. Qed.

Lemma one_at_a_time st ls n c : net_run (net_init st) ls = Some (NUp n) ->
  (writes_to n c <= 1)%nat /\ (writes_to n c <> 0%nat -> c = current n /\ exists l, nth_error (ne_links n) c = Some l /\ lk_locked l = true).
Proof.
  intros R. destruct (good_run st ls n R) as (old & L & HL & HO & [[C Pr]|(ls' & s & bad & Rs & C & Pr)]).
  - destruct C as (old' & L' & l1 & out & c' & pend & E & HS & HC & _ & _ & _ & _ & _ & _ & HJ).
    unfold writes_to. rewrite HC. cbn [filter length]. destruct (ne_job n) as [j|] eqn:Ej; [|split; [lia|intro X; now destruct X]].
    destruct HJ as (_ & _ & Lk & _). destruct (jb_writing j); cbn [andb]; [|split; [lia|intro X; now destruct X]].
    destruct (Nat.eqb_spec c (current n)) as [->|]; [|split; [lia|intro X; now destruct X]]. split; [lia|]. intros _. split; auto.
    exists L'. rewrite (current_last _ _ _ E), E, nth_last. auto.
  - pose proof C as (old' & L' & E & HS & HP & HI & HT & HF & HD & HK & HR & HW).
    assert (forall x, In x (ne_calls n) -> match nth_error (ne_subs n) (fl_key (fst x)) with Some (c', _, _) => Nat.eqb c c' | None => false end = Nat.eqb c (length old')) as Q.
    { intros x X. destruct (sub_at n s bad (fst x) C (in_map fst _ _ X)) as (o & L1 & h & b & E1 & _ & Cr).
      rewrite E in E1. apply links_same in E1 as [<- <-]. unfold call_reply in Cr.
      destruct (nth_error (ne_subs n) (fl_key (fst x))) as [[[c' h'] b']|]; [|discriminate]. cbn in Cr. congruence. }
    assert (writes_to n c = if Nat.eqb c (length old') then writers n else 0%nat) as W.
    { unfold writes_to, writers. rewrite (current_last _ _ _ E).
      rewrite (filter_all _ (fun x => snd x && Nat.eqb c (length old'))) by (intros x X; now rewrite (Q x X)).
      destruct (Nat.eqb c (length old')).
      - f_equal.
        + destruct (ne_job n) as [j|]; [destruct (jb_writing j)|]; reflexivity.
        + f_equal. apply filter_all. intros x _. apply andb_true_r.
      - replace (filter _ (ne_calls n)) with (@nil (inflight * bool)).
        + destruct (ne_job n) as [j|]; [rewrite andb_false_r|]; reflexivity.
        + symmetry. clear. induction (ne_calls n) as [|x r IH]; cbn; auto. now rewrite andb_false_r. }
    rewrite W. unfold sent_rel in HW. destruct (Nat.eqb_spec c (length old')) as [->|]; [|split; [lia|intro X; now destruct X]].
    rewrite (current_last _ _ _ E).
    destruct bad.
    + destruct HW as (_ & -> & _). split; [lia|]. intro X. now destruct X.
    + destruct HW as (_ & ->). destruct (lk_locked L') eqn:Lk; cbn; [|split; [lia|intro X; now destruct X]].
      split; [lia|]. intros _. split; auto. exists L'. rewrite E, nth_last. auto.
Qed.

(* ---- replies stay on their connection *)
Lemma old_kept st ls n l m c : net_run (net_init st) ls = Some (NUp n) -> net_step n l = Some m -> (c < current n)%nat ->
  nth_error (links_of m) c = nth_error (ne_links n) c.
Proof.
  intros R H Lt. 
  assert (forall old (x y : link), ne_links n = old ++ [x] -> links_of m = old ++ [y] -> nth_error (links_of m) c = nth_error (ne_links n) c) as K.
  { intros old x y E1 E2. rewrite (current_last _ _ _ E1) in Lt. rewrite E1, E2, !nth_error_app1; auto. }
  destruct (good_run st ls n R) as (old & L & HL & HO & [[C Pr]|(ls' & s & bad & Rs & C & Pr)]).
  - destruct m as [n'|g].
    + destruct (ctl_step n l n' C H) as [(_ & (o & L1 & L2 & E1 & E2 & _) & _)|[(x & -> & _ & El & _)|(-> & (o & L1 & L2 & E1 & E2 & _) & _)]];
        try (eapply K; eauto; fail).
      cbn. rewrite El. rewrite nth_error_app1; auto. rewrite HL, app_length. rewrite (current_last _ _ _ HL) in Lt. lia.
    + destruct (gone_by _ _ _ H) as (i & b & ->). destruct C as (? & ? & ? & ? & ? & ? & _ & _ & HC & _). cbn [net_step] in H. rewrite HC in H.
      destruct i; discriminate.
  - destruct m as [n'|g].
    + destruct (com_step n s bad l n' C H) as (l2 & s' & _ & _ & _ & (o & L1 & L2 & E1 & E2 & _)). eapply K; eauto.
    + destruct (gone_by _ _ _ H) as (i & b & ->). destruct (com_call_fail n s bad i b g C H) as (s' & o & L1 & L2 & _ & E1 & E2 & _). eapply K; eauto.
Qed.

Lemma served_once st ls n d : net_run (net_init st) ls = Some (NUp n) -> cn_phase (ne_conn n) = Commands d -> ne_job n = None ->
  forall ls2 n2, net_run n ls2 = Some (NUp n2) -> length (ne_links n2) = length (ne_links n).
Proof.
  intros R P J.
  assert (exists s bad, com n s bad) as C.
  { destruct (good_run st ls n R) as (old & L & HL & HO & [[C Pr]|(ls' & s & bad & Rs & C & Pr)]); [|eauto].
    destruct C as (old' & L' & l1 & out & c' & pend & _ & _ & _ & _ & _ & _ & _ & _ & _ & HJ). rewrite J in HJ.
    destruct (lk_locked L'); [destruct HJ; congruence|]. destruct HJ as (_ & _ & _ & Q). now specialize (Q d). }
  clear R P J. intro ls2. revert n C. induction ls2 as [|l r IH]; intros n (s & bad & C) n2 H; cbn in H; [now injection H as <-|].
  destruct (net_step n l) as [[n1|g]|] eqn:E; try discriminate; [|destruct r; discriminate]. cbn in H.
  destruct (com_step n s bad l n1 C E) as (l2 & s' & _ & C' & _ & (o & L1 & L2 & E1 & E2 & _)).
  rewrite (IH n1 ltac:(eauto) n2 H), E1, E2, !app_length. reflexivity.
Qed.

(* ---- no deadlock while no write fails *)
Definition healthy (n : net) : Prop := exists old L, ne_links n = old ++ [L] /\ Forall (fun l => lk_locked l = false) old /\
  ((exists s, com n s false) \/ (ctl n /\ (ne_job n = None -> lk_locked L = false))).

Lemma healthy_step n l n' : healthy n -> no_failure l -> net_step n l = Some (NUp n') -> healthy n'.
Proof.
  intros (old & L & HL & HO & [[s C]|[C J]]) NF H.
  - destruct (com_step n s false l n' C H) as (l2 & s' & _ & C' & _ & (o & L1 & L2 & E1 & E2 & _)).
    rewrite HL in E1. apply links_same in E1 as [<- <-]. exists old, L2. split; auto. split; auto. left. exists s'.
    destruct l; cbn in *; auto; contradiction.
  - destruct (ctl_step n l n' C H) as [(C' & (o & L1 & L2 & E1 & E2 & _) & _)|[(x & -> & C' & El & J' & _)|(-> & (o & L1 & L2 & E1 & E2 & _) & _ & _ & Im)]].
    + rewrite HL in E1. apply links_same in E1 as [<- <-]. exists old, L2. split; auto. split; auto. right. split; auto.
      intro J'. destruct l as [| | |k|i|i|i k|ch dt|i|st]; cbn [net_step no_failure] in *; try contradiction.
      * destruct (ne_job n) eqn:Ej; [discriminate|]. destruct (conn_step _ _) as [c a]. injection H as <-.
        specialize (J eq_refl). assert (ne_links n = old ++ [L2]) as E2'.
        { destruct a; cbn in E2; auto. - destruct (hd_ep h =? 0); [destruct (handle_control_message _); auto|].
            destruct (hd_ep h =? 1); [destruct (rb_request _ _ _) as [b []]; auto|]. destruct (hd_ep h =? 2); auto.
          - destruct (rb_cancel _ _). auto. }
        rewrite HL in E2'. apply links_same in E2' as [_ <-]. auto.
      * destruct (ne_job n) as [j|]; [|discriminate]. cbn [obind] in H. destruct (_ && _); [|discriminate]. injection H as <-. discriminate.
      * destruct (ne_job n) as [j|]; [|discriminate]. cbn [obind] in H. destruct (jb_writing j); [|discriminate]. injection H as <-.
        rewrite (current_last _ _ _ HL) in E2. pose proof (done_links n old L (jb_frame j) HL) as D. cbn in E2, D. rewrite D in E2.
        apply links_same in E2 as [_ <-]. reflexivity.
      * destruct C as (? & ? & ? & ? & ? & ? & _ & _ & HC & _). rewrite HC in H. destruct i; discriminate.
      * destruct C as (? & ? & ? & ? & ? & ? & _ & _ & HC & _). rewrite HC in H. destruct i; discriminate.
      * destruct (buf_free n); [|discriminate]. destruct (rb_respond _ _ _) as [[b cb]|]; [|discriminate]. cbn [obind] in H. injection H as <-. cbn in *.
        rewrite HL in E2. apply links_same in E2 as [_ <-]. auto.
      * destruct (buf_free n); [|discriminate]. destruct (nth_error _ _) as [[id k]|]; [|discriminate]. cbn [obind] in H.
        destruct (rb_cancel _ _). injection H as <-. cbn in *. rewrite HL in E2. apply links_same in E2 as [_ <-]. auto.
      * destruct (cn_phase _); try discriminate. destruct (ne_job n); [discriminate|]. injection H as <-. cbn in E2.
        rewrite HL in E2. assert (length ((old ++ [L]) ++ [mk_link st false []]) = length (old ++ [L2])) as X by congruence.
        rewrite !app_length in X. cbn in X. lia.
    + exists (ne_links n), (mk_link x false []). split; auto. split; [rewrite HL; apply Forall_app; auto|]. right. auto.
    + rewrite HL in E1. apply links_same in E1 as [<- <-]. exists old, L2. split; auto. split; auto. left.
      destruct (Im _ _ HL) as (l2 & _ & F). destruct (F [] []) as (s' & _ & C'). eauto.
Qed.

Lemma healthy_run ls : forall n n', healthy n -> Forall no_failure ls -> net_run n ls = Some (NUp n') -> healthy n'.
Proof.
  induction ls as [|l r IH]; intros n n' Hn F H; cbn in H; [now injection H as <-|].
  inversion F; subst. destruct (net_step n l) as [[n1|g]|] eqn:E; try discriminate; [|destruct r; discriminate].
  cbn [obind] in H. exact (IH n1 n' (healthy_step n l n1 Hn ltac:(assumption) E) ltac:(assumption) H).
Qed.

Definition outstanding (n : net) : nat :=
  length (ne_calls n) + match ne_job n with Some _ => 1 | None => 0 end.
Lemma drop_length {A} (l : list A) : forall i x, nth_error l i = Some x -> length l = S (length (drop_nth i l)).
Proof. induction l; intros [|i] x H; try discriminate; cbn; auto. f_equal. eapply IHl; eauto. Qed.
Lemma upd_length {A} (f : A -> A) (l : list A) : forall i, length (upd_nth i f l) = length l.
Proof. induction l; intros [|i]; cbn; auto. Qed.
Lemma filter_some (l : list (inflight * bool)) : length (filter snd l) <> 0%nat -> exists i f, nth_error l i = Some (f, true).
Proof.
  induction l as [|[f []] r IH]; cbn; intro H; [lia|exists 0%nat, f; auto|].
  destruct (IH H) as (i & g & E). exists (S i), g. auto.
Qed.

(* something can be finished *)
Lemma finishes n : healthy n -> outstanding n <> 0%nat -> exists ls n', Forall only_writes ls /\ net_run n ls = Some (NUp n') /\
  (outstanding n' < outstanding n)%nat.
Proof.
  intros (old & L & HL & HO & H) Out.
  assert (forall j, ne_job n = Some j -> jb_writing j = true -> exists ls n', Forall only_writes ls /\ net_run n ls = Some (NUp n') /\
    (outstanding n' < outstanding n)%nat) as Job.
  { intros j Ej Ew. exists [NDone]. eexists. split; [repeat constructor|]. cbn [net_run net_step]. rewrite Ej. cbn [obind]. rewrite Ew. cbn [obind].
    split; [reflexivity|]. unfold outstanding. cbn. rewrite Ej. lia. }
  assert (forall j, ne_job n = Some j -> lk_locked L = false -> exists ls n', Forall only_writes ls /\ net_run n ls = Some (NUp n') /\
    (outstanding n' < outstanding n)%nat) as Wait.
  { intros j Ej Ew. destruct (jb_writing j) eqn:Ewr; [eapply Job; eauto|]. exists [NLock; NDone]. eexists. split; [repeat constructor|].
    cbn [net_run net_step]. rewrite Ej. cbn [obind]. unfold is_free. rewrite (current_last _ _ _ HL), HL, nth_last, Ew, Ewr. cbn [negb andb obind].
    cbn [ne_job with_job obind jb_writing]. split; [reflexivity|]. unfold outstanding. cbn. rewrite Ej. lia. }
  destruct H as [[s C]|[C J]].
  - pose proof C as (old' & L' & E & _ & _ & _ & _ & HF & _ & _ & _ & HW). rewrite HL in E. apply links_same in E as [<- <-].
    destruct HW as [_ W]. destruct (lk_locked L) eqn:Lk.
    + destruct (ne_job n) as [j|] eqn:Ej; [destruct (jb_writing j) eqn:Ew; [eapply Job; eauto|]|].
      all: assert (length (filter snd (ne_calls n)) <> 0%nat) as X by (unfold writers in W; rewrite Ej in W; rewrite ?Ew in W; cbn in W; lia).
      all: destruct (filter_some _ X) as (i & f & Ei).
      all: assert (In f (map fst (ne_calls n))) as I by (apply nth_error_In in Ei; now apply (in_map fst) in Ei).
      all: destruct (sub_at n s false f C I) as (o & L1 & h & b & _ & _ & Ec).
      all: exists [NCallDone i]; eexists; split; [repeat constructor|]; cbn [net_run net_step]; rewrite Ei, Ec; cbn [obind].
      all: split; [reflexivity|]; unfold outstanding; cbn; rewrite (drop_length _ _ _ Ei), Ej; lia.
    + destruct (ne_job n) as [j|] eqn:Ej; [eapply Wait; eauto|].
      destruct (ne_calls n) as [|[f wr] r] eqn:Ec; [unfold outstanding in Out; rewrite Ej, Ec in Out; cbn in Out; lia|].
      assert (wr = false) as ->.
      { unfold writers in W. rewrite Ej, Ec in W. destruct wr; [cbn in W; lia|auto]. }
      assert (In f (map fst (ne_calls n))) as I by (rewrite Ec; now left).
      destruct (sub_at n s false f C I) as (o & L1 & h & b & E1 & _ & Er). rewrite HL in E1. apply links_same in E1 as [<- <-].
      exists [NCall 0; NCallDone 0]. eexists. split; [repeat constructor|].
      cbn [net_run net_step]. rewrite Ec. cbn [nth_error]. rewrite Er. cbn [obind]. unfold is_free. rewrite HL, nth_last, Lk. cbn [negb obind].
      cbn [with_calls ne_calls upd_nth nth_error fst].
      replace (call_reply _ f) with (call_reply n f) by reflexivity. rewrite Er. cbn [obind]. split; [reflexivity|].
      unfold outstanding. cbn. rewrite Ec, Ej. cbn. lia.
  - pose proof C as (old' & L' & ? & ? & ? & ? & E & _ & HC & _ & _ & _ & _ & _ & _ & HJ). rewrite HL in E. apply links_same in E as [<- <-].
    destruct (ne_job n) as [j|] eqn:Ej; [|unfold outstanding in Out; rewrite HC, Ej in Out; cbn in Out; lia].
    destruct (jb_writing j) eqn:Ew; [eapply Job; eauto|]. eapply Wait; eauto. destruct HJ as (_ & _ & -> & _). auto.
Qed.

Lemma finishes_all k : forall n, healthy n -> (outstanding n <= k)%nat -> exists ls n', Forall only_writes ls /\
  net_run n ls = Some (NUp n') /\ healthy n' /\ outstanding n' = 0%nat.
Proof.
  induction k as [|k IH]; intros n Hn Ho.
  - exists [], n. split; auto. split; auto. split; auto. lia.
  - destruct (Nat.eq_dec (outstanding n) 0) as [Z|NZ]; [exists [], n; auto|].
    destruct (finishes n Hn NZ) as (l1 & n1 & F1 & R1 & Lt).
    assert (healthy n1) as H1.
    { refine (healthy_run l1 n n1 Hn _ R1). eapply Forall_impl; [|exact F1]. intros []; cbn; tauto. }
    destruct (IH n1 H1) as (l2 & n2 & F2 & R2 & H2 & Z); [lia|].
    exists (l1 ++ l2), n2. split; [now apply Forall_app|]. split; [now rewrite (net_run_app _ _ _ _ R1)|auto].
Qed.

Lemma no_deadlock st ls n : net_run (net_init st) ls = Some (NUp n) -> Forall no_failure ls ->
  exists ls' n', Forall only_writes ls' /\ net_run n ls' = Some (NUp n') /\ all_written n'.
Proof.
  intros R F. assert (healthy (net_init st)) as H0.
  { exists [], (mk_link st false []). split; auto. split; auto. right. split; auto. now apply (ctl_init [] st make_request_buffer). }
  pose proof (healthy_run ls _ _ H0 F R) as Hn.
  destruct (finishes_all _ n Hn (le_n _)) as (ls' & n' & F' & R' & (old & L & HL & HO & H) & Z).
  exists ls', n'. split; auto. split; auto. unfold outstanding in Z.
  assert (ne_job n' = None) as J by (destruct (ne_job n'); [lia|auto]).
  assert (ne_calls n' = []) as C by (destruct (ne_calls n'); [auto|cbn in Z; lia]).
  split; auto. split; auto. rewrite HL. apply Forall_app. split; auto. constructor; auto.
  destruct H as [[s Cm]|[_ Q]]; [|auto]. destruct Cm as (o & L' & E & _ & _ & _ & _ & _ & _ & _ & _ & W).
  rewrite HL in E. apply links_same in E as [<- <-]. destruct W as [_ W]. unfold writers in W. rewrite J, C in W.
  destruct (lk_locked L); [discriminate|auto].
Qed.
