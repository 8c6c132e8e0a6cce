(* Proofs about the driver of the Windows client together with the forwarder: replies. *)
From Coq Require Import ZArith.
From Verif Require Import Base M_Util M_WinFwd M_WinDrv S_Usbip S_WinFwd S_WinDrv P_WinFwd P_WinRun P_WinRep P_WinDrv P_WinDrv2 P_WinOnce.
From Coq Require Import Permutation.
Open Scope N_scope.

(* ------------------------------------------------- every write is one reply *)
Definition prompt (p : pipe) : Prop :=
  match pi_writing p with Some b => region p = b /\ bufread p = 0 /\ b <> [] | None => region p = [] end.

Lemma region_len p d : consumer_ok p d -> len (region p) = bufremain p + (if pi_same p then 0 else pi_offhdr p).
Proof.
  intros (A & B & C & _). unfold region, bufremain, cbytes. rewrite len_app, takeN_len, dropN_len.
  destruct (pi_same p); rewrite ?takeN_len; change (len (@nil N)) with 0; lia.
Qed.

Lemma region_nil p d : consumer_ok p d -> region p = [] -> bufremain p = 0 /\ (pi_same p = false -> pi_offhdr p = 0).
Proof.
  intros C R. pose proof (region_len p d C) as L. rewrite R in L. change (len (@nil N)) with 0 in L.
  split; [lia|]. intro S. rewrite S in L. lia.
Qed.

Lemma nil_region p : bufremain p = 0 -> (pi_same p = false -> pi_offhdr p = 0) -> region p = [].
Proof. intros B S. unfold region. rewrite B, takeN_0. destruct (pi_same p); [reflexivity|]. now rewrite S, takeN_0. Qed.

Lemma writing_some p d b : consumer_ok p d -> pi_writing p = Some b -> 0 < bufremain p /\ b <> [].
Proof.
  intros (A & B & C & _ & W) E. unfold writing_ok in W. rewrite E in W. destruct W as (k & K1 & K2 & ->). split; [lia|].
  intro Z. apply (f_equal len) in Z. rewrite takeN_len, dropN_len in Z. unfold bufremain, cbytes in *. change (len (@nil N)) with 0 in Z.
  destruct (pi_same p); lia.
Qed.

Lemma read_devbuf_region p n q : read_devbuf p n = Ok q ->
  region q = region p /\ pi_writing q = pi_writing p /\ bufread q = bufread p /\ pi_out q = pi_out p.
Proof.
  unfold read_devbuf, start_read. intro H.
  destruct (_ <? n) in H; [destruct (pi_same p) eqn:S; cbn [negb] in H; [destruct (_ <? bufread p) in H; [discriminate|]|]|];
    (match type of H with (if ?b then _ else _) = _ => destruct b; [discriminate|] end); injection H as <-.
  - unfold region, bufremain, cbytes, bufread. cbn [pi_same pi_p pi_c pi_offhdr pi_offc pi_maxc pi_writing pi_out]. rewrite S, takeN_0, dropN_len, N.sub_0_r. auto.
  - unfold region, bufremain, cbytes, bufread. cbn [pi_same pi_p pi_c pi_offhdr pi_offc pi_maxc pi_writing pi_out]. rewrite S. auto.
  - auto.
Qed.

Lemma write_prompt p : pi_writing p = None -> pi_same p = true \/ bufremain p = 0 ->
  match pi_writing (write_devbuf p) with Some b => region (write_devbuf p) = b | None => region (write_devbuf p) = [] end.
Proof.
  intros W S. unfold write_devbuf. set (p1 := if negb (pi_same p) && (bufremain p =? 0) then _ else p).
  assert (pi_writing p1 = None /\ pi_same p1 = true) as (W1 & S1).
  { unfold p1. destruct (pi_same p) eqn:Sp; cbn [negb andb]; [auto|]. destruct S as [S|S]; [discriminate|]. rewrite S. cbn. auto. }
  clearbody p1. rewrite W1. destruct (N.eqb_spec (bufremain p1) 0) as [Z|Z].
  - rewrite W1. apply nil_region; [exact Z|congruence].
  - cbn [pi_writing]. unfold region, bufremain, cbytes. cbn [pi_same pi_p pi_c pi_offhdr pi_offc pi_maxc]. rewrite S1. apply app_nil_r.
Qed.

Lemma write_out p : pi_out (write_devbuf p) = pi_out p.
Proof. apply write_devbuf_keeps; reflexivity. Qed.

(* a pipe between messages *)
Lemma step0_bufread its p : pipe_ok its p -> pi_step p = 0 -> bufread p = 0.
Proof.
  intros (dn & rest & raw & (_ & _ & _ & _ & _ & X) & _) S.
  destruct X as [(S2 & _)|(_ & E & _ & S1 & _)]; [congruence|].
  assert (raw = []) as -> by (destruct raw as [|x r]; [reflexivity|]; rewrite S in S1; discriminate (S1 ltac:(discriminate))).
  unfold bufread. apply (f_equal len) in E. rewrite dropN_len in E. exact E.
Qed.

Lemma turn_prompt its c p c' q : pipe_ok its p -> pipe_ok its q -> prompt p -> turn c p = Ok (c', q) ->
  prompt q /\ pi_out q = pi_out p /\
  ((pi_writing q = pi_writing p /\ region q = region p) \/ (pi_writing p = None /\ exists b, pi_writing q = Some b)).
Proof.
  intros P Q K T. pose proof P as (dn & rest & raw & _ & C). pose proof Q as (dn' & rest' & raw' & _ & Cq).
  assert (forall x, pi_out x = pi_out p -> pi_writing x = pi_writing p -> region x = region p -> bufread x = bufread p ->
    prompt x /\ pi_out x = pi_out p /\
    ((pi_writing x = pi_writing p /\ region x = region p) \/ (pi_writing p = None /\ exists b, pi_writing x = Some b))) as Same.
  { intros x E1 E2 E3 E4. split; [unfold prompt; now rewrite E2, E3, E4|auto]. }
  unfold turn in T. destruct (pi_reading p) as [n|] eqn:R.
  - injection T as <- <-. unfold prompt in K. destruct (pi_writing p) as [b|] eqn:W.
    + assert (write_devbuf p = p) as ->; [|apply Same; auto].
      destruct (writing_some p _ b C W) as (B & _). unfold write_devbuf.
      assert (negb (pi_same p) && (bufremain p =? 0) = false) as ->.
      { replace (bufremain p =? 0) with false by (symmetry; apply N.eqb_neq; lia). apply andb_false_r. }
      now rewrite W.
    + destruct (region_nil p _ C K) as (B & O).
      pose proof (write_prompt p W (or_intror B)) as Wp.
      assert (pi_writing (write_devbuf p) = None) as Wn.
      { destruct (pi_writing (write_devbuf p)) as [b|] eqn:Ew; [|reflexivity]. exfalso.
        pose proof C as Cw. apply consumer_write in Cw. destruct (writing_some _ _ b Cw Ew) as (_ & Nb). apply Nb. rewrite <- Wp.
        destruct C as (_ & _ & _ & D & _). destruct Cw as (_ & _ & _ & D' & _). rewrite K in D. rewrite write_out, <- D in D'.
        now apply app_inv_head in D'. }
      rewrite Wn in Wp. split; [unfold prompt; now rewrite Wn|]. split; [apply write_out|]. left. rewrite K. auto.
  - destruct (read_dev c p) as [[[c1 p1] b]|] eqn:E; cbn [rbind] in T; [|discriminate].
    injection T as <- <-. unfold read_dev in E. destruct (N.ltb_spec (bufread p) 48) as [B|B].
    + destruct (read_devbuf _ _) as [p2|] eqn:D; cbn [rbind] in E; [|discriminate]. injection E as <- <- <-.
      apply read_devbuf_region in D. destruct D as (D1 & D2 & D3 & D4). apply Same; [exact D4|exact D2|exact D1|exact D3].
    + assert (pi_writing p = None) as W.
      { unfold prompt in K. destruct (pi_writing p); [|reflexivity]. destruct K as (_ & K & _). lia. }
      unfold prompt in K. rewrite W in K. destruct (region_nil p _ C K) as (Br & Os).
      destruct (get_xfer_len _ _ _) as [[c2 h2] x]. destruct (_ <? _).
      * destruct (read_devbuf _ _) as [p2|] eqn:D; cbn [rbind] in E; [|discriminate]. injection E as <- <- <-.
        apply read_devbuf_region in D. destruct D as (D1 & D2 & _ & D4).
        assert (region p2 = []) as Rn by (rewrite D1; apply nil_region; [exact Br|exact Os]).
        cbn [set_header pi_writing pi_out] in D2, D4. rewrite W in D2.
        split; [unfold prompt; now rewrite D2|]. split; [exact D4|]. left. rewrite D2, Rn, K, W. auto.
      * destruct (_ && _); [discriminate|]. injection E as <- <- <-.
        match type of Q with pipe_ok _ (write_devbuf ?z) => set (y := z) in * end.
        assert (pi_step (write_devbuf y) = 0) as S0 by (rewrite (write_devbuf_keeps y pi_step); reflexivity).
        pose proof (step0_bufread its _ Q S0) as B0.
        assert (pi_writing y = None) as Wy by exact W.
        assert (pi_same y = true \/ bufremain y = 0) as Sy.
        { change (pi_same y) with (pi_same p). destruct (pi_same p) eqn:Sp; [now left|right].
          unfold y, bufremain, pdu_done, set_header. cbn [pi_maxc pi_offc pi_same]. rewrite Sp. exact Br. }
        pose proof (write_prompt y Wy Sy) as Wp.
        split.
        { unfold prompt. destruct (pi_writing (write_devbuf y)) as [b|] eqn:Ew; [|exact Wp].
          split; [exact Wp|]. split; [exact B0|]. destruct (writing_some _ _ b Cq Ew) as (_ & Nb). exact Nb. }
        split; [rewrite write_out; reflexivity|].
        destruct (pi_writing (write_devbuf y)) as [b|]; [right; eauto|left]. rewrite W, K. auto.
Qed.

(* the message that is written when a write begins *)
Lemma rep_new its p q b req sw : Forall (item_ok req sw) its -> pipe_ok its p -> pipe_ok its q -> pi_in q = pi_in p -> pi_out q = pi_out p ->
  region p = [] -> pi_writing q = Some b -> prompt q ->
  exists dn i rest, its = dn ++ i :: rest /\ concat (pi_out p) = concat (map it_out dn) /\ b = it_out i /\
    pi_in q = concat (map it_in (dn ++ [i])).
Proof.
  intros F (dn & rest & raw & (E & I & _ & _ & _ & X) & C) (dn' & rest' & raw' & (E' & I' & _ & _ & _ & X') & C') Ei Eo Rp W K.
  unfold prompt in K. rewrite W in K. destruct K as (Kr & Kb & Kn).
  destruct C as (_ & _ & _ & D & _). rewrite Rp, app_nil_r in D.
  destruct C' as (_ & _ & _ & D' & _). rewrite Kr, Eo in D'.
  assert (forall i, In i its -> len (it_in i) = 48 + len (it_d i) /\ len (it_out i) = 48 + len (it_d i) /\ len (it_m i) = 48 /\ len (it_a i) = 48) as Fi.
  { intros i Ii. rewrite Forall_forall in F. destruct (F i Ii) as (F1 & F2 & F3 & _). unfold it_in, it_out. rewrite !len_app. lia. }
  assert (raw' = []) as Er'.
  { unfold bufread in Kb. destruct X' as [(_ & i & r & e & Er & Ed & _)|(_ & Ed & _)].
    - exfalso. assert (In i its) as Ii by (rewrite E', Er; apply in_or_app; right; now left).
      destruct (Fi i Ii) as (_ & _ & Fm & _). apply (f_equal len) in Ed. rewrite dropN_len, len_app in Ed. lia.
    - apply len_0_nil. rewrite <- Ed, dropN_len. exact Kb. }
  rewrite Er', app_nil_r in I'. pose proof I' as Iq.
  (* dn' is longer *)
  assert (exists x, dn' = dn ++ x /\ rest = x ++ rest') as (x & Ex & Rx).
  { assert (forall (a b c d : list item), a ++ b = c ++ d -> (exists x, c = a ++ x /\ b = x ++ d) \/ (exists y, a = c ++ y /\ d = y ++ b)) as Lv.
    { induction a as [|z a IH]; intros bb cc dd H; [left; exists cc; auto|].
      destruct cc as [|z' cc]; [right; exists (z :: a); auto|]. cbn [app] in H. injection H as <- H.
      destruct (IH _ _ _ H) as [(x & -> & ->)|(y & -> & ->)]; [left|right]; eexists; split; reflexivity. }
    destruct (Lv dn rest dn' rest') as [H|(y & Ey & _)]; [congruence|exact H|].
    exfalso. rewrite Ey, map_app, concat_app in D. apply (f_equal len) in D, D'. rewrite !len_app in *.
    destruct b as [|z b]; [congruence|]. unfold len in D, D'. cbn [length] in D'. lia. }
  rewrite Ex, map_app, concat_app, <- D in D'. apply app_inv_head in D'.
  rewrite Ei, I, Ex, map_app, concat_app in I'. apply app_inv_head in I'.
  destruct x as [|i x]; [exfalso; apply Kn; exact D'|]. cbn [app] in Rx.
  assert (In i its) as Ii by (rewrite E, Rx; apply in_or_app; right; now left).
  destruct (Fi i Ii) as (Fi1 & Fi2 & Fi3 & Fi4).
  assert (len raw <= len (it_in i)) as Lr.
  { destruct X as [(_ & i2 & r2 & e & Er & _ & Ew & (t & Pe) & _)|(_ & _ & L & _)]; [|lia].
    rewrite Rx in Er. injection Er as <- _. rewrite Ew. apply (f_equal len) in Pe. rewrite !len_app in *. lia. }
  destruct x as [|i2 x].
  - exists dn, i, rest'. rewrite E, Rx. cbn [app map concat] in D' |- *. rewrite app_nil_r in D'. rewrite Iq, Ex. auto.
  - exfalso. assert (In i2 its) as I2 by (rewrite E, Rx; apply in_or_app; right; right; now left).
    destruct (Fi i2 I2) as (Fi5 & _). apply (f_equal len) in I'. cbn [map concat] in I'. rewrite !len_app in I'. lia.
Qed.

Lemma prefix_items (its : list item) : Forall (fun i => it_out i <> []) its -> forall l1 r1 l2 r2, its = l1 ++ r1 -> its = l2 ++ r2 ->
  concat (map it_out l1) = concat (map it_out l2) -> l1 = l2.
Proof.
  induction its as [|i its IH]; intros F l1 r1 l2 r2 E1 E2 E.
  - destruct l1; [|discriminate]. now destruct l2.
  - inversion F as [|? ? F1 F2]. subst. destruct l1 as [|a l1], l2 as [|b l2]; cbn [app] in *; auto.
    + exfalso. injection E2 as <- _. cbn [map concat] in E. symmetry in E. apply app_eq_nil in E. tauto.
    + exfalso. injection E1 as <- _. cbn [map concat] in E. apply app_eq_nil in E. tauto.
    + injection E1 as <- E1. injection E2 as <- E2. cbn [map concat] in E. apply app_inv_head in E. f_equal. eapply IH; eauto.
Qed.

(* ------------------------------------------------- what the driver makes of a reply *)
Lemma reply_fields q dir n payload : q < 4294967296 -> n < 4294967296 ->
  let b := reply_host (RSubmit q dir n payload) in
  len b = 48 + len payload /\ host32 4 b = q /\ host32 20 b = 0 /\ host32 24 b = n /\ dropN 48 b = payload.
Proof.
  intros Q B b. unfold b, reply_host. shape q. shape dir. shape n. rewrite El, El0, El1.
  split; [unfold len; cbn [app length zeros repeat le]; lia|].
  split; [now apply (le4_dec q)|]. split; [reflexivity|]. split; [now apply (le4_dec n)|]. reflexivity.
Qed.

Lemma unret_fields q removed : q < 4294967296 -> let b := reply_host (RUnlink q removed) in len b = 48 /\ host32 4 b = q.
Proof.
  intros Q b. unfold b, reply_host. shape q. rewrite El. split; [rewrite !len_app, !le_len, !len_zeros; reflexivity|].
  now apply (le4_dec q).
Qed.

Lemma int32_small n : n < 2147483648 -> int32 n = Z.of_N n.
Proof. intro H. unfold int32. apply N.ltb_lt in H. now rewrite H. Qed.

Lemma copy_fair b buf n payload : host32 24 b = n -> n < 2147483648 -> len buf < 2147483648 -> len b = 48 + len payload ->
  dropN 48 b = payload -> len payload = n \/ n = 0 ->
  copy_reply b buf = Ok (if n <=? len buf then mk_outcome Success n (takeN n payload ++ dropN n buf)
                         else mk_outcome InvalidParameter (len buf) buf).
Proof.
  intros En N1 N2 L D P. unfold copy_reply. rewrite En, D. unfold u32mod. rewrite (N.mod_small (len buf)) by lia.
  rewrite !int32_small by assumption.
  destruct (Z.ltb_spec (Z.of_N (len buf)) (Z.of_N n)) as [C|C]; destruct (N.leb_spec n (len buf)) as [C2|C2]; try lia; [reflexivity|].
  replace (2147483648 <=? n) with false by (symmetry; apply N.leb_gt; lia).
  replace (len b <? 48 + n) with false by (symmetry; apply N.ltb_ge; lia).
  replace (len buf <? n) with false by (symmetry; apply N.ltb_ge; lia). reflexivity.
Qed.

Lemma take_fair u q dir n payload : q < 4294967296 -> fair_reply u n -> (if moves_in u then len payload = n else payload = []) ->
  take_reply u (reply_host (RSubmit q dir n payload)) = Ok (spec_outcome u n payload).
Proof.
  intros Q (N1 & N2 & F) P. destruct (reply_fields q dir n payload Q ltac:(lia)) as (L & _ & S & En & D).
  set (b := reply_host _) in *. clearbody b.
  assert (len payload = n \/ n = 0 -> forall buf, buffer u = buf -> (moves_in u = false -> n = 0) ->
    copy_reply b buf = Ok (spec_outcome u n payload)) as Copy.
  { intros H buf Eb Z. subst buf. rewrite (copy_fair b _ n payload En N1 N2 L D H). unfold spec_outcome.
    destruct (moves_in u).
    - assert (takeN n payload = payload) as -> by (apply takeN_all; lia). reflexivity.
    - rewrite (Z eq_refl), takeN_0, dropN_0. now replace (0 <=? len (buffer u)) with true by (symmetry; apply N.leb_le; lia). }
  assert ((moves_in u = false -> n = 0) -> len payload = n \/ n = 0) as PZ by (intro Z; destruct (moves_in u); auto).
  unfold take_reply. rewrite S, En. cbn [N.eqb negb]. destruct u.
  - change (pipe_in pipe) with (moves_in (Bulk pipe flags buf)). destruct (moves_in _) eqn:M; [apply Copy; [auto|reflexivity|congruence]|].
    unfold spec_outcome. rewrite M, (F eq_refl). reflexivity.
  - apply Copy; [auto|reflexivity|exact F].
  - apply Copy; [auto|reflexivity|exact F].
  - change (N.testbit flags 0) with (moves_in (ClassVendor vendor recip flags request value index buf)).
    destruct (moves_in _) eqn:M; [apply Copy; [auto|reflexivity|congruence]|]. unfold spec_outcome. rewrite M. reflexivity.
  - unfold spec_outcome. cbn [moves_in buffer]. rewrite (F eq_refl). reflexivity.
  - unfold spec_outcome. cbn [moves_in buffer]. rewrite (F eq_refl). reflexivity.
  - destruct (N.eqb_spec (len buf) 0) as [Z|Z].
    + apply len_0_nil in Z. subst buf. rewrite (F (or_intror eq_refl)) in *. unfold spec_outcome. cbn [buffer].
      destruct (moves_in _); [|reflexivity]. apply len_0_nil in P. subst payload. reflexivity.
    + apply Copy; [auto|reflexivity|intro M; apply F; now left].
  - apply Copy; [auto|reflexivity|exact F].
  - unfold spec_outcome. cbn [moves_in buffer]. rewrite (F eq_refl). reflexivity.
Qed.

Lemma taken_unique d x y : drv_ok d -> In x (taken d) -> In y (taken d) -> ur_seq x = ur_seq y -> x = y.
Proof.
  intros K Ix Iy E. destruct (in_split _ _ Ix) as (t1 & t2 & T). destruct (in_split _ _ Iy) as (s1 & s2 & S).
  pose proof (taken_number d _ _ _ K T) as Nx. pose proof (taken_number d _ _ _ K S) as Ny.
  assert (length t1 = length s1) as L by lia.
  assert (nth_error (taken d) (length t1) = Some x) as Ax by (rewrite T, nth_error_app2, Nat.sub_diag by lia; reflexivity).
  assert (nth_error (taken d) (length s1) = Some y) as Ay by (rewrite S, nth_error_app2, Nat.sub_diag by lia; reflexivity).
  rewrite L in Ax. congruence.
Qed.

Lemma in_taken d r j : In (r, j) (dr_taken d) -> In r (taken d).
Proof. intro I. unfold taken. apply in_map_iff. exists (r, j). auto. Qed.

Lemma taken_small d r : drv_ok d -> N.of_nat (length (taken d)) < 4294967296 -> In r (taken d) -> 0 < ur_seq r /\ ur_seq r < 4294967296.
Proof.
  intros K W I. destruct (in_split _ _ I) as (t1 & t2 & T). rewrite (taken_number d _ _ _ K T).
  rewrite T, app_length in W. cbn [length] in W. lia.
Qed.

Definition completes (d d2 : drv) (r : reply) : Prop :=
  (dr_done d2 = dr_done d \/
   exists x u q dir n payload, r = RSubmit q dir n payload /\ In x (dr_sent d) /\ ur_seq x = q /\ ur_what x = Some u /\
     dr_done d2 = dr_done d ++ [(ur_id x, spec_outcome u n payload)]) /\
  (forall q dir n payload x, r = RSubmit q dir n payload -> In x (dr_sent d) -> ur_seq x = q -> In (ur_id x) (map fst (dr_done d2))).

Lemma take_sent_none q l : take_sent q l = None -> forall x, In x l -> ur_seq x <> q.
Proof.
  induction l as [|y l IH]; cbn [take_sent]; intros E x I; [destruct I|]. destruct (N.eqb_spec (ur_seq y) q) as [Q|Q]; [discriminate|].
  destruct (take_sent q l) as [[z l2]|]; [discriminate|]. destruct I as [<-|I]; auto.
Qed.

Lemma write_reply dF d r : drv_ok dF -> N.of_nat (length (taken dF)) < 4294967296 -> incl (dr_sent d) (taken dF) -> fair_one dF r ->
  exists d2, write_drv d (reply_host r) = Ok d2 /\ completes d d2 r.
Proof.
  intros K W I F. destruct r as [q dir n payload|q removed].
  - destruct F as (id & u & (x & j & X1 & X2 & X3 & X4) & Ed & Fr & P). apply in_taken in X1.
    assert (q < 4294967296) as Q by (rewrite <- X2; now apply (taken_small dF)).
    pose proof Fr as (N1 & _). destruct (reply_fields q dir n payload Q ltac:(lia)) as (L & Sq & _).
    unfold write_drv. replace (_ <? 48) with false by (symmetry; apply N.ltb_ge; lia). rewrite Sq.
    destruct (take_sent q (dr_sent d)) as [[y sent]|] eqn:T.
    + destruct (take_sent_in _ _ _ _ T) as (Ti & _ & Ty).
      assert (In y (dr_sent d)) as Iy by (apply Ti; now left).
      assert (y = x) as -> by (apply (taken_unique dF); auto; congruence).
      rewrite X4, (take_fair u q dir n payload Q Fr P). cbn [rbind]. eexists. split; [reflexivity|]. split.
      * right. exists x, u, q, dir, n, payload. auto.
      * intros q' dir' n' p' z [=<- <- <- <-] Iz Ez. assert (z = x) as -> by (apply (taken_unique dF); auto; congruence).
        cbn [finish dr_done]. rewrite map_app. apply in_or_app. right. now left.
    + eexists. split; [reflexivity|]. split; [now left|]. intros q' dir' n' p' z [=<- <- <- <-] Iz Ez. destruct (take_sent_none _ _ T z Iz Ez).
  - destruct F as (x & j & X1 & X2 & X3). apply in_taken in X1.
    assert (q < 4294967296) as Q by (rewrite <- X2; now apply (taken_small dF)).
    destruct (unret_fields q removed Q) as (L & Sq).
    unfold write_drv. replace (_ <? 48) with false by (symmetry; apply N.ltb_ge; lia). rewrite Sq.
    destruct (take_sent q (dr_sent d)) as [[y sent]|] eqn:T.
    + destruct (take_sent_in _ _ _ _ T) as (Ti & _ & Ty).
      assert (y = x) as -> by (apply (taken_unique dF); auto; [apply I, Ti; now left|congruence]).
      rewrite X3. eexists. split; [reflexivity|]. split; [now left|discriminate].
    + eexists. split; [reflexivity|]. split; [now left|discriminate].
Qed.

(* reads do not complete blocks, unless they fail *)
Lemma read_facts d n junk d' rr : read_drv d n junk = Ok (d', rr) -> rr <> Fails ->
  dr_done d' = dr_done d /\ dr_devid d' = dr_devid d /\ (exists x, dr_taken d' = dr_taken d ++ x) /\
  (incl (dr_sent d ++ in_slot (dr_partial d)) (taken d) -> incl (dr_sent d' ++ in_slot (dr_partial d')) (taken d')).
Proof.
  unfold read_drv. intros E N. destruct (dr_read d); [injection E as <- <-; congruence|].
  destruct (dr_partial d) as [|r|]; [| |discriminate].
  - destruct (dr_pending d) as [|r pending].
    + injection E as <- <-. cbn. repeat split; auto. exists []. now rewrite app_nil_r.
    + destruct (store_urbr _ _ _ _) as [[b rest]|]; [|injection E as <- <-; congruence]. injection E as <- <-.
      unfold stored, taken. cbn [dr_done dr_devid dr_taken dr_sent dr_partial]. (split; [reflexivity|]); (split; [reflexivity|]); (split; [eauto|]).
      cbn [in_slot]. rewrite app_nil_r, map_app. intro I.
      destruct rest; cbn [in_slot map fst]; rewrite ?app_nil_r; apply incl_app; try (apply incl_appl; assumption); apply incl_appr, incl_refl.
  - destruct (let! u := ur_what r in store_rest n u); [|injection E as <- <-; congruence]. injection E as <- <-.
    unfold taken. cbn [dr_done dr_devid dr_taken dr_sent dr_partial in_slot]. (split; [reflexivity|]); (split; [reflexivity|]); (split; [exists []; now rewrite app_nil_r|]). now rewrite app_nil_r.
Qed.

(* ------------------------------------------------- what grows *)
Lemma fwd_step_rep f l g : fwd_step f l = Some (Ok g) ->
  (exists z, pi_in (fw_rep g) = pi_in (fw_rep f) ++ z) /\ (exists z, fw_log g = fw_log f ++ z).
Proof.
  intro E. assert (forall A (x : list A), exists z, x = x ++ z) as Nil by (intros A x; exists []; now rewrite app_nil_r).
  destruct l as [|[|] b|[|] k]; cbn [fwd_step] in E.
  - injection E as E. destruct (iterate_parts _ _ E) as (c1 & _ & T & -> & _). destruct (turn_ends _ _ _ _ T) as (-> & _). split; [apply Nil|eauto].
  - destruct (fw_waiting f); [|discriminate]. destruct (read_done _ _); [|discriminate]. cbn [obind] in E. injection E as <-. split; apply Nil.
  - destruct (fw_waiting f); [|discriminate]. cbn [pipe_of] in E. unfold read_done in E. destruct (pi_reading _); [|discriminate].
    destruct (_ || _); [discriminate|]. cbn [obind] in E. injection E as <-. split; [eexists; reflexivity|apply Nil].
  - destruct (fw_waiting f); [|discriminate]. destruct (write_done _ _); [|discriminate]. cbn [obind] in E. injection E as <-. split; apply Nil.
  - destruct (fw_waiting f); [|discriminate]. cbn [pipe_of] in E. unfold write_done in E. destruct (pi_writing _); [|discriminate].
    destruct (_ || _); [discriminate|]. cbn [obind] in E. injection E as <-. split; apply Nil.
Qed.

Lemma submit_taken d r d' b a : submit_urbr d r = (d', b, a) -> exists x, dr_taken d' = dr_taken d ++ x.
Proof.
  assert (forall A (x : list A), exists z, x = x ++ z) as Nil by (intros A x; exists []; now rewrite app_nil_r).
  unfold submit_urbr. destruct (dr_partial d), (dr_read d) as [[[s j] [|]]|]; try (intros [=<- <- <-]; apply Nil).
  destruct (store_urbr _ _ _ _) as [[c rest]|]; intros [=<- <- <-]; [eexists; reflexivity|apply Nil].
Qed.

Lemma read_taken d n junk d' rr : read_drv d n junk = Ok (d', rr) -> exists x, dr_taken d' = dr_taken d ++ x.
Proof.
  intro E. destruct rr; try (eapply read_facts; [exact E|discriminate]).
  unfold read_drv in E. assert (exists z, dr_taken d = dr_taken d ++ z) as Nil by (exists []; now rewrite app_nil_r).
  destruct (dr_read d); [injection E as <-; auto|]. destruct (dr_partial d); [| |discriminate].
  - destruct (dr_pending d); [discriminate|]. destruct (store_urbr _ _ _ _) as [[b rest]|]; [discriminate|]. injection E as <-. auto.
  - destruct (let! u := ur_what r in store_rest n u); [discriminate|]. injection E as <-. auto.
Qed.

Lemma step_taken w l v : win_step w l = Some (Ok v) -> exists x, dr_taken (wi_drv v) = dr_taken (wi_drv w) ++ x.
Proof.
  assert (forall A (x : list A), exists z, x = x ++ z) as Nil by (intros A x; exists []; now rewrite app_nil_r).
  intro E. destruct l; cbn [win_step] in E.
  - destruct (submit_block _ _ _) as [d b] eqn:B. injection E as <-. unfold submit_block in B.
    destruct (submit_urbr _ _) as [[d' b'] a] eqn:S. apply submit_taken in S. destruct a; injection B as <- _; exact S.
  - destruct (cancel_block _ _) as [[d b]|] eqn:B; [|discriminate]. cbn [obind] in E. injection E as <-.
    unfold cancel_block in B. destruct (find _ _); [|discriminate]. destruct (submit_urbr _ _) as [[d' b'] a] eqn:S.
    apply submit_taken in S. destruct (ur_what _); [|discriminate]. injection B as <- _. exact S.
  - injection E as <-. apply Nil.
  - destruct (wi_ended w); [discriminate|]. destruct (_ && _); [discriminate|].
    destruct (fwd_step _ _) as [[g|]|]; cbn [obind rbind] in E; try discriminate. injection E as E.
    destruct (match starts _ _ with Some n => _ | None => _ end) as [[d1 rr]|] eqn:R; cbn [rbind] in E; [|discriminate].
    destruct (match starts (pi_writing _) _ with Some b => _ | None => _ end) as [d2|] eqn:Wr; cbn [rbind] in E; [|discriminate].
    injection E as <-. cbn [wi_drv].
    assert (dr_taken d2 = dr_taken d1) as ->.
    { destruct (starts (pi_writing _) _) in Wr; [apply write_same in Wr; destruct Wr as ((_ & _ & _ & _ & _ & Wr & _) & _); exact Wr|]. now injection Wr as <-. }
    destruct (starts _ _) in R; [now apply read_taken in R|]. injection R as <- _. apply Nil.
  - destruct (wi_ended w); [discriminate|]. destruct (wi_ready w); [|discriminate]. cbn [obind] in E. unfold fwd_does in E.
    destruct (fwd_step _ _) as [[g|]|]; cbn [obind rbind] in E; try discriminate. injection E as <-. apply Nil.
  - destruct (wi_ended w); [discriminate|]. destruct (pi_writing _); [|discriminate]. cbn [obind] in E. unfold fwd_does in E.
    destruct (fwd_step _ _) as [[g|]|]; cbn [obind rbind] in E; try discriminate. injection E as <-. apply Nil.
  - destruct (wi_ended w); [discriminate|]. destruct (pi_writing _); [discriminate|]. unfold fwd_does in E.
    destruct (fwd_step _ _) as [[g|]|]; cbn [obind rbind] in E; try discriminate. injection E as <-. apply Nil.
  - destruct (wi_ended w); [discriminate|]. unfold fwd_does in E.
    destruct (fwd_step _ _) as [[g|]|]; cbn [obind rbind] in E; try discriminate. injection E as <-. apply Nil.
Qed.
