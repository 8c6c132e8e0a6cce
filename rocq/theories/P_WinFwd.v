(* Proofs about the Windows client's forwarder: headers, the cache, the buffers. *)
From Verif Require Import Base M_WinFwd S_Usbip S_WinFwd P_Usbip1.
Open Scope N_scope.

(* ------------------------------------------------- headers *)
Lemma le4_shape v : exists a b c d, le 4 v = [a; b; c; d] /\ be 4 v = [d; c; b; a].
Proof.
  unfold be. assert (length (le 4 v) = 4%nat) as L by apply le_length.
  destruct (le 4 v) as [|a [|b [|c [|d [|? ?]]]]]; try discriminate. exists a, b, c, d. auto.
Qed.

Lemma eight_shape (b : bytes) : len b = 8 -> exists a0 a1 a2 a3 a4 a5 a6 a7,
  b = [a0; a1; a2; a3; a4; a5; a6; a7].
Proof.
  unfold len. intro L.
  destruct b as [|a0 [|a1 [|a2 [|a3 [|a4 [|a5 [|a6 [|a7 [|? ?]]]]]]]]]; try (cbn in L; lia).
  now exists a0, a1, a2, a3, a4, a5, a6, a7.
Qed.

Definition submit_host (seq devid dir ep flags start packets interval n : N) (setup : bytes) : bytes :=
  le 4 1 ++ le 4 seq ++ le 4 devid ++ le 4 dir ++ le 4 ep ++
  le 4 flags ++ le 4 n ++ le 4 start ++ le 4 packets ++ le 4 interval ++ setup.
Definition unlink_host (seq devid dir ep target : N) (padding : bytes) : bytes :=
  le 4 2 ++ le 4 seq ++ le 4 devid ++ le 4 dir ++ le 4 ep ++ le 4 target ++ padding.
Definition ret_host (seq dir n : N) : bytes :=
  le 4 3 ++ le 4 seq ++ zeros 4 ++ le 4 dir ++ zeros 4 ++ le 4 0 ++ le 4 n ++ zeros 20.

Ltac shape v :=
  let a := fresh "w" in let b := fresh "w" in let c := fresh "w" in let d := fresh "w" in
  let E1 := fresh "El" in let E2 := fresh "Eb" in
  destruct (le4_shape v) as (a & b & c & d & E1 & E2).

Lemma submit_swap seq devid dir ep flags start packets interval n setup : len setup = 8 ->
  swap_header false (submit_host seq devid dir ep flags start packets interval n setup) =
  be 4 1 ++ be 4 seq ++ be 4 devid ++ be 4 dir ++ be 4 ep ++
  be 4 flags ++ be 4 n ++ be 4 start ++ be 4 packets ++ be 4 interval ++ setup.
Proof.
  intro L. unfold submit_host. destruct (eight_shape _ L) as (? & ? & ? & ? & ? & ? & ? & ? & ->).
  shape seq. shape devid. shape dir. shape ep. shape flags. shape n. shape start. shape packets. shape interval.
  repeat match goal with H : _ = _ |- _ => rewrite !H; clear H end. reflexivity.
Qed.

Lemma le4_dec v x y z w : v < 4294967296 -> le 4 v = [x; y; z; w] -> le_dec [x; y; z; w] = v.
Proof. intros B E. rewrite <- E. now apply (le_dec_le_small 4). Qed.

Lemma submit_fields seq devid dir ep flags start packets interval n setup : len setup = 8 ->
  seq < 4294967296 -> dir < 4294967296 -> n < 4294967296 -> packets < 4294967296 ->
  let h := submit_host seq devid dir ep flags start packets interval n setup in
  len h = 48 /\ host32 0 h = 1 /\ host32 4 h = seq /\ host32 12 h = dir /\ host32 24 h = n /\
  host32 32 h = packets.
Proof.
  intros L B1 B2 B3 B4 h. unfold h, submit_host. destruct (eight_shape _ L) as (? & ? & ? & ? & ? & ? & ? & ? & ->).
  shape seq. shape devid. shape dir. shape ep. shape flags. shape n. shape start. shape packets. shape interval.
  pose proof (le4_dec _ _ _ _ _ B1 El) as D1. pose proof (le4_dec _ _ _ _ _ B2 El1) as D2.
  pose proof (le4_dec _ _ _ _ _ B3 El4) as D3. pose proof (le4_dec _ _ _ _ _ B4 El6) as D4.
  rewrite El, El0, El1, El2, El3, El4, El5, El6, El7.
  split; [reflexivity|]. split; [reflexivity|]. split; [exact D1|]. split; [exact D2|].
  split; [exact D3|exact D4].
Qed.

Lemma unlink_swap seq devid dir ep target padding : len padding = 24 ->
  swap_header false (unlink_host seq devid dir ep target padding) =
  be 4 2 ++ be 4 seq ++ be 4 devid ++ be 4 dir ++ be 4 ep ++ be 4 target ++ padding.
Proof.
  intro L. unfold unlink_host.
  shape seq. shape devid. shape dir. shape ep. shape target.
  repeat match goal with H : le _ _ = _ |- _ => rewrite !H; clear H end.
  repeat match goal with H : be _ _ = _ |- _ => rewrite !H; clear H end.
  change (be 4 2) with [0; 0; 0; 2]. change (le 4 2) with [2; 0; 0; 0]. cbn [app].
  reflexivity.
Qed.

Lemma unlink_fields seq devid dir ep target padding : len padding = 24 ->
  let h := unlink_host seq devid dir ep target padding in len h = 48 /\ host32 0 h = 2.
Proof.
  intros L h. split; [|reflexivity]. unfold h, unlink_host. rewrite !len_app, !le_len, L. reflexivity.
Qed.

Definition ret_wire (seq n : N) : bytes :=
  be 4 3 ++ be 4 seq ++ zeros 12 ++ be 4 0 ++ be 4 n ++ zeros 20.

Lemma ret_swap seq n : swap_header true (ret_wire seq n) = ret_host seq 0 n.
Proof.
  unfold ret_wire, ret_host. shape seq. shape n. rewrite Eb, Eb0, El, El0. reflexivity.
Qed.

Lemma ret_fields seq dir n : seq < 4294967296 -> dir < 4294967296 -> n < 4294967296 ->
  let h := ret_host seq dir n in
  len h = 48 /\ host32 0 h = 3 /\ host32 4 h = seq /\ host32 12 h = dir /\ host32 24 h = n /\
  host32 32 h = 0.
Proof.
  intros B1 B2 B3 h. unfold h, ret_host. shape seq. shape dir. shape n.
  pose proof (le4_dec _ _ _ _ _ B1 El) as D1. pose proof (le4_dec _ _ _ _ _ B2 El0) as D2.
  pose proof (le4_dec _ _ _ _ _ B3 El1) as D3. rewrite El, El0, El1.
  split; [reflexivity|]. split; [reflexivity|]. split; [exact D1|]. split; [exact D2|].
  split; [exact D3|reflexivity].
Qed.

Lemma ret_set seq dir dir' n : set32 (ret_host seq dir n) 12 dir' = ret_host seq dir' n.
Proof.
  unfold ret_host, set32. shape seq. shape dir. shape dir'. shape n. rewrite El, El0, El1, El2. reflexivity.
Qed.

Definition unret_wire (seq : N) (removed : bool) : bytes :=
  be 4 4 ++ be 4 seq ++ zeros 12 ++
  (if removed then [0xFF; 0xFF; 0xFF; 0x98] else [0xFF; 0xFF; 0xFF; 0xFE]) ++ zeros 24.
Definition unret_host (seq : N) (removed : bool) : bytes :=
  le 4 4 ++ le 4 seq ++ zeros 12 ++ le 4 (spec_status removed) ++ zeros 24.

Lemma unret_swap seq removed : swap_header true (unret_wire seq removed) = unret_host seq removed.
Proof.
  unfold unret_wire, unret_host. shape seq. rewrite Eb, El. destruct removed; reflexivity.
Qed.

Lemma unret_fields seq removed :
  let h := unret_host seq removed in len h = 48 /\ host32 0 h = 4.
Proof.
  intro h. unfold h, unret_host. split; [|reflexivity]. rewrite !len_app, !le_len, !len_zeros. reflexivity.
Qed.

(* ------------------------------------------------- lists *)
Lemma takeN_takeN_drop {A} (l : list A) i j : i <= j ->
  takeN i l ++ takeN (j - i) (dropN i l) = takeN j l.
Proof.
  intro H. unfold takeN, dropN. rewrite N2Nat.inj_sub.
  rewrite <- (firstn_skipn (N.to_nat i) (firstn (N.to_nat j) l)). rewrite firstn_firstn, Nat.min_l by lia.
  f_equal. now rewrite skipn_firstn_comm.
Qed.

Lemma slice_app {A} (l : list A) i a b :
  takeN (a + b) (dropN i l) = takeN a (dropN i l) ++ takeN b (dropN (i + a) l).
Proof.
  rewrite <- (takeN_takeN_drop (dropN i l) a (a + b)) by lia. f_equal.
  replace (a + b - a) with b by lia. now rewrite dropN_dropN.
Qed.

Lemma slice_take {A} (l : list A) i k n : i + k <= n -> takeN k (dropN i (takeN n l)) = takeN k (dropN i l).
Proof.
  intro H. unfold takeN, dropN. rewrite skipn_firstn_comm, firstn_firstn. f_equal. lia.
Qed.

Lemma take_app_le {A} (a b : list A) n : n <= len a -> takeN n (a ++ b) = takeN n a.
Proof. intro H. rewrite takeN_app. replace (n - len a) with 0 by lia. now rewrite takeN_0, app_nil_r. Qed.

Lemma drop_app_le {A} (a b : list A) n : n <= len a -> dropN n (a ++ b) = dropN n a ++ b.
Proof. intro H. rewrite dropN_app. replace (n - len a) with 0 by lia. now rewrite dropN_0. Qed.

(* ------------------------------------------------- the consumer's half *)
Definition cbytes (p : pipe) : bytes := if pi_same p then pi_p p else pi_c p.
Definition region (p : pipe) : bytes :=
  takeN (bufremain p) (dropN (pi_offc p) (cbytes p)) ++
  (if pi_same p then [] else takeN (pi_offhdr p) (pi_p p)).

Definition writing_ok (p : pipe) : Prop :=
  match pi_writing p with
  | None => True
  | Some b => exists k, 0 < k /\ k <= bufremain p /\ b = takeN k (dropN (pi_offc p) (cbytes p))
  end.

Definition consumer_ok (p : pipe) (d : bytes) : Prop :=
  pi_offc p <= pi_maxc p /\ pi_offhdr p <= len (pi_p p) /\
  (if pi_same p then pi_maxc p = pi_offhdr p else pi_maxc p <= len (pi_c p)) /\
  concat (pi_out p) ++ region p = d /\ writing_ok p.

(* only the complete part of the buffer matters *)
Lemma consumer_same p q d : consumer_ok p d ->
  pi_same q = pi_same p -> pi_offhdr q = pi_offhdr p -> pi_c q = pi_c p -> pi_offc q = pi_offc p ->
  pi_maxc q = pi_maxc p -> pi_writing q = pi_writing p -> pi_out q = pi_out p ->
  pi_offhdr p <= len (pi_p q) -> takeN (pi_offhdr p) (pi_p q) = takeN (pi_offhdr p) (pi_p p) ->
  consumer_ok q d.
Proof.
  intros (A & B & C & D & W) E1 E2 E3 E4 E5 E6 E7 L T. unfold consumer_ok.
  rewrite E1, E2, E3, E4, E5, E7. split; [exact A|]. split; [exact L|]. split; [exact C|].
  assert (forall k, k <= bufremain p ->
    takeN k (dropN (pi_offc p) (cbytes q)) = takeN k (dropN (pi_offc p) (cbytes p))) as K.
  { intros k Hk. unfold cbytes. rewrite E1, E3. destruct (pi_same p); auto.
    unfold bufremain in Hk.
    rewrite <- (slice_take (pi_p q) _ _ (pi_offhdr p)), <- (slice_take (pi_p p) _ _ (pi_offhdr p)) by lia.
    now rewrite T. }
  assert (bufremain q = bufremain p) as R by (unfold bufremain; now rewrite E4, E5).
  split.
  - rewrite <- D. f_equal. unfold region. rewrite R, E1, E2, E4, K by lia. now rewrite T.
  - unfold writing_ok in *. rewrite E6, R, E4. destruct (pi_writing p) as [b|]; auto.
    destruct W as (k & K1 & K2 & ->). exists k. rewrite K by assumption. auto.
Qed.

Lemma consumer_move p d sz : consumer_ok p d -> pi_same p = true ->
  consumer_ok (mk_pipe (pi_req p) (pi_swap_in p) (pi_swap_out p) (pi_reading p) (pi_step p) false
    (dropN (pi_offhdr p) (pi_p p)) 0 sz (pi_p p) (pi_offc p) (pi_maxc p) (pi_writing p)
    (pi_in p) (pi_out p)) d.
Proof.
  intros (A & B & C & D & W) S. rewrite S in C. unfold consumer_ok.
  cbn [pi_offc pi_maxc pi_offhdr pi_p pi_same pi_c pi_out].
  split; [exact A|]. split; [lia|]. split; [lia|]. split.
  - rewrite <- D. f_equal. unfold region, bufremain, cbytes. rewrite S.
    cbn [pi_offc pi_maxc pi_offhdr pi_p pi_same pi_c]. now rewrite takeN_0.
  - unfold writing_ok in *. cbn [pi_writing pi_offc]. unfold bufremain, cbytes in *. rewrite S in W.
    cbn [pi_offc pi_maxc pi_same pi_c]. exact W.
Qed.

Lemma consumer_done p d n : consumer_ok p d -> pi_offhdr p + n = len (pi_p p) ->
  consumer_ok (pdu_done p n) (d ++ takeN n (dropN (pi_offhdr p) (pi_p p))).
Proof.
  intros (A & B & C & D & W) L. unfold consumer_ok, pdu_done, region, writing_ok, bufremain, cbytes in *.
  cbn [pi_offc pi_maxc pi_offhdr pi_p pi_same pi_c pi_out pi_writing].
  destruct (pi_same p).
  - split; [lia|]. split; [lia|]. split; [lia|]. split.
    + rewrite <- D. rewrite !app_nil_r, <- app_assoc. f_equal.
      replace (len (pi_p p) - pi_offc p) with ((pi_maxc p - pi_offc p) + n) by lia.
      rewrite slice_app. f_equal. f_equal. f_equal. lia.
    + destruct (pi_writing p); auto. destruct W as (k & K1 & K2 & ->). exists k. split; [|split]; auto. lia.
  - split; [lia|]. split; [lia|]. split; [lia|]. split.
    + rewrite <- D. rewrite <- !app_assoc. do 2 f_equal.
      rewrite <- (takeN_takeN_drop _ (pi_offhdr p) (pi_offhdr p + n)) by lia. do 2 f_equal. lia.
    + exact W.
Qed.

Lemma consumer_write p d : consumer_ok p d -> consumer_ok (write_devbuf p) d.
Proof.
  intros H. unfold write_devbuf.
  set (p1 := if negb (pi_same p) && (bufremain p =? 0) then _ else p).
  assert (consumer_ok p1 d) as H1.
  { unfold p1. destruct (negb (pi_same p) && (bufremain p =? 0)) eqn:E; auto.
    apply andb_true_iff in E. destruct E as [E1 E2]. apply N.eqb_eq in E2.
    destruct H as (A & B & C & D & W). destruct (pi_same p) eqn:S; [discriminate|].
    unfold consumer_ok. cbn [pi_offc pi_maxc pi_offhdr pi_p pi_same pi_c pi_out].
    split; [lia|]. split; [exact B|]. split; [reflexivity|]. split.
    - rewrite <- D. f_equal. unfold region, bufremain, cbytes in *. rewrite S, E2.
      cbn [pi_offc pi_maxc pi_offhdr pi_p pi_same pi_c]. rewrite dropN_0, N.sub_0_r, takeN_0, app_nil_r.
      reflexivity.
    - unfold writing_ok in *. cbn [pi_writing]. destruct (pi_writing p); auto.
      destruct W as (k & K1 & K2 & _). lia. }
  destruct (pi_writing p1) eqn:Ew; auto.
  destruct (N.eqb_spec (bufremain p1) 0) as [Z|Z]; auto.
  destruct H1 as (A & B & C & D & W). unfold consumer_ok.
  cbn [pi_offc pi_maxc pi_offhdr pi_p pi_same pi_c pi_out]. repeat split; auto.
  unfold writing_ok. cbn [pi_writing]. exists (bufremain p1). split; [lia|]. split; [|reflexivity].
  unfold bufremain. cbn [pi_offc pi_maxc]. lia.
Qed.

Lemma consumer_written p d n q : consumer_ok p d -> write_done p n = Some q -> consumer_ok q d.
Proof.
  intros (A & B & C & D & W) E. unfold write_done in E. unfold writing_ok in W.
  destruct (pi_writing p) as [b|]; [|discriminate]. destruct W as (k & K1 & K2 & ->).
  destruct ((n =? 0) || (len (takeN k (dropN (pi_offc p) (cbytes p))) <? n)) eqn:Z; [discriminate|].
  injection E as <-. apply orb_false_iff in Z. destruct Z as [Z1 Z2].
  apply N.eqb_neq in Z1. apply N.ltb_ge in Z2.
  rewrite takeN_len in Z2. assert (n <= k) as Hn by lia. unfold bufremain in K2.
  unfold consumer_ok. cbn [pi_offc pi_maxc pi_offhdr pi_p pi_same pi_c pi_out].
  split; [lia|]. split; [exact B|]. split; [exact C|]. split; [|exact I].
  rewrite <- D, concat_app. cbn [concat]. rewrite app_nil_r, <- app_assoc. f_equal.
  unfold region, bufremain, cbytes. cbn [pi_offc pi_maxc pi_offhdr pi_p pi_same pi_c].
  rewrite app_assoc. f_equal.
  rewrite takeN_takeN, N.min_l by lia. fold (cbytes p).
  replace (pi_maxc p - pi_offc p) with (n + (pi_maxc p - (pi_offc p + n))) by lia.
  now rewrite slice_app.
Qed.

(* ------------------------------------------------- the producer's half *)
(* A message: its header as it comes, as read_dev sees it, and as it goes; its data. *)
Record item := mk_item { it_a : bytes; it_m : bytes; it_b : bytes; it_d : bytes }.
Definition it_in (i : item) : bytes := it_a i ++ it_d i.
Definition it_out (i : item) : bytes := it_b i ++ it_d i.

Definition item_ok (req swap_out : bool) (i : item) : Prop :=
  len (it_a i) = 48 /\ len (it_m i) = 48 /\ len (it_b i) = 48 /\
  get_iso_len req (it_m i) = 0 /\
  (if swap_out then swap_header false (it_m i) else it_m i) = it_b i.

Definition reading_ok (p : pipe) : Prop :=
  match pi_reading p with Some n => 0 < n /\ len (pi_p p) + n <= pi_maxp p | None => True end.

(* e: the data read so far *)
Definition in_data (p : pipe) (rest : list item) (raw : bytes) : Prop :=
  pi_step p = 2 /\ exists i r e, rest = i :: r /\ dropN (pi_offhdr p) (pi_p p) = it_m i ++ e /\
    raw = it_a i ++ e /\ prefix e (it_d i) /\
    match pi_reading p with Some n => len e + n = len (it_d i) | None => True end.
Definition in_header (p : pipe) (raw : bytes) : Prop :=
  pi_step p <> 2 /\ dropN (pi_offhdr p) (pi_p p) = raw /\ len raw <= 48 /\
  (raw <> [] -> pi_step p = 1) /\
  match pi_reading p with Some n => pi_step p = 1 /\ len raw + n = 48 | None => True end.

Definition producer_ok (its : list item) (p : pipe) (dn rest : list item) (raw : bytes) : Prop :=
  its = dn ++ rest /\ pi_in p = concat (map it_in dn) ++ raw /\
  len (pi_p p) <= pi_maxp p /\ pi_maxp p < 4294967296 /\
  reading_ok p /\ (in_data p rest raw \/ in_header p raw).

Definition pipe_ok (its : list item) (p : pipe) : Prop :=
  exists dn rest raw, producer_ok its p dn rest raw /\ consumer_ok p (concat (map it_out dn)).

Lemma read_devbuf_ok p n d : consumer_ok p d -> len (pi_p p) <= pi_maxp p -> pi_maxp p < 4294967296 ->
  0 < n -> bufread p + n < 4294967296 -> (pi_same p = false -> len (pi_p p) + n < 4294967296) ->
  exists q, read_devbuf p n = Ok q /\ consumer_ok q d /\ pi_reading q = Some n /\ pi_step q = pi_step p /\
    dropN (pi_offhdr q) (pi_p q) = dropN (pi_offhdr p) (pi_p p) /\
    len (pi_p q) <= len (pi_p p) /\ len (pi_p q) + n <= pi_maxp q /\ pi_maxp q < 4294967296 /\
    pi_in q = pi_in p /\ pi_out q = pi_out p /\ pi_req q = pi_req p /\ pi_swap_in q = pi_swap_in p /\
    pi_swap_out q = pi_swap_out p.
Proof.
  intros C L M Z B B'. pose proof C as (_ & C0 & _). unfold read_devbuf.
  destruct (N.ltb_spec (pi_maxp p - len (pi_p p)) n) as [R|R].
  - destruct (pi_same p) eqn:S; cbn [negb].
    + pose proof (consumer_move p d (u32mod (n + bufread p)) C S) as C'.
      assert (u32mod (n + bufread p) = n + bufread p) as U.
      { unfold u32mod. apply N.mod_small. lia. }
      rewrite U in *. replace (n + bufread p <? bufread p) with false by (symmetry; apply N.ltb_ge; lia).
      assert (len (dropN (pi_offhdr p) (pi_p p)) = bufread p) as Ld by (rewrite dropN_len; reflexivity).
      unfold start_read. cbn [pi_maxp pi_p]. rewrite Ld.
      replace (n + bufread p <? bufread p + n) with false by (symmetry; apply N.ltb_ge; lia).
      eexists. split; [reflexivity|].
      split; [eapply consumer_same; [exact C'|try reflexivity..]; cbn [pi_p pi_offhdr]; lia|].
      cbn [pi_reading pi_step pi_offhdr pi_p pi_maxp pi_in pi_out pi_req pi_swap_in pi_swap_out].
      rewrite dropN_0, Ld. unfold bufread in *. repeat split; lia.
    + specialize (B' eq_refl). assert (u32mod (pi_maxp p + (n - (pi_maxp p - len (pi_p p)))) = len (pi_p p) + n) as U.
      { unfold u32mod. rewrite N.mod_small by lia. lia. }
      rewrite U. unfold start_read. cbn [pi_maxp pi_p]. rewrite N.ltb_irrefl.
      eexists. split; [reflexivity|].
      split; [pose proof C as (_ & C2 & _); eapply consumer_same; [exact C|try reflexivity..]; auto|].
      cbn [pi_reading pi_step pi_offhdr pi_p pi_maxp pi_in pi_out pi_req pi_swap_in pi_swap_out].
      repeat split; lia.
  - unfold start_read. replace (pi_maxp p <? len (pi_p p) + n) with false by (symmetry; apply N.ltb_ge; lia).
    eexists. split; [reflexivity|].
    split; [pose proof C as (_ & C2 & _); eapply consumer_same; [exact C|try reflexivity..]; auto|].
    cbn [pi_reading pi_step pi_offhdr pi_p pi_maxp pi_in pi_out pi_req pi_swap_in pi_swap_out].
    repeat split; lia.
Qed.

(* the header read_dev works on *)
Definition header_of (p : pipe) : bytes := takeN 48 (dropN (pi_offhdr p) (pi_p p)).
Definition seen_header (p : pipe) : bytes :=
  if (pi_step p =? 1) && pi_swap_in p then swap_header true (header_of p) else header_of p.

(* the cache after a turn *)
Definition turn_cache (c : cache) (p : pipe) : cache :=
  match pi_reading p with
  | Some _ => c
  | None => if bufread p <? 48 then c else fst (fst (get_xfer_len (pi_req p) c (seen_header p)))
  end.

(* the message read_dev works on is handled right *)
Definition handled (c : cache) (p : pipe) (i : item) : Prop :=
  exists c', get_xfer_len (pi_req p) c (seen_header p) = (c', it_m i, len (it_d i)).

Lemma concat_prefix (a e : bytes) i r : prefix (it_in i ++ e) (concat (map it_in (i :: r))) ->
  prefix e (concat (map it_in r)).
Proof. intros (c & E). cbn [map concat] in E. rewrite <- app_assoc in E. apply app_inv_head in E. now exists c. Qed.

Lemma prefix_len (a b : bytes) : prefix a b -> len a <= len b.
Proof. intros (c & ->). rewrite len_app. lia. Qed.

Lemma prefix_eq (a b : bytes) : prefix a b -> len b <= len a -> a = b.
Proof.
  intros (c & ->) L. rewrite len_app in L. rewrite (len_0_nil c) by lia. now rewrite app_nil_r.
Qed.

Lemma prefix_take (a b : bytes) : prefix a b -> a = takeN (len a) b.
Proof. intros (c & ->). now rewrite takeN_exact. Qed.

Lemma write_devbuf_keeps p {A} (f : pipe -> A) :
  (forall q, f (mk_pipe (pi_req q) (pi_swap_in q) (pi_swap_out q) (pi_reading q) (pi_step q) true
            (pi_p q) (pi_offhdr q) (pi_maxp q) [] 0 (pi_offhdr q) (pi_writing q)
            (pi_in q) (pi_out q)) = f q) ->
  (forall q w, f (mk_pipe (pi_req q) (pi_swap_in q) (pi_swap_out q) (pi_reading q) (pi_step q) (pi_same q)
            (pi_p q) (pi_offhdr q) (pi_maxp q) (pi_c q) (pi_offc q) (pi_maxc q) w
            (pi_in q) (pi_out q)) = f q) -> f (write_devbuf p) = f p.
Proof.
  intros W1 W2. unfold write_devbuf.
  set (p1 := if negb (pi_same p) && (bufremain p =? 0) then _ else p).
  assert (f p1 = f p) as E by (unfold p1; destruct (negb (pi_same p) && (bufremain p =? 0)); auto).
  clearbody p1. destruct (pi_writing p1); auto. destruct (_ =? 0); auto. now rewrite W2.
Qed.

Lemma write_producer its p dn rest raw : producer_ok its p dn rest raw ->
  producer_ok its (write_devbuf p) dn rest raw.
Proof.
  unfold producer_ok, in_data, in_header, reading_ok.
  rewrite (write_devbuf_keeps p pi_in), (write_devbuf_keeps p pi_p), (write_devbuf_keeps p pi_maxp),
    (write_devbuf_keeps p pi_reading), (write_devbuf_keeps p pi_step), (write_devbuf_keeps p pi_offhdr)
    by reflexivity. auto.
Qed.

Definition same_ends (q p : pipe) : Prop :=
  pi_in q = pi_in p /\ pi_req q = pi_req p /\ pi_swap_in q = pi_swap_in p /\ pi_swap_out q = pi_swap_out p.

Lemma write_ok its p : pipe_ok its p -> pipe_ok its (write_devbuf p) /\ same_ends (write_devbuf p) p.
Proof.
  intros (dn & rest & raw & P & C). split.
  - exists dn, rest, raw. split; [now apply write_producer|now apply consumer_write].
  - repeat split; apply write_devbuf_keeps; reflexivity.
Qed.

(* the message being read, once its header is there *)
Lemma current_item its p dn rest raw : producer_ok its p dn rest raw ->
  Forall (fun i => len (it_a i) = 48 /\ len (it_m i) = 48) its ->
  prefix (pi_in p) (concat (map it_in its)) -> 48 <= bufread p ->
  exists i r e, rest = i :: r /\ raw = it_a i ++ e /\ prefix e (it_d i) /\
    (pi_step p = 1 /\ e = [] /\ dropN (pi_offhdr p) (pi_p p) = it_a i ++ e \/
     pi_step p = 2 /\ dropN (pi_offhdr p) (pi_p p) = it_m i ++ e).
Proof.
  intros (E & I & _ & _ & _ & X) F P B.
  assert (bufread p = len (dropN (pi_offhdr p) (pi_p p))) as Bl by (unfold bufread; now rewrite dropN_len).
  destruct X as [(St & i & r & e & -> & Ec & Er & Pe & _)|(St & Ec & Lr & S1 & _)].
  - exists i, r, e. auto 10.
  - rewrite Ec in Bl. assert (len raw = 48) as L by lia.
    assert (raw <> []) as Nz by (intros ->; discriminate L). specialize (S1 Nz).
    rewrite I, E, map_app, concat_app in P.
    destruct P as (t & P). rewrite <- app_assoc in P. apply app_inv_head in P.
    destruct rest as [|i r]; cbn [map concat] in P.
    { symmetry in P. apply app_eq_nil in P. tauto. }
    unfold it_in in P at 1. rewrite <- app_assoc in P.
    assert (In i its) as Ii by (rewrite E; apply in_or_app; right; now left).
    rewrite Forall_forall in F. destruct (F i Ii) as (F1 & _).
    destruct (app_inj_len (it_a i) _ raw t ltac:(lia) P) as [E1 _].
    exists i, r, []. rewrite app_nil_r. split; [reflexivity|]. split; [auto|].
    split; [now exists (it_d i)|]. left. split; [auto|]. split; [auto|]. now rewrite Ec, E1.
Qed.

(* a second buffer holds only what has not been written *)
Lemma backlog its p dn rest raw req sw : producer_ok its p dn rest raw -> consumer_ok p (concat (map it_out dn)) ->
  Forall (item_ok req sw) its -> pi_same p = false ->
  len (pi_p p) + len (concat (pi_out p)) <= len (pi_in p).
Proof.
  intros (E & I & _ & _ & _ & X) (_ & O & _ & D & _) F S.
  assert (bufread p = len (dropN (pi_offhdr p) (pi_p p))) as Bl by (unfold bufread; now rewrite dropN_len).
  assert (len (dropN (pi_offhdr p) (pi_p p)) = len raw) as Br.
  { destruct X as [(_ & i & r & e & Er & -> & -> & _)|(_ & -> & _)]; [|reflexivity].
    assert (In i its) as Ii by (rewrite E, Er; apply in_or_app; right; now left).
    rewrite Forall_forall in F. destruct (F i Ii) as (A & B & _). rewrite !len_app. lia. }
  assert (len (concat (map it_out dn)) = len (concat (map it_in dn))) as Le.
  { assert (Forall (item_ok req sw) dn) as Fd by (rewrite E in F; now apply Forall_app in F).
    clear -Fd. induction Fd as [|i l (A & _ & B & _) _ IH]; cbn [map concat]; [reflexivity|].
    unfold it_in at 1, it_out at 1. rewrite !len_app. lia. }
  assert (len (concat (pi_out p) ++ region p) = len (concat (map it_in dn))) as Lr by (rewrite D; exact Le).
  unfold region in Lr. rewrite S, !len_app, (takeN_len (pi_p p) (pi_offhdr p)) in Lr.
  rewrite I, len_app. unfold bufread in Bl. lia.
Qed.

Lemma turn_ok its c p mx : pipe_ok its p -> Forall (item_ok (pi_req p) (pi_swap_out p)) its ->
  prefix (pi_in p) (concat (map it_in its)) -> Forall (fun i => len (it_in i) <= mx) its -> 48 <= mx ->
  mx < 4294967296 -> len (pi_in p) + mx < len (concat (pi_out p)) + 4294967296 ->
  (forall i, In i its -> pi_reading p = None -> 48 <= bufread p ->
     (pi_step p = 1 /\ header_of p = it_a i \/ pi_step p = 2 /\ header_of p = it_m i) -> handled c p i) ->
  exists q, turn c p = Ok (turn_cache c p, q) /\ pipe_ok its q /\ same_ends q p.
Proof.
  intros (dn & rest & raw & Pr & C) F P Sm T1 T2 T H. unfold turn, turn_cache.
  destruct (pi_reading p) as [n|] eqn:Er.
  { exists (write_devbuf p). split; [reflexivity|]. apply write_ok. exists dn, rest, raw. auto. }
  pose proof Pr as (E & I & L1 & M & R & X).
  unfold read_dev.
  assert (bufread p = len (dropN (pi_offhdr p) (pi_p p))) as Bl by (unfold bufread; now rewrite dropN_len).
  pose proof C as (C1 & C2 & _).
  assert (pi_same p = false -> len (pi_p p) + mx < 4294967296) as Lp.
  { intro S. pose proof (backlog its p dn rest raw (pi_req p) (pi_swap_out p) Pr C F S) as K. lia. }
  destruct (N.ltb_spec (bufread p) 48) as [B|B].
  - (* more of the header *)
    destruct X as [(St & i & r & e & -> & Ec & Eraw & Pe & _)|(St & Ec & Lr & S1 & _)].
    { exfalso. assert (In i its) as Ii by (rewrite E; apply in_or_app; right; now left).
      rewrite Forall_forall in F. destruct (F i Ii) as (_ & F2 & _).
      rewrite Bl, Ec, len_app in B. lia. }
    assert (consumer_ok (set_step p 1) (concat (map it_out dn))) as C'.
    { eapply consumer_same; [exact C|try reflexivity..]; auto. }
    assert (bufread (set_step p 1) + (48 - bufread p) < 4294967296) as N1.
    { change (bufread (set_step p 1)) with (bufread p). lia. }
    assert (pi_same (set_step p 1) = false -> len (pi_p (set_step p 1)) + (48 - bufread p) < 4294967296) as N2.
    { cbn [pi_same pi_p set_step]. intro S. specialize (Lp S). lia. }
    destruct (read_devbuf_ok (set_step p 1) (48 - bufread p) _ C' L1 M ltac:(lia) N1 N2) as
      (q & Eq & Cq & Rq & Sq & Dq & Lq & Mq & Bq & Iq & Oq & F1 & F2 & F3).
    rewrite Eq. exists q. split; [reflexivity|]. cbn [set_step pi_step pi_p pi_offhdr pi_in pi_req pi_swap_in pi_swap_out] in *.
    split; [|repeat split; assumption].
    exists dn, rest, raw. split; [|exact Cq]. unfold producer_ok. rewrite Iq.
    split; [exact E|]. split; [exact I|]. split; [lia|]. split; [exact Bq|].
    split; [unfold reading_ok; rewrite Rq; lia|]. right. unfold in_header. rewrite Sq, Dq, Rq.
    split; [discriminate|]. split; [exact Ec|]. split; [exact Lr|]. split; [auto|].
    rewrite Bl, Ec in *. split; [reflexivity|lia].
  - (* a header *)
    destruct (current_item its p dn rest raw Pr) as (i & r & e & Erest & Eraw & Pe & Cur); auto.
    { eapply Forall_impl; [|exact F]. intros x (A1 & A2 & _). auto. }
    assert (In i its) as Ii by (rewrite E, Erest; apply in_or_app; right; now left).
    pose proof F as F'. rewrite Forall_forall in F'. destruct (F' i Ii) as (Fa & Fm & Fb & Fi & Fs). clear F'.
    assert (header_of p = it_a i /\ pi_step p = 1 \/ header_of p = it_m i /\ pi_step p = 2) as Hh.
    { unfold header_of. destruct Cur as [(S1 & _ & D)|(S2 & D)]; rewrite D, takeN_exact by assumption; auto. }
    destruct (H i Ii eq_refl B ltac:(tauto)) as (c' & G).
    assert (dropN (pi_offhdr p + 48) (pi_p p) = e) as De.
    { rewrite <- dropN_dropN. destruct Cur as [(_ & _ & D)|(_ & D)]; rewrite D, dropN_exact by assumption; auto. }
    assert (bufread p = 48 + len e) as Bf.
    { rewrite Bl. destruct Cur as [(_ & _ & D)|(_ & D)]; rewrite D, len_app; lia. }
    assert ((if (pi_step p =? 1) && pi_swap_in p
      then swap_header true (takeN 48 (dropN (pi_offhdr p) (pi_p p)))
      else takeN 48 (dropN (pi_offhdr p) (pi_p p))) = seen_header p) as Es by reflexivity.
    rewrite Es, G, De. clear Es. rewrite Fi, N.add_0_r. cbn [fst].
    assert ((if pi_step p =? 1 then 2 else pi_step p) = 2) as S2.
    { destruct Hh as [[_ ->]|[_ ->]]; reflexivity. }
    rewrite S2. clear S2.
    assert (len (it_d i) + 48 <= mx) as Ld.
    { rewrite Forall_forall in Sm. specialize (Sm i Ii). unfold it_in in Sm. rewrite len_app in Sm. lia. }
    assert (u32mod (len (it_d i)) = len (it_d i)) as U1 by (unfold u32mod; apply N.mod_small; lia).
    rewrite U1. pose proof (prefix_len _ _ Pe) as Lpe.
    assert (pi_offhdr p + 48 + len e = len (pi_p p)) as Lall by (unfold bufread in Bf; lia).
    assert (forall h x, takeN (pi_offhdr p) (takeN (pi_offhdr p) (pi_p p) ++ h ++ x) =
      takeN (pi_offhdr p) (pi_p p)) as Tk.
    { intros. rewrite takeN_exact; [reflexivity|]. rewrite takeN_len. lia. }
    assert (forall h x, dropN (pi_offhdr p) (takeN (pi_offhdr p) (pi_p p) ++ h ++ x) = h ++ x) as Dk.
    { intros. rewrite dropN_exact; [reflexivity|]. rewrite takeN_len. lia. }
    assert (forall h x, len (takeN (pi_offhdr p) (pi_p p) ++ h ++ x) = pi_offhdr p + len h + len x) as Lk.
    { intros. rewrite !len_app, takeN_len. lia. }
    assert (forall st h x, consumer_ok (set_header p st h x) (concat (map it_out dn))) as Ch.
    { intros. eapply consumer_same; [exact C|try reflexivity..]; cbn [pi_p set_header].
      - rewrite Lk. lia.
      - apply Tk. }
    destruct (N.ltb_spec (bufread p) (len (it_d i) + 48)) as [B2|B2].
    + (* more data *)
      assert (u32mod (u32mod (len (it_d i) + 48) + (4294967296 - bufread p)) = len (it_d i) - len e) as U2.
      { unfold u32mod. rewrite (N.mod_small (len (it_d i) + 48)) by lia.
        replace (len (it_d i) + 48 + (4294967296 - bufread p)) with (len (it_d i) - len e + 1 * 4294967296) by lia.
        rewrite N.mod_add by discriminate. apply N.mod_small. lia. }
      rewrite U2.
      set (p1 := set_header p 2 (it_m i) e).
      assert (len (pi_p p1) = len (pi_p p)) as N0 by (unfold p1; cbn [pi_p set_header]; rewrite Lk, Fm; lia).
      assert (bufread p1 + (len (it_d i) - len e) < 4294967296) as N1.
      { unfold bufread. rewrite N0. unfold p1. cbn [pi_offhdr set_header]. unfold bufread in *. lia. }
      assert (pi_same p1 = false -> len (pi_p p1) + (len (it_d i) - len e) < 4294967296) as N2.
      { rewrite N0. intro S. specialize (Lp S). lia. }
      destruct (read_devbuf_ok p1 (len (it_d i) - len e) _ (Ch _ _ _) ltac:(rewrite N0; exact L1) M ltac:(lia) N1 N2) as
        (q & Eq & Cq & Rq & Sq & Dq & Lq & Mq & Bq & Iq & Oq & F1 & F2 & F3).
      unfold p1 in *.
      rewrite Eq. exists q. split; [reflexivity|].
      cbn [set_header pi_step pi_p pi_offhdr pi_in pi_req pi_swap_in pi_swap_out] in *.
      rewrite Dk in Dq. rewrite Lk, Fm in Lq.
      split; [|repeat split; assumption].
      exists dn, rest, raw. split; [|exact Cq]. unfold producer_ok. rewrite Iq.
      split; [exact E|]. split; [exact I|]. split; [lia|]. split; [exact Bq|].
      split; [unfold reading_ok; rewrite Rq; lia|]. left. unfold in_data. rewrite Sq, Dq, Rq.
      split; [reflexivity|]. exists i, r, e. repeat split; auto. lia.
    + (* complete *)
      cbn [N.ltb N.compare andb]. change (0 <? 0) with false. cbn [andb].
      assert (e = it_d i) as -> by (apply prefix_eq; [exact Pe|lia]).
      rewrite Fs.
      set (q := pdu_done (set_header p 2 (it_b i) (it_d i)) (48 + len (it_d i))).
      exists (write_devbuf q). split; [reflexivity|].
      assert (pipe_ok its q) as Q.
      { exists (dn ++ [i]), r, []. split.
        - unfold producer_ok, q, pdu_done, set_header, reading_ok, in_header, in_data.
          cbn [pi_step pi_p pi_offhdr pi_in pi_req pi_swap_in pi_swap_out pi_maxp pi_reading].
          rewrite Er, Lk, Fb. split; [rewrite E, Erest, <- app_assoc; reflexivity|].
          split; [rewrite I, Eraw, map_app, concat_app; cbn [map concat];
                  now rewrite !app_nil_r|].
          split; [lia|]. split; [exact M|]. split; [exact Logic.I|]. right.
          split; [discriminate|]. split.
          + apply dropN_all. rewrite Lk, Fb. lia.
          + split; [discriminate|]. split; [congruence|exact Logic.I].
        - replace (concat (map it_out (dn ++ [i]))) with
            (concat (map it_out dn) ++ takeN (48 + len (it_d i))
               (dropN (pi_offhdr (set_header p 2 (it_b i) (it_d i))) (pi_p (set_header p 2 (it_b i) (it_d i))))).
          + apply consumer_done; [apply Ch|]. cbn [set_header pi_p pi_offhdr]. rewrite Lk, Fb. lia.
          + cbn [set_header pi_p pi_offhdr]. rewrite Dk. rewrite map_app, concat_app. cbn [map concat].
            rewrite app_nil_r. unfold it_out. f_equal. apply takeN_all. rewrite len_app, Fb. lia. }
      destruct (write_ok its q Q) as (W1 & W2). split; [exact W1|exact W2].
Qed.

Lemma read_done_ok its p data q : pipe_ok its p -> read_done p data = Some q ->
  prefix (pi_in q) (concat (map it_in its)) -> Forall (fun i => len (it_a i) = 48 /\ len (it_m i) = 48) its ->
  pipe_ok its q.
Proof.
  intros (dn & rest & raw & (E & I & L1 & M & R & X) & C) D P F. unfold read_done in D.
  unfold reading_ok in R. destruct (pi_reading p) as [n|] eqn:Er; [|discriminate].
  destruct ((len data =? 0) || (n <? len data)) eqn:Z; [discriminate|]. injection D as <-.
  apply orb_false_iff in Z. destruct Z as [Z1 Z2]. apply N.eqb_neq in Z1. apply N.ltb_ge in Z2.
  cbn [pi_in] in P. pose proof C as (_ & C2 & _).
  exists dn, rest, (raw ++ data). split.
  2: { eapply consumer_same; [exact C|try reflexivity..]; cbn [pi_p].
       - rewrite len_app. lia.
       - now rewrite take_app_le. }
  unfold producer_ok, reading_ok, in_data, in_header.
  cbn [pi_step pi_p pi_offhdr pi_in pi_maxp pi_reading]. rewrite I, <- app_assoc.
  rewrite (drop_app_le (pi_p p)) by assumption.
  split; [exact E|]. split; [reflexivity|]. split; [rewrite len_app; lia|].
  split; [exact M|]. split; [exact Logic.I|].
  unfold in_data, in_header in X. rewrite Er in X.
  destruct X as [(St & i & r & e & Erest & Ec & Eraw & Pe & Ln)|(St & Ec & Lr & S1 & S2 & Ln)].
  - left. split; [exact St|]. exists i, r, (e ++ data). rewrite Ec, Eraw, <- !app_assoc.
    split; [exact Erest|]. split; [reflexivity|]. split; [reflexivity|]. split; [|exact Logic.I].
    rewrite I, E, Eraw, Erest, map_app, concat_app in P. destruct P as (t & P).
    rewrite <- !app_assoc in P. apply app_inv_head in P. cbn [map concat] in P.
    unfold it_in in P at 1. rewrite <- !app_assoc in P. apply app_inv_head in P.
    exists (takeN (len (it_d i) - len (e ++ data)) t).
    rewrite <- (takeN_exact (it_d i) (concat (map it_in r)) (len (it_d i)) eq_refl) at 1. rewrite P.
    rewrite (app_assoc e), takeN_app. f_equal. rewrite takeN_all; [reflexivity|]. rewrite len_app. lia.
  - right. split; [exact St|]. rewrite Ec. split; [reflexivity|]. split; [rewrite len_app; lia|].
    split; auto.
Qed.

Lemma write_done_ok its p n q : pipe_ok its p -> write_done p n = Some q ->
  pipe_ok its q /\ same_ends q p.
Proof.
  intros (dn & rest & raw & Pr & C) W. split.
  - exists dn, rest, raw. split; [|now apply (consumer_written p _ n)].
    unfold write_done in W. destruct (pi_writing p); [|discriminate].
    destruct (_ || _); [discriminate|]. injection W as <-. exact Pr.
  - unfold write_done in W. destruct (pi_writing p); [|discriminate].
    destruct (_ || _); [discriminate|]. injection W as <-. repeat split.
Qed.
