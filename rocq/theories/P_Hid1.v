(* Proofs about CTAPHID framing: C01, C02. *)
From Verif Require Import Base M_Util M_Hid S_Hid.

Lemma firstn_zeros_map : forall n m (l : bytes), (n <= m)%nat ->
  firstn n (l ++ zeros m) = map (fun j => nth j l 0) (seq 0 n).
Proof.
  induction n as [|n IH]; intros m l H; [reflexivity|].
  cbn [seq map]. rewrite <- seq_shift, map_map.
  destruct l as [|x l].
  - destruct m as [|m]; [lia|]. cbn [zeros repeat app firstn nth].
    f_equal. specialize (IH m [] ltac:(lia)). cbn [app] in IH.
    unfold zeros in IH. rewrite IH. apply map_ext. intro j. now destruct j.
  - cbn [app firstn nth]. f_equal. apply IH. lia.
Qed.

Lemma pad_map src n : pad src n = map (fun j => nth j src 0) (seq 0 n).
Proof. apply firstn_zeros_map. lia. Qed.

Lemma pad_length src n : length (pad src n) = n.
Proof. rewrite pad_map, map_length, seq_length. reflexivity. Qed.

Lemma nth_takeN j n (l : bytes) : N.of_nat j < n -> nth j (takeN n l) 0 = nth j l 0.
Proof.
  intro H. unfold takeN.
  rewrite <- (firstn_skipn (N.to_nat n) l) at 2.
  destruct (Nat.lt_ge_cases j (length (firstn (N.to_nat n) l))) as [L|L].
  - now rewrite app_nth1.
  - rewrite (nth_overflow (firstn _ _)) by lia.
    rewrite firstn_length in L.
    symmetry. apply nth_overflow. rewrite firstn_skipn. lia.
Qed.

Lemma nth_dropN j n (l : bytes) : nth j (dropN n l) 0 = nth (N.to_nat n + j) l 0.
Proof.
  unfold dropN. generalize (N.to_nat n) as k; intro k.
  revert l; induction k as [|k IH]; intro l; [reflexivity|].
  destruct l as [|x l]; simpl; [now destruct j | apply IH].
Qed.

Lemma le4 v : le 4 v = [v mod 256; v / 256 mod 256; v / 65536 mod 256; v / 16777216 mod 256].
Proof.
  cbn [le]. rewrite !N.div_div by lia. reflexivity.
Qed.

Lemma be2 v : be 2 v = [v / 256 mod 256; v mod 256].
Proof. reflexivity. Qed.

Lemma spec_packet_0 ch cmd p k :
  cmd < 256 -> N.min 57 (len p) = k ->
  pad ((le 4 ch ++ le 1 cmd ++ be 2 (len p)) ++ takeN k p) 64 = spec_packet ch cmd p 0.
Proof.
  intros Hc Hk. rewrite pad_map. apply map_ext_in. intros j Hj.
  apply in_seq in Hj. rewrite le4, be2.
  cbn [le app].
  replace (cmd mod 256) with cmd by lia.
  do 7 (destruct j as [|j]; [reflexivity|]).
  cbn [nth spec_byte Nat.sub]. rewrite ?Nat.sub_0_r.
  destruct (N.lt_ge_cases (N.of_nat j) k).
  - rewrite nth_takeN by auto. reflexivity.
  - rewrite !nth_overflow; auto.
    + rewrite length_len; lia.
    + rewrite length_len, takeN_len; lia.
Qed.

Lemma spec_packet_S ch cmd p i k :
  N.min 59 (len p - (57 + 59 * N.of_nat i)) = k ->
  pad ((le 4 ch ++ [N.of_nat i mod 256]) ++ takeN k (dropN (57 + 59 * N.of_nat i) p)) 64
  = spec_packet ch cmd p (S i).
Proof.
  intros Hk. rewrite pad_map. apply map_ext_in. intros j Hj.
  apply in_seq in Hj. rewrite le4.
  cbn [app].
  do 5 (destruct j as [|j]; [reflexivity|]).
  cbn [nth].
  replace (spec_byte ch cmd p (S i) (S (S (S (S (S j))))))
    with (nth (57 + 59 * i + j) p 0)
    by (cbn [spec_byte]; f_equal; lia).
  replace (57 + 59 * i + j)%nat with (N.to_nat (57 + 59 * N.of_nat i) + j)%nat by lia.
  rewrite <- nth_dropN.
  destruct (N.lt_ge_cases (N.of_nat j) k).
  - rewrite nth_takeN by auto. reflexivity.
  - rewrite !nth_overflow; auto.
    + rewrite length_len, dropN_len; lia.
    + rewrite length_len, takeN_len; lia.
Qed.

(* The loop after the first packet. *)
Lemma response_loop_cont : forall fuel ch cmd p i,
  (length (dropN (57 + 59 * N.of_nat i) p) <= fuel)%nat ->
  response_loop fuel ch cmd (Z.of_nat i) (dropN (57 + 59 * N.of_nat i) p)
  = map (spec_packet ch cmd p)
      (seq (S i) (N.to_nat ((len p - (57 + 59 * N.of_nat i) + 58) / 59))).
Proof.
  induction fuel as [|fuel IH]; intros ch cmd p i Hf;
    set (q := dropN (57 + 59 * N.of_nat i) p) in *.
  - destruct q eqn:E; [|simpl in Hf; lia].
    assert (len q = 0) as L by (rewrite E; reflexivity).
    unfold q in L. rewrite dropN_len in L.
    replace ((len p - (57 + 59 * N.of_nat i) + 58) / 59) with 0 by lia.
    reflexivity.
  - assert (len q = len p - (57 + 59 * N.of_nat i)) as L by apply dropN_len.
    destruct q as [|x q'] eqn:E.
    + rewrite len_nil in L. rewrite <- L.
      replace ((0 + 58) / 59) with 0 by reflexivity. reflexivity.
    + rewrite <- E in *. assert (0 < len q) by (rewrite E, len_cons; lia).
      cbn [response_loop]. rewrite E at 1.
      replace (Z.of_nat i <? 0)%Z with false by lia.
      replace (Z.to_N (Z.of_nat i mod 256)) with (N.of_nat i mod 256) by lia.
      cbv zeta.
      assert (N.min (hid_max_packet - len (le 4 ch ++ [N.of_nat i mod 256])) (len q)
              = N.min 59 (len q)) as ->.
      { rewrite len_app, le_len. unfold hid_max_packet.
        replace (len [N.of_nat i mod 256]) with 1 by reflexivity. lia. }
      set (k := N.min 59 (len q)).
      replace (N.to_nat ((len p - (57 + 59 * N.of_nat i) + 58) / 59))
        with (S (N.to_nat ((len p - (57 + 59 * N.of_nat (S i)) + 58) / 59))) by lia.
      cbn [seq map]. f_equal.
      * unfold q. apply spec_packet_S. unfold k. lia.
      * replace (Z.of_nat i + 1)%Z with (Z.of_nat (S i)) by lia.
        assert (dropN k q = dropN (57 + 59 * N.of_nat (S i)) p) as R.
        { unfold q. rewrite dropN_dropN.
          destruct (N.le_gt_cases 59 (len q)).
          - f_equal. unfold k. lia.
          - rewrite !dropN_all; auto; unfold k; lia. }
        rewrite R. apply IH. rewrite <- R.
        rewrite length_len, dropN_len. rewrite length_len in Hf. unfold k. lia.
Qed.

Lemma create_response_packets_spec ch cmd p :
  cmd < 256 -> create_response_packets ch cmd p = spec_packets ch cmd p.
Proof.
  intro Hc. unfold create_response_packets, spec_packets, spec_count.
  destruct p as [|x p'] eqn:E; [reflexivity|]. rewrite <- E.
  assert (0 < len p) by (rewrite E, len_cons; lia).
  replace (len p =? 0) with false by lia.
  assert (length p = S (length p')) as -> by (rewrite E; reflexivity).
  cbn [response_loop]. rewrite E at 1.
  change ((-1 <? 0)%Z) with true. cbv iota zeta.
  assert (N.min (hid_max_packet - len (le 4 ch ++ le 1 cmd ++ be 2 (len p))) (len p)
          = N.min 57 (len p)) as ->.
  { rewrite !len_app, !le_len, be_len. unfold hid_max_packet. lia. }
  replace (N.to_nat (1 + (len p - 57 + 58) / 59))
    with (S (N.to_nat ((len p - 57 + 58) / 59))) by lia.
  cbn [seq map]. f_equal.
  - apply spec_packet_0; auto.
  - assert (dropN (N.min 57 (len p)) p = dropN (57 + 59 * N.of_nat 0) p) as R.
    { destruct (N.le_gt_cases 57 (len p)).
      - f_equal. lia.
      - rewrite !dropN_all; auto; lia. }
    rewrite R.
    replace (-1 + 1)%Z with (Z.of_nat 0) by lia.
    rewrite response_loop_cont.
    + do 3 f_equal. 
    + rewrite length_len, dropN_len, E, len_cons.
      rewrite (length_len p'). lia.
Qed.

Lemma spec_packet_length ch cmd p i : length (spec_packet ch cmd p i) = 64%nat.
Proof. unfold spec_packet. now rewrite map_length, seq_length. Qed.

(* ------------------------------------------------------------------ *)
(* C02: the host's view                                                *)

Lemma spec_packet_chan ch cmd p i : takeN 4 (spec_packet ch cmd p i) = le 4 ch.
Proof. rewrite le4. reflexivity. Qed.

Lemma spec_packet_nth ch cmd p i j :
  (j < 64)%nat -> nth j (spec_packet ch cmd p i) 0 = spec_byte ch cmd p i j.
Proof.
  intro H. unfold spec_packet.
  rewrite (nth_indep _ 0 (spec_byte ch cmd p i 0)) by (rewrite map_length, seq_length; lia).
  rewrite map_nth, seq_nth by lia. reflexivity.
Qed.

Lemma spec_packet_len ch cmd p i : len (spec_packet ch cmd p i) = 64.
Proof. unfold len. now rewrite spec_packet_length. Qed.

(* data bytes of the packets *)
Lemma map_nth_seq_firstn (l : bytes) d n :
  map (fun j => nth (d + j) l 0) (seq 0 n)
  = firstn n (skipn d l) ++ zeros (n - (length l - d)).
Proof.
  transitivity (firstn n (skipn d l ++ zeros n)).
  - rewrite firstn_zeros_map by lia. apply map_ext. intro j.
    change (skipn d l) with (skipn d l).
    replace d with (N.to_nat (N.of_nat d)) by lia.
    symmetry. apply nth_dropN.
  - rewrite firstn_app, skipn_length. f_equal.
    unfold zeros.
    remember (n - (length l - d))%nat as k.
    assert (k <= n)%nat as H by lia. clear Heqk. revert n H.
    induction k; intros [|n] H; simpl; auto; try lia. f_equal. apply IHk. lia.
Qed.

Lemma dropN_map {A B} (f : A -> B) n l : dropN n (map f l) = map f (dropN n l).
Proof. unfold dropN. now rewrite skipn_map. Qed.

Lemma spec_packet_data_0 ch cmd p :
  dropN 7 (spec_packet ch cmd p 0) = takeN 57 p ++ zeros (57 - length p).
Proof.
  unfold spec_packet. rewrite dropN_map.
  change (dropN 7 (seq 0 64)) with (seq 7 57).
  transitivity (map (fun j => nth (0 + j) p 0) (seq 0 57)).
  - change (seq 7 57) with (seq (7 + 0) 57). 

    assert (forall n s, seq (7 + s) n = map (fun j => (7 + j)%nat) (seq s n)) as S.
    { induction n; intro s; cbn [seq map]; auto. f_equal. 
      replace (S (7 + s)) with (7 + S s)%nat by lia. apply IHn. }
    rewrite S, map_map. apply map_ext. intro j. cbn [Nat.add spec_byte Nat.sub].
    now rewrite Nat.sub_0_r.
  - rewrite map_nth_seq_firstn. rewrite Nat.sub_0_r. reflexivity.
Qed.

Lemma spec_packet_data_S ch cmd p i :
  dropN 5 (spec_packet ch cmd p (S i))
  = takeN 59 (dropN (57 + 59 * N.of_nat i) p) ++ zeros (59 - (length p - (57 + 59 * i))).
Proof.
  unfold spec_packet. rewrite dropN_map.
  change (dropN 5 (seq 0 64)) with (seq 5 59).
  transitivity (map (fun j => nth ((57 + 59 * i) + j) p 0) (seq 0 59)).
  - assert (forall n s, seq (5 + s) n = map (fun j => (5 + j)%nat) (seq s n)) as S.
    { induction n; intro s; cbn [seq map]; auto. f_equal. 
      replace (S (5 + s)) with (5 + S s)%nat by lia. apply IHn. }
    change (seq 5 59) with (seq (5 + 0) 59). 
    rewrite S, map_map. apply map_ext. intro j. cbn [Nat.add spec_byte].
    f_equal. lia.
  - rewrite map_nth_seq_firstn.
    unfold takeN, dropN. do 3 f_equal. lia.
Qed.

Lemma host_continue_ok ch cmd p : len p <= 65535 -> ch < 4294967296 ->
  forall k i, (N.of_nat k = (len p - (57 + 59 * N.of_nat i) + 58) / 59) ->
  N.of_nat i + N.of_nat k <= 128 ->
  forall z, host_continue ch (len p) (N.of_nat i)
    (if len p <? 57 + 59 * N.of_nat i then p ++ z else takeN (57 + 59 * N.of_nat i) p)
    (map (spec_packet ch cmd p) (seq (S i) k)) = Some p.
Proof.
  intros Hp Hch. induction k as [|k IH]; intros i Hk Hi z.
  - assert (len p <= 57 + 59 * N.of_nat i) by lia.
    cbn [seq map]. unfold host_continue.
    destruct (N.ltb_spec (len p) (57 + 59 * N.of_nat i)).
    + replace (len p <=? len (p ++ z)) with true by (rewrite len_app; lia).
      now rewrite takeN_exact.
    + assert (57 + 59 * N.of_nat i = len p) as -> by lia.
      replace (len p <=? len (takeN (len p) p)) with true by (rewrite takeN_len; lia).
      now rewrite takeN_takeN, N.min_id, takeN_all by lia.
  - assert (57 + 59 * N.of_nat i < len p) by lia.
    replace (len p <? 57 + 59 * N.of_nat i) with false by lia.
    cbn [seq map]. cbn [host_continue].
    replace (len p <=? len (takeN (57 + 59 * N.of_nat i) p)) with false
      by (rewrite takeN_len; lia).
    rewrite spec_packet_len, spec_packet_chan, bytes_eqb_refl.
    rewrite spec_packet_nth by lia. cbn [spec_byte].
    replace (N.of_nat i mod 256) with (N.of_nat i) by lia.
    rewrite !N.eqb_refl.
    replace (N.of_nat i <? 128) with true by lia. cbn [andb].
    replace (N.of_nat i + 1) with (N.of_nat (S i)) by lia.
    rewrite spec_packet_data_S.
    specialize (IH (S i) ltac:(lia) ltac:(lia)
      (zeros (59 - (length p - (57 + 59 * i))))).
    rewrite <- IH. f_equal.
    set (d := 57 + 59 * N.of_nat i) in *.
    assert (57 + 59 * N.of_nat (S i) = d + 59) as -> by (unfold d; lia).
    rewrite app_assoc.
    assert (takeN d p ++ takeN 59 (dropN d p) = takeN (d + 59) p) as R.
    { rewrite <- (takeN_dropN d p) at 3. rewrite takeN_app, takeN_takeN.
      rewrite takeN_len. f_equal; f_equal; lia. }
    rewrite R.
    destruct (N.ltb_spec (len p) (d + 59)).
    + rewrite takeN_all by lia. reflexivity.
    + replace (59 - (length p - (57 + 59 * i)))%nat with 0%nat
        by (unfold d in *; rewrite length_len; lia).
      cbn [zeros repeat]. now rewrite app_nil_r.
Qed.

Lemma host_receive_ok ch cmd p :
  ch < 4294967296 -> 128 <= cmd < 256 -> 1 <= len p <= 7609 ->
  host_receive ch (spec_packets ch cmd p) = Some (cmd, p).
Proof.
  intros Hch Hc Hp. unfold spec_packets, spec_count.
  replace (len p =? 0) with false by lia.
  replace (N.to_nat (1 + (len p - 57 + 58) / 59))
    with (S (N.to_nat ((len p - 57 + 58) / 59))) by lia.
  cbn [seq map host_receive].
  rewrite spec_packet_len, spec_packet_chan, bytes_eqb_refl, !spec_packet_nth by lia.
  cbn [spec_byte]. rewrite N.eqb_refl.
  replace (128 <=? cmd) with true by lia. cbn [andb].
  replace (256 * (len p / 256 mod 256) + len p mod 256) with (len p) by lia.
  rewrite spec_packet_data_0.
  pose proof (host_continue_ok ch cmd p ltac:(lia) Hch
    (N.to_nat ((len p - 57 + 58) / 59)) 0 ltac:(lia) ltac:(lia)
    (zeros (57 - length p))) as H.
  change (57 + 59 * N.of_nat 0) with 57 in H.
  change (N.of_nat 0) with 0 in H.
  assert ((if len p <? 57 then p ++ zeros (57 - length p) else takeN 57 p)
          = takeN 57 p ++ zeros (57 - length p)) as R.
  { destruct (N.ltb_spec (len p) 57).
    - now rewrite takeN_all by lia.
    - replace (57 - length p)%nat with 0%nat by (rewrite length_len; lia).
      cbn [zeros repeat]. now rewrite app_nil_r. }
  rewrite <- R.
  match goal with |- match ?x with _ => _ end = _ => assert (x = Some p) as -> by exact H end.
  reflexivity.
Qed.

(* A packet whose sequence byte is not the expected one below 128 stops the host. *)
Lemma host_continue_too_many ch cmd p n :
  forall k i acc, N.of_nat i <= 128 -> 128 < N.of_nat i + N.of_nat k ->
  host_continue ch n (N.of_nat i) acc (map (spec_packet ch cmd p) (seq (S i) k)) = None.
Proof.
  induction k as [|k IH]; intros i acc Hi Hk; [lia|].
  cbn [seq map host_continue].
  destruct (n <=? len acc); [reflexivity|].
  rewrite spec_packet_nth by lia. cbn [spec_byte].
  destruct (N.eq_dec (N.of_nat i) 128) as [E|E].
  - rewrite E. change (128 <? 128) with false. rewrite andb_false_r. reflexivity.
  - match goal with |- (if ?c then _ else _) = _ => destruct c; [|reflexivity] end.
    replace (N.of_nat i + 1) with (N.of_nat (S i)) by lia.
    apply IH; lia.
Qed.

Lemma host_receive_too_long ch cmd p :
  7609 < len p -> host_receive ch (spec_packets ch cmd p) = None.
Proof.
  intros Hp. unfold spec_packets, spec_count.
  replace (len p =? 0) with false by lia.
  replace (N.to_nat (1 + (len p - 57 + 58) / 59))
    with (S (N.to_nat ((len p - 57 + 58) / 59))) by lia.
  cbn [seq map host_receive].
  match goal with |- (if ?c then _ else _) = _ => destruct c; [|reflexivity] end.
  change 0 with (N.of_nat 0) at 3.
  rewrite host_continue_too_many; auto; lia.
Qed.
