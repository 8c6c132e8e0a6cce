(* Proofs about CBOR: induction principle, parser round trip, fuel, sorting,
   canonical form. *)
From Coq Require Import Sorting.Sorted Permutation.
From Verif Require Import Base M_Utf8 M_Cbor S_Cbor.

(* ------------------------------------------------------------------ *)
(* Induction                                                           *)

Section CborInd.
  Variable P : cbor -> Prop.
  Hypothesis Huint : forall n, P (CUint n).
  Hypothesis Hnint : forall n, P (CNint n).
  Hypothesis Hbytes : forall b, P (CBytes b).
  Hypothesis Htext : forall b, P (CText b).
  Hypothesis Harr : forall l, Forall P l -> P (CArr l).
  Hypothesis Hmap : forall l, Forall (fun p => P (fst p) /\ P (snd p)) l -> P (CMap l).
  Hypothesis Htag : forall t v, P v -> P (CTag t v).
  Hypothesis Hsimple : forall n, P (CSimple n).
  Hypothesis Hfloat : forall r, P (CFloat r).

  Fixpoint cbor_ind' (v : cbor) : P v :=
    match v with
    | CUint n => Huint n
    | CNint n => Hnint n
    | CBytes b => Hbytes b
    | CText b => Htext b
    | CArr l => Harr l
        ((fix go (l : list cbor) : Forall P l :=
            match l with
            | [] => Forall_nil _
            | v :: r => Forall_cons _ (cbor_ind' v) (go r)
            end) l)
    | CMap l => Hmap l
        ((fix go (l : list (cbor * cbor)) : Forall (fun p => P (fst p) /\ P (snd p)) l :=
            match l with
            | [] => Forall_nil _
            | p :: r => Forall_cons _ (conj (cbor_ind' (fst p)) (cbor_ind' (snd p))) (go r)
            end) l)
    | CTag t v => Htag t v (cbor_ind' v)
    | CSimple n => Hsimple n
    | CFloat r => Hfloat r
    end.
End CborInd.

(* ------------------------------------------------------------------ *)
(* Heads                                                               *)

Lemma head_first mt n : mt < 8 -> exists b r, chead mt n = b :: r /\ b / 32 = mt /\ b mod 32 <> 31.
Proof.
  intro H. unfold chead.
  destruct (n <? 24) eqn:E; [exists (mt*32+n), []; split; [reflexivity|]; lia|].
  destruct (n <? 256); [exists (mt*32+24), [n]; split; [reflexivity|]; lia|].
  destruct (n <? 65536); [eexists _, _; split; [reflexivity|]; lia|].
  destruct (n <? 4294967296); eexists _, _; (split; [reflexivity|]; lia).
Qed.

Lemma carg_get n k r :
  n < 256 ^ N.of_nat k ->
  (if len (be k n ++ r) <? N.of_nat k then PErr
   else POk (be_dec (firstn k (be k n ++ r))) (skipn k (be k n ++ r))) = POk n r.
Proof.
  intro H. rewrite len_app, be_len.
  destruct (N.ltb_spec (N.of_nat k + len r) (N.of_nat k)); [lia|].
  rewrite firstn_app, skipn_app, be_length, Nat.sub_diag. cbn [firstn skipn].
  rewrite (firstn_all2 (be k n)), (skipn_all2 (be k n)) by (rewrite be_length; lia).
  rewrite app_nil_r. cbn [app]. now rewrite be_dec_be_small.
Qed.

Lemma chead_parse mt n r :
  mt < 8 -> n < 256 ^ 8 ->
  exists b t, chead mt n ++ r = b :: t /\ b / 32 = mt /\ (b mod 32 =? 31) = false /\
    carg (b mod 32) t = POk n r /\ (n < 24 -> b mod 32 < 24) /\ (24 <= n -> n < 256 -> b mod 32 = 24).
Proof.
  intros Hm Hn. unfold chead.
  destruct (n <? 24) eqn:E1.
  { exists (mt * 32 + n), r. assert (M : (mt * 32 + n) mod 32 = n) by lia.
    assert (D : (mt * 32 + n) / 32 = mt) by lia.
    rewrite M, D. split; [reflexivity|]. split; [reflexivity|]. split; [lia|].
    split; [unfold carg; now rewrite E1|]. split; lia. }
  assert (G : forall k, k < 32 -> (mt * 32 + k) mod 32 = k) by (intros; lia).
  assert (D : forall k, k < 32 -> (mt * 32 + k) / 32 = mt) by (intros; lia).
  destruct (n <? 256) eqn:E2.
  { exists (mt * 32 + 24), (n :: r). rewrite G, D by lia. split; [reflexivity|].
    split; [reflexivity|]. split; [reflexivity|]. split; [|split; lia].
    assert (B : be 1 n = [n]).
    { unfold be. cbn [le rev app]. f_equal. lia. }
    change (n :: r) with ([n] ++ r). rewrite <- B. unfold carg.
    change (24 <? 24) with false. cbn iota. apply (carg_get n 1). simpl. lia. }
  destruct (n <? 65536) eqn:E3.
  { exists (mt * 32 + 25), (be 2 n ++ r). rewrite G, D by lia. split; [reflexivity|].
    split; [reflexivity|]. split; [reflexivity|]. split; [|split; lia].
    unfold carg. change (25 <? 24) with false. change (25 =? 24) with false. cbn iota.
    apply (carg_get n 2). simpl. lia. }
  destruct (n <? 4294967296) eqn:E4.
  { exists (mt * 32 + 26), (be 4 n ++ r). rewrite G, D by lia. split; [reflexivity|].
    split; [reflexivity|]. split; [reflexivity|]. split; [|split; lia].
    unfold carg. change (26 <? 24) with false. change (26 =? 24) with false.
    change (26 =? 25) with false. cbn iota.
    apply (carg_get n 4). simpl. lia. }
  exists (mt * 32 + 27), (be 8 n ++ r). rewrite G, D by lia. split; [reflexivity|].
  split; [reflexivity|]. split; [reflexivity|]. split; [|split; lia].
  unfold carg. change (27 <? 24) with false. change (27 =? 24) with false.
  change (27 =? 25) with false. change (27 =? 26) with false. cbn iota.
  apply (carg_get n 8). simpl. exact Hn.
Qed.

Lemma carg_len ai r n r' : carg ai r = POk n r' -> len r' <= len r.
Proof.
  unfold carg; cbv zeta.
  repeat match goal with
  | |- context [if ?c then _ else _] => destruct c eqn:?
  end; intro H; try discriminate;
  (match type of H with POk _ ?b = _ => assert (E : b = r') by congruence; rewrite <- E end);
  try lia; unfold len; rewrite skipn_length; lia.
Qed.

Lemma carg_fuel ai r : carg ai r <> PFuel.
Proof.
  unfold carg; cbv zeta.
  repeat match goal with
  | |- context [if ?c then _ else _] => destruct c eqn:?
  end; discriminate.
Qed.

(* ------------------------------------------------------------------ *)
(* Fuel is enough                                                      *)

Lemma parse_chunks_len f mt bs s r : parse_chunks f mt bs = POk s r -> len r < len bs.
Proof.
  revert bs s r. induction f as [|f IH]; intros bs s r; cbn [parse_chunks]; [discriminate|].
  destruct bs as [|b t]; [discriminate|].
  destruct (b =? 255); [intro H; injection H as <- <-; rewrite len_cons; lia|].
  destruct ((b / 32 =? mt) && negb (b mod 32 =? 31)); [|discriminate].
  destruct (carg (b mod 32) t) as [n r1| |] eqn:E; cbn [pbind]; try discriminate.
  apply carg_len in E.
  destruct (len r1 <? n) eqn:E2; [discriminate|].
  destruct (parse_chunks f mt (dropN n r1)) as [s2 r2| |] eqn:E3; cbn [pbind]; try discriminate.
  intro H; injection H as <- <-. apply IH in E3. rewrite dropN_len in E3. rewrite len_cons. lia.
Qed.

Lemma parse_chunks_fuel f mt bs : N.of_nat f > len bs -> parse_chunks f mt bs <> PFuel.
Proof.
  revert bs. induction f as [|f IH]; intros bs H; cbn [parse_chunks]; [lia|].
  destruct bs as [|b t]; [discriminate|]. rewrite len_cons in H.
  destruct (b =? 255); [discriminate|].
  destruct ((b / 32 =? mt) && negb (b mod 32 =? 31)); [|discriminate].
  pose proof (carg_fuel (b mod 32) t).
  destruct (carg (b mod 32) t) as [n r1| |] eqn:E; cbn [pbind]; try congruence.
  apply carg_len in E.
  destruct (len r1 <? n) eqn:E2; [discriminate|].
  specialize (IH (dropN n r1)). rewrite dropN_len in IH.
  destruct (parse_chunks f mt (dropN n r1)) as [s2 r2| |]; cbn [pbind]; try discriminate.
  apply IH; lia.
Qed.

Lemma parse_len_all f :
  (forall d bs v r, parse_item f d bs = POk v r -> len r < len bs) /\
  (forall d n bs v r, parse_items f d n bs = POk v r -> len r <= len bs) /\
  (forall d n bs v r, parse_pairs f d n bs = POk v r -> len r <= len bs) /\
  (forall d bs v r, parse_items_indef f d bs = POk v r -> len r < len bs) /\
  (forall d bs v r, parse_pairs_indef f d bs = POk v r -> len r < len bs).
Proof.
  induction f as [|f (IH1 & IH2 & IH3 & IH4 & IH5)].
  { repeat match goal with |- _ /\ _ => split end; intros; discriminate. }
  split; [|split; [|split; [|split]]].
  - intros d bs v r. cbn [parse_item]. destruct bs as [|b t]; [discriminate|].
    rewrite len_cons. cbv zeta.
    destruct (b mod 32 =? 31).
    + destruct (b / 32 =? 2).
      { destruct (parse_chunks f 2 t) eqn:E; cbn [pbind]; try discriminate.
        intro H; injection H as <- <-. apply parse_chunks_len in E. lia. }
      destruct (b / 32 =? 3).
      { destruct (parse_chunks f 3 t) eqn:E; cbn [pbind]; try discriminate.
        intro H; injection H as <- <-. apply parse_chunks_len in E. lia. }
      destruct (b / 32 =? 4).
      { destruct d; [discriminate|].
        destruct (parse_items_indef f d t) eqn:E; cbn [pbind]; try discriminate.
        intro H; injection H as <- <-. apply IH4 in E. lia. }
      destruct (b / 32 =? 5); [|discriminate].
      destruct d; [discriminate|].
      destruct (parse_pairs_indef f d t) eqn:E; cbn [pbind]; try discriminate.
      intro H; injection H as <- <-. apply IH5 in E. lia.
    + destruct (carg (b mod 32) t) as [n r1| |] eqn:E; cbn [pbind]; try discriminate.
      apply carg_len in E.
      destruct (b / 32 =? 0); [intro H; injection H as <- <-; lia|].
      destruct (b / 32 =? 1); [intro H; injection H as <- <-; lia|].
      destruct (b / 32 =? 2).
      { destruct (len r1 <? n); [discriminate|].
        intro H; injection H as <- <-. rewrite dropN_len. lia. }
      destruct (b / 32 =? 3).
      { destruct (len r1 <? n); [discriminate|].
        intro H; injection H as <- <-. rewrite dropN_len. lia. }
      destruct (b / 32 =? 4).
      { destruct d; [discriminate|]. destruct (max_elems <? n); [discriminate|].
        destruct (parse_items f d n r1) eqn:E2; cbn [pbind]; try discriminate.
        intro H; injection H as <- <-. apply IH2 in E2. lia. }
      destruct (b / 32 =? 5).
      { destruct d; [discriminate|]. destruct (max_elems <? n); [discriminate|].
        destruct (parse_pairs f d n r1) eqn:E2; cbn [pbind]; try discriminate.
        intro H; injection H as <- <-. apply IH3 in E2. lia. }
      destruct (b / 32 =? 6).
      { destruct (parse_item f d r1) eqn:E2; cbn [pbind]; try discriminate.
        intro H; injection H as <- <-. apply IH1 in E2. lia. }
      destruct (b mod 32 <? 24); [intro H; injection H as <- <-; lia|].
      destruct (b mod 32 =? 24).
      { destruct (n <? 32); [discriminate|]. intro H; injection H as <- <-; lia. }
      intro H; injection H as <- <-; lia.
  - intros d n bs v r. cbn [parse_items]. destruct (n =? 0); [intro H; injection H as <- <-; lia|].
    destruct (parse_item f d bs) as [a r1| |] eqn:E; cbn [pbind]; try discriminate.
    destruct (parse_items f d (n - 1) r1) as [l r2| |] eqn:E2; cbn [pbind]; try discriminate.
    intro H; injection H as <- <-. apply IH1 in E. apply IH2 in E2. lia.
  - intros d n bs v r. cbn [parse_pairs]. destruct (n =? 0); [intro H; injection H as <- <-; lia|].
    destruct (parse_item f d bs) as [a r1| |] eqn:E; cbn [pbind]; try discriminate.
    destruct (parse_item f d r1) as [a2 r12| |] eqn:E1; cbn [pbind]; try discriminate.
    destruct (parse_pairs f d (n - 1) r12) as [l r2| |] eqn:E2; cbn [pbind]; try discriminate.
    intro H; injection H as <- <-. apply IH1 in E. apply IH1 in E1. apply IH3 in E2. lia.
  - intros d bs v r. cbn [parse_items_indef]. destruct bs as [|b t]; [discriminate|].
    destruct (b =? 255); [intro H; injection H as <- <-; rewrite len_cons; lia|].
    destruct (parse_item f d (b :: t)) as [a r1| |] eqn:E; cbn [pbind]; try discriminate.
    destruct (parse_items_indef f d r1) as [l r2| |] eqn:E2; cbn [pbind]; try discriminate.
    intro H; injection H as <- <-. apply IH1 in E. apply IH4 in E2. lia.
  - intros d bs v r. cbn [parse_pairs_indef]. destruct bs as [|b t]; [discriminate|].
    destruct (b =? 255); [intro H; injection H as <- <-; rewrite len_cons; lia|].
    destruct (parse_item f d (b :: t)) as [a r1| |] eqn:E; cbn [pbind]; try discriminate.
    destruct (parse_item f d r1) as [a2 r12| |] eqn:E1; cbn [pbind]; try discriminate.
    destruct (parse_pairs_indef f d r12) as [l r2| |] eqn:E2; cbn [pbind]; try discriminate.
    intro H; injection H as <- <-. apply IH1 in E. apply IH1 in E1. apply IH5 in E2. lia.
Qed.

Lemma parse_item_len f d bs v r : parse_item f d bs = POk v r -> len r < len bs.
Proof. apply parse_len_all. Qed.

Lemma parse_fuel_all f :
  (forall d bs, N.of_nat f >= 2 * len bs + 1 -> parse_item f d bs <> PFuel) /\
  (forall d n bs, N.of_nat f >= 2 * len bs + 2 -> parse_items f d n bs <> PFuel) /\
  (forall d n bs, N.of_nat f >= 2 * len bs + 2 -> parse_pairs f d n bs <> PFuel) /\
  (forall d bs, N.of_nat f >= 2 * len bs + 2 -> parse_items_indef f d bs <> PFuel) /\
  (forall d bs, N.of_nat f >= 2 * len bs + 2 -> parse_pairs_indef f d bs <> PFuel).
Proof.
  induction f as [|f (IH1 & IH2 & IH3 & IH4 & IH5)].
  { repeat match goal with |- _ /\ _ => split end; intros; lia. }
  split; [|split; [|split; [|split]]].
  - intros d bs Hf. cbn [parse_item]. destruct bs as [|b t]; [discriminate|].
    rewrite len_cons in Hf. cbv zeta.
    destruct (b mod 32 =? 31).
    + destruct (b / 32 =? 2).
      { pose proof (parse_chunks_fuel f 2 t).
        destruct (parse_chunks f 2 t) eqn:E; cbn [pbind]; try discriminate. (exfalso; apply H; [lia|reflexivity]). }
      destruct (b / 32 =? 3).
      { pose proof (parse_chunks_fuel f 3 t).
        destruct (parse_chunks f 3 t) eqn:E; cbn [pbind]; try discriminate. (exfalso; apply H; [lia|reflexivity]). }
      destruct (b / 32 =? 4).
      { destruct d; [discriminate|]. specialize (IH4 d t).
        destruct (parse_items_indef f d t) eqn:E; cbn [pbind]; try discriminate. (exfalso; apply IH4; [lia|reflexivity]). }
      destruct (b / 32 =? 5); [|discriminate].
      destruct d; [discriminate|]. specialize (IH5 d t).
      destruct (parse_pairs_indef f d t) eqn:E; cbn [pbind]; try discriminate. (exfalso; apply IH5; [lia|reflexivity]).
    + pose proof (carg_fuel (b mod 32) t).
      destruct (carg (b mod 32) t) as [n r1| |] eqn:E; cbn [pbind]; try congruence.
      apply carg_len in E.
      destruct (b / 32 =? 0); [discriminate|].
      destruct (b / 32 =? 1); [discriminate|].
      destruct (b / 32 =? 2); [destruct (len r1 <? n); discriminate|].
      destruct (b / 32 =? 3); [destruct (len r1 <? n); discriminate|].
      destruct (b / 32 =? 4).
      { destruct d; [discriminate|]. destruct (max_elems <? n); [discriminate|].
        specialize (IH2 d n r1).
        destruct (parse_items f d n r1) eqn:E2; cbn [pbind]; try discriminate. (exfalso; apply IH2; [lia|reflexivity]). }
      destruct (b / 32 =? 5).
      { destruct d; [discriminate|]. destruct (max_elems <? n); [discriminate|].
        specialize (IH3 d n r1).
        destruct (parse_pairs f d n r1) eqn:E2; cbn [pbind]; try discriminate. (exfalso; apply IH3; [lia|reflexivity]). }
      destruct (b / 32 =? 6).
      { specialize (IH1 d r1).
        destruct (parse_item f d r1) eqn:E2; cbn [pbind]; try discriminate. (exfalso; apply IH1; [lia|reflexivity]). }
      destruct (b mod 32 <? 24); [discriminate|].
      destruct (b mod 32 =? 24); [destruct (n <? 32); discriminate|]. discriminate.
  - intros d n bs Hf. cbn [parse_items]. destruct (n =? 0); [discriminate|].
    specialize (IH1 d bs).
    destruct (parse_item f d bs) as [a r1| |] eqn:E; cbn [pbind]; [|discriminate|(exfalso; apply IH1; [lia|reflexivity])].
    apply parse_item_len in E. specialize (IH2 d (n - 1) r1).
    destruct (parse_items f d (n - 1) r1) as [l r2| |] eqn:E2; cbn [pbind]; try discriminate.
    (exfalso; apply IH2; [lia|reflexivity]).
  - intros d n bs Hf. cbn [parse_pairs]. destruct (n =? 0); [discriminate|].
    pose proof (IH1 d bs) as J1.
    destruct (parse_item f d bs) as [a r1| |] eqn:E; cbn [pbind]; [|discriminate|(exfalso; apply J1; [lia|reflexivity])].
    apply parse_item_len in E. pose proof (IH1 d r1) as J2.
    destruct (parse_item f d r1) as [a2 r12| |] eqn:E1; cbn [pbind]; [|discriminate|(exfalso; apply J2; [lia|reflexivity])].
    apply parse_item_len in E1. specialize (IH3 d (n - 1) r12).
    destruct (parse_pairs f d (n - 1) r12) as [l r2| |] eqn:E2; cbn [pbind]; try discriminate.
    (exfalso; apply IH3; [lia|reflexivity]).
  - intros d bs Hf. cbn [parse_items_indef]. destruct bs as [|b t]; [discriminate|].
    destruct (b =? 255); [discriminate|].
    specialize (IH1 d (b :: t)).
    destruct (parse_item f d (b :: t)) as [a r1| |] eqn:E; cbn [pbind]; [|discriminate|(exfalso; apply IH1; [lia|reflexivity])].
    apply parse_item_len in E. specialize (IH4 d r1).
    destruct (parse_items_indef f d r1) as [l r2| |] eqn:E2; cbn [pbind]; try discriminate.
    (exfalso; apply IH4; [lia|reflexivity]).
  - intros d bs Hf. cbn [parse_pairs_indef]. destruct bs as [|b t]; [discriminate|].
    destruct (b =? 255); [discriminate|].
    pose proof (IH1 d (b :: t)) as J1.
    destruct (parse_item f d (b :: t)) as [a r1| |] eqn:E; cbn [pbind]; [|discriminate|(exfalso; apply J1; [lia|reflexivity])].
    apply parse_item_len in E. pose proof (IH1 d r1) as J2.
    destruct (parse_item f d r1) as [a2 r12| |] eqn:E1; cbn [pbind]; [|discriminate|(exfalso; apply J2; [lia|reflexivity])].
    apply parse_item_len in E1. specialize (IH5 d r12).
    destruct (parse_pairs_indef f d r12) as [l r2| |] eqn:E2; cbn [pbind]; try discriminate.
    (exfalso; apply IH5; [lia|reflexivity]).
Qed.

(* The parser never runs out of fuel. *)
Lemma parse_top_fuel bs : parse_top bs <> PFuel.
Proof. apply parse_fuel_all. unfold parse_fuel, len. lia. Qed.

(* ------------------------------------------------------------------ *)
(* Parsing what was encoded                                            *)

(* Nesting depth. *)
Fixpoint cdepth (v : cbor) : nat :=
  match v with
  | CArr l => S (fold_right (fun v n => Nat.max (cdepth v) n) O l)
  | CMap l => S (fold_right (fun p n => Nat.max (cdepth (fst p)) (Nat.max (cdepth (snd p)) n)) O l)
  | CTag _ v => cdepth v
  | _ => O
  end.

(* Items within the ranges of the wire format and the decoder's limits. *)
Fixpoint cok (v : cbor) : Prop :=
  match v with
  | CUint n | CNint n => n < 256 ^ 8
  | CBytes b | CText b => len b < 256 ^ 8
  | CArr l => len l <= max_elems /\ fold_right (fun v P => cok v /\ P) True l
  | CMap l => len l <= max_elems /\ fold_right (fun p P => cok (fst p) /\ cok (snd p) /\ P) True l
  | CTag t v => t < 256 ^ 8 /\ cok v
  | CSimple n => n < 24 \/ (32 <= n /\ n < 256)
  | CFloat _ => False
  end.

Lemma max_elems_small n : n <= max_elems -> n < 256 ^ 8.
Proof. unfold max_elems. intro. change (256 ^ 8) with 18446744073709551616. lia. Qed.

Ltac parse_head mt n r :=
  let b := fresh "b" in let t := fresh "t" in
  destruct (chead_parse mt n r) as (b & t & ? & ? & ? & ? & ? & ?); [lia| |].

Lemma parse_items_ok l :
  Forall (fun v => forall f d rest, cok v -> (cdepth v <= d)%nat ->
     N.of_nat f >= 2 * len (cenc v ++ rest) + 1 -> parse_item f d (cenc v ++ rest) = POk v rest) l ->
  forall f d rest,
    fold_right (fun v P => cok v /\ P) True l ->
    (fold_right (fun v n => Nat.max (cdepth v) n) O l <= d)%nat ->
    N.of_nat f >= 2 * len (flat_map cenc l ++ rest) + 2 ->
    parse_items f d (len l) (flat_map cenc l ++ rest) = POk l rest.
Proof.
  intro H. induction H as [|v l Hv Hl IH]; intros f d rest Hc Hd Hf.
  - destruct f; [lia|]. reflexivity.
  - cbn [flat_map fold_right] in *. destruct Hc as [Hc1 Hc2].
    rewrite <- app_assoc in *. destruct f; [lia|]. cbn [parse_items]. rewrite len_cons.
    destruct (N.eqb_spec (1 + len l) 0); [lia|].
    rewrite Hv by (auto; lia). cbn [pbind].
    replace (1 + len l - 1) with (len l) by lia.
    rewrite IH; auto; try lia.
    rewrite len_app in Hf.
    assert (0 < len (cenc v)); [|lia].
    clear -Hc1. destruct v; cbn [cenc]; try (rewrite ?len_app;
      match goal with |- context [chead ?m ?n] => destruct (head_first m n) as (? & ? & -> & _); [lia|] end;
      rewrite len_cons; lia). rewrite len_cons; lia.
Qed.

Lemma cenc_pos v : 0 < len (cenc v).
Proof.
  destruct v; cbn [cenc]; try (rewrite ?len_app;
      match goal with |- context [chead ?m ?n] => destruct (head_first m n) as (? & ? & -> & _); [lia|] end;
      rewrite len_cons; lia). rewrite len_cons; lia.
Qed.

Lemma parse_pairs_ok l :
  Forall (fun p => (forall f d rest, cok (fst p) -> (cdepth (fst p) <= d)%nat ->
     N.of_nat f >= 2 * len (cenc (fst p) ++ rest) + 1 -> parse_item f d (cenc (fst p) ++ rest) = POk (fst p) rest) /\
     (forall f d rest, cok (snd p) -> (cdepth (snd p) <= d)%nat ->
     N.of_nat f >= 2 * len (cenc (snd p) ++ rest) + 1 -> parse_item f d (cenc (snd p) ++ rest) = POk (snd p) rest)) l ->
  forall f d rest,
    fold_right (fun p P => cok (fst p) /\ cok (snd p) /\ P) True l ->
    (fold_right (fun p n => Nat.max (cdepth (fst p)) (Nat.max (cdepth (snd p)) n)) O l <= d)%nat ->
    N.of_nat f >= 2 * len (flat_map (fun p => cenc (fst p) ++ cenc (snd p)) l ++ rest) + 2 ->
    parse_pairs f d (len l) (flat_map (fun p => cenc (fst p) ++ cenc (snd p)) l ++ rest) = POk l rest.
Proof.
  intro H. induction H as [|[k v] l [Hk Hv] Hl IH]; intros f d rest Hc Hd Hf.
  - destruct f; [lia|]. reflexivity.
  - cbn [flat_map fold_right fst snd] in *. destruct Hc as (Hc1 & Hc2 & Hc3).
    rewrite <- !app_assoc in *. destruct f; [lia|]. cbn [parse_pairs]. rewrite len_cons.
    destruct (N.eqb_spec (1 + len l) 0); [lia|].
    pose proof (cenc_pos k). pose proof (cenc_pos v).
    rewrite Hk by (auto; lia). cbn [pbind].
    rewrite (len_app (cenc k)) in Hf.
    rewrite Hv by (auto; lia). cbn [pbind].
    replace (1 + len l - 1) with (len l) by lia.
    rewrite (len_app (cenc v)) in Hf.
    rewrite IH; auto; lia.
Qed.

Lemma parse_item_ok v : forall f d rest,
  cok v -> (cdepth v <= d)%nat -> N.of_nat f >= 2 * len (cenc v ++ rest) + 1 ->
  parse_item f d (cenc v ++ rest) = POk v rest.
Proof.
  induction v using cbor_ind'; intros f d rest Hc Hd Hf; (destruct f as [|f]; [lia|]).
  - cbn [cenc cok] in *. destruct (chead_parse 0 n rest) as (b & t & E & D & M & A & _); [lia|auto|].
    rewrite E. cbn [parse_item]. cbv zeta. rewrite D, M, A. reflexivity.
  - cbn [cenc cok] in *. destruct (chead_parse 1 n rest) as (b & t & E & D & M & A & _); [lia|auto|].
    rewrite E. cbn [parse_item]. cbv zeta. rewrite D, M, A. reflexivity.
  - cbn [cenc cok] in *. rewrite <- app_assoc in *.
    destruct (chead_parse 2 (len b) (b ++ rest)) as (b0 & t & E & D & M & A & _); [lia|auto|].
    rewrite E. cbn [parse_item]. cbv zeta. rewrite D, M, A. cbn [pbind].
    change (2 =? 0) with false. change (2 =? 1) with false. change (2 =? 2) with true. cbn iota.
    rewrite len_app. destruct (N.ltb_spec (len b + len rest) (len b)); [lia|].
    now rewrite takeN_exact, dropN_exact.
  - cbn [cenc cok] in *. rewrite <- app_assoc in *.
    destruct (chead_parse 3 (len b) (b ++ rest)) as (b0 & t & E & D & M & A & _); [lia|auto|].
    rewrite E. cbn [parse_item]. cbv zeta. rewrite D, M, A. cbn [pbind].
    change (3 =? 0) with false. change (3 =? 1) with false. change (3 =? 2) with false.
    change (3 =? 3) with true. cbn iota.
    rewrite len_app. destruct (N.ltb_spec (len b + len rest) (len b)); [lia|].
    now rewrite takeN_exact, dropN_exact.
  - cbn [cenc cok cdepth] in *. rewrite <- app_assoc in *. destruct Hc as [Hc1 Hc2].
    destruct (chead_parse 4 (len l) (flat_map cenc l ++ rest)) as (b & t & E & D & M & A & _);
      [lia | now apply max_elems_small |].
    rewrite len_app in Hf. destruct (head_first 4 (len l)) as (? & ? & EH & _); [lia|].
    rewrite EH, len_cons in Hf.
    rewrite E. cbn [parse_item]. cbv zeta. rewrite D, M, A. cbn [pbind].
    change (4 =? 0) with false. change (4 =? 1) with false. change (4 =? 2) with false.
    change (4 =? 3) with false. change (4 =? 4) with true. cbn iota.
    destruct d as [|d]; [lia|].
    destruct (N.ltb_spec max_elems (len l)); [lia|].
    rewrite parse_items_ok; auto; try lia.
  - cbn [cenc cok cdepth] in *. rewrite <- app_assoc in *. destruct Hc as [Hc1 Hc2].
    destruct (chead_parse 5 (len l) (flat_map (fun p => cenc (fst p) ++ cenc (snd p)) l ++ rest))
      as (b & t & E & D & M & A & _); [lia | now apply max_elems_small |].
    rewrite len_app in Hf. destruct (head_first 5 (len l)) as (? & ? & EH & _); [lia|].
    rewrite EH, len_cons in Hf.
    rewrite E. cbn [parse_item]. cbv zeta. rewrite D, M, A. cbn [pbind].
    change (5 =? 0) with false. change (5 =? 1) with false. change (5 =? 2) with false.
    change (5 =? 3) with false. change (5 =? 4) with false. change (5 =? 5) with true. cbn iota.
    destruct d as [|d]; [lia|].
    destruct (N.ltb_spec max_elems (len l)); [lia|].
    rewrite parse_pairs_ok; auto; try lia.
  - cbn [cenc cok cdepth] in *. rewrite <- app_assoc in *. destruct Hc as [Hc1 Hc2].
    destruct (chead_parse 6 t (cenc v ++ rest)) as (b & t0 & E & D & M & A & _); [lia|auto|].
    rewrite len_app in Hf. destruct (head_first 6 t) as (? & ? & EH & _); [lia|].
    rewrite EH, len_cons in Hf.
    rewrite E. cbn [parse_item]. cbv zeta. rewrite D, M, A. cbn [pbind].
    change (6 =? 0) with false. change (6 =? 1) with false. change (6 =? 2) with false.
    change (6 =? 3) with false. change (6 =? 4) with false. change (6 =? 5) with false.
    change (6 =? 6) with true. cbn iota.
    rewrite IHv by (auto; lia). reflexivity.
  - cbn [cenc cok] in *.
    destruct (chead_parse 7 n rest) as (b & t & E & D & M & A & L1 & L2);
      [lia | change (256 ^ 8) with 18446744073709551616; lia |].
    rewrite E. cbn [parse_item]. cbv zeta. rewrite D, M, A. cbn [pbind].
    change (7 =? 0) with false. change (7 =? 1) with false. change (7 =? 2) with false.
    change (7 =? 3) with false. change (7 =? 4) with false. change (7 =? 5) with false.
    change (7 =? 6) with false. cbn iota.
    destruct Hc as [Hc|Hc].
    + specialize (L1 Hc). destruct (N.ltb_spec (b mod 32) 24); [reflexivity|lia].
    + rewrite L2 by lia. change (24 <? 24) with false. change (24 =? 24) with true. cbn iota.
      destruct (N.ltb_spec n 32); [lia|reflexivity].
  - cbn [cok] in Hc. contradiction.
Qed.

(* Unmarshal of the encoding of [v], with anything after it, parses to [v]. *)
Lemma parse_top_ok v rest :
  cok v -> (cdepth v <= max_nested)%nat -> parse_top (cenc v ++ rest) = POk v rest.
Proof.
  intros Hc Hd. apply parse_item_ok; auto. unfold parse_fuel, len. lia.
Qed.

Lemma unmarshal_cenc {A} (f : cbor -> option A) v rest :
  cok v -> (cdepth v <= max_nested)%nat -> unmarshal f (cenc v ++ rest) = f v.
Proof. intros. unfold unmarshal. now rewrite parse_top_ok. Qed.

Lemma unmarshal_cenc' {A} (f : cbor -> option A) v :
  cok v -> (cdepth v <= max_nested)%nat -> unmarshal f (cenc v) = f v.
Proof. intros. rewrite <- (app_nil_r (cenc v)). now apply unmarshal_cenc. Qed.
