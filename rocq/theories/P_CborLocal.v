(* The decoder reads a prefix of its input and nothing else: what it finds there does not
   depend on what follows. *)
From Verif Require Import Base M_Utf8 M_Cbor P_Cbor.

(* [g] found [v] in a prefix of [bs], and finds it there whatever follows, with any fuel
   that is enough. *)
Definition loc {A} (g : nat -> bytes -> pres A) (bs : bytes) (v : A) (r : bytes) : Prop :=
  exists p, bs = p ++ r /\ forall e f, g f (p ++ e) = POk v e \/ g f (p ++ e) = PFuel.

Lemma carg_loc ai r n r' : carg ai r = POk n r' ->
  exists p, r = p ++ r' /\ forall e, carg ai (p ++ e) = POk n e.
Proof.
  unfold carg; cbv zeta.
  assert (forall k, (if len r <? N.of_nat k then PErr else POk (be_dec (firstn k r)) (skipn k r)) = POk n r' ->
    exists p, r = p ++ r' /\ forall e,
      (if len (p ++ e) <? N.of_nat k then PErr else POk (be_dec (firstn k (p ++ e))) (skipn k (p ++ e))) = POk n e) as G.
  { intros k H. destruct (N.ltb_spec (len r) (N.of_nat k)) as [L|L]; [discriminate H|].
    assert (be_dec (firstn k r) = n) as <- by congruence. assert (skipn k r = r') as <- by congruence.
    exists (firstn k r). split; [symmetry; apply firstn_skipn|]. intro e.
    assert (length (firstn k r) = k) as K by (rewrite firstn_length; unfold len in L; lia).
    destruct (N.ltb_spec (len (firstn k r ++ e)) (N.of_nat k)) as [M|M];
      [unfold len in M; rewrite app_length in M; lia|].
    rewrite firstn_app, skipn_app, K, Nat.sub_diag. cbn [firstn skipn].
    rewrite firstn_firstn, Nat.min_id, app_nil_r.
    rewrite (skipn_all2 (firstn k r)) by lia. reflexivity. }
  destruct (ai <? 24).
  { intro H. assert (ai = n) as <- by congruence. assert (r = r') as <- by congruence. exists []. split; reflexivity. }
  destruct (ai =? 24); [apply G|]. destruct (ai =? 25); [apply G|]. destruct (ai =? 26); [apply G|].
  destruct (ai =? 27); [apply G|]. discriminate.
Qed.

Lemma len_of_app (p e : bytes) n : len p = n -> (len (p ++ e) <? n) = false.
Proof. intro H. rewrite len_app. destruct (N.ltb_spec (len p + len e) n); [lia|reflexivity]. Qed.

Lemma chunks_loc f mt bs s r : parse_chunks f mt bs = POk s r -> loc (fun f => parse_chunks f mt) bs s r.
Proof.
  revert bs s r. induction f as [|f IH]; intros bs s r; cbn [parse_chunks]; [discriminate|].
  destruct bs as [|b t]; [discriminate|].
  destruct (b =? 255) eqn:Eb.
  { intro H; injection H as <- <-. exists [b]. split; [reflexivity|]. intros e [|f']; [now right|left].
    cbn [app parse_chunks]. now rewrite Eb. }
  destruct ((b / 32 =? mt) && negb (b mod 32 =? 31)) eqn:Em; [|discriminate].
  destruct (carg (b mod 32) t) as [n r1| |] eqn:E; cbn [pbind]; try discriminate.
  destruct (carg_loc _ _ _ _ E) as (p & -> & Hc).
  destruct (len r1 <? n) eqn:E2; [discriminate|]. apply N.ltb_ge in E2.
  destruct (parse_chunks f mt (dropN n r1)) as [s2 r2| |] eqn:E3; cbn [pbind]; try discriminate.
  intro H; injection H as <- <-. destruct (IH _ _ _ E3) as (q & Hq & IHq).
  assert (len (takeN n r1) = n) as Lt by (rewrite takeN_len; lia).
  exists (b :: p ++ takeN n r1 ++ q). split.
  { cbn [app]. f_equal. rewrite <- !app_assoc, <- Hq. now rewrite takeN_dropN. }
  intros e [|f']; [now right|]. cbn [app parse_chunks]. rewrite Eb, Em. rewrite <- !app_assoc, Hc. cbn [pbind].
  rewrite len_of_app by exact Lt. rewrite takeN_exact by exact Lt. rewrite dropN_exact by exact Lt.
  destruct (IHq e f') as [-> | ->]; cbn [pbind]; auto.
Qed.

Lemma parse_loc_all f :
  (forall d bs v r, parse_item f d bs = POk v r -> loc (fun f => parse_item f d) bs v r) /\
  (forall d n bs v r, parse_items f d n bs = POk v r -> loc (fun f => parse_items f d n) bs v r) /\
  (forall d n bs v r, parse_pairs f d n bs = POk v r -> loc (fun f => parse_pairs f d n) bs v r) /\
  (forall d bs v r, parse_items_indef f d bs = POk v r -> loc (fun f => parse_items_indef f d) bs v r) /\
  (forall d bs v r, parse_pairs_indef f d bs = POk v r -> loc (fun f => parse_pairs_indef f d) bs v r).
Proof.
  induction f as [|f (IH1 & IH2 & IH3 & IH4 & IH5)].
  { repeat match goal with |- _ /\ _ => split end; intros; discriminate. }
  split; [|split; [|split; [|split]]].
  - intros d bs v r. cbn [parse_item]. destruct bs as [|b t]; [discriminate|]. cbv zeta.
    destruct (b mod 32 =? 31) eqn:Ea.
    + (* indefinite lengths *)
      assert (forall A (g : nat -> bytes -> pres A) k x, loc g t x r ->
        (forall f u, parse_item (S f) d (b :: u) = pbind (g f u) (fun s r => POk (k s) r)) ->
        loc (fun f => parse_item f d) (b :: t) (k x) r) as G.
      { intros A g k x (p & -> & Hp) Hg. exists (b :: p). split; [reflexivity|]. intros e [|f']; [now right|].
        cbn [app]. rewrite Hg. destruct (Hp e f') as [-> | ->]; cbn [pbind]; auto. }
      destruct (b / 32 =? 2) eqn:E2.
      { destruct (parse_chunks f 2 t) as [x r'| |] eqn:E; cbn [pbind]; try discriminate.
        intro H; injection H as <- <-. apply (G _ (fun f => parse_chunks f 2) CBytes x).
        - now apply (chunks_loc f).
        - intros f' u. cbn [parse_item]. cbv zeta. now rewrite Ea, E2. }
      destruct (b / 32 =? 3) eqn:E3.
      { destruct (parse_chunks f 3 t) as [x r'| |] eqn:E; cbn [pbind]; try discriminate.
        intro H; injection H as <- <-. apply (G _ (fun f => parse_chunks f 3) CText x).
        - now apply (chunks_loc f).
        - intros f' u. cbn [parse_item]. cbv zeta. now rewrite Ea, E2, E3. }
      destruct (b / 32 =? 4) eqn:E4.
      { destruct d; [discriminate|].
        destruct (parse_items_indef f d t) as [x r'| |] eqn:E; cbn [pbind]; try discriminate.
        intro H; injection H as <- <-. apply (G _ (fun f => parse_items_indef f d) CArr x); [now apply IH4|].
        intros f' u. cbn [parse_item]. cbv zeta. now rewrite Ea, E2, E3, E4. }
      destruct (b / 32 =? 5) eqn:E5; [|discriminate].
      destruct d; [discriminate|].
      destruct (parse_pairs_indef f d t) as [x r'| |] eqn:E; cbn [pbind]; try discriminate.
      intro H; injection H as <- <-. apply (G _ (fun f => parse_pairs_indef f d) CMap x); [now apply IH5|].
      intros f' u. cbn [parse_item]. cbv zeta. now rewrite Ea, E2, E3, E4, E5.
    + destruct (carg (b mod 32) t) as [n r1| |] eqn:E; cbn [pbind]; try discriminate.
      destruct (carg_loc _ _ _ _ E) as (p & -> & Hc).
      (* heads that are whole items *)
      assert (forall x, (forall f u, parse_item (S f) d (b :: p ++ u) = POk x u) ->
        loc (fun f => parse_item f d) (b :: p ++ r1) x r1) as G0.
      { intros x Hx. exists (b :: p). split; [reflexivity|]. intros e [|f']; [now right|left]. cbn [app]. apply Hx. }
      (* and heads that are followed by something *)
      assert (forall A (g : nat -> bytes -> pres A) k x r, loc g r1 x r ->
        (forall f u, parse_item (S f) d (b :: p ++ u) = pbind (g f u) (fun s r => POk (k s) r)) ->
        loc (fun f => parse_item f d) (b :: p ++ r1) (k x) r) as G.
      { intros A g k x r' (q & -> & Hp) Hg. exists (b :: p ++ q). split; [cbn [app]; now rewrite app_assoc|].
        intros e [|f']; [now right|].
        cbn [app]. rewrite <- app_assoc, Hg. destruct (Hp e f') as [-> | ->]; cbn [pbind]; auto. }
      destruct (b / 32 =? 0) eqn:E0.
      { intro H; injection H as <- <-. apply G0. intros f' u. cbn [parse_item]. cbv zeta.
        rewrite Ea, Hc. cbn [pbind]. now rewrite E0. }
      destruct (b / 32 =? 1) eqn:E1.
      { intro H; injection H as <- <-. apply G0. intros f' u. cbn [parse_item]. cbv zeta.
        rewrite Ea, Hc. cbn [pbind]. now rewrite E0, E1. }
      destruct (b / 32 =? 2) eqn:E2.
      { destruct (len r1 <? n) eqn:L; [discriminate|]. apply N.ltb_ge in L.
        intro H; injection H as <- <-.
        apply (G _ (fun _ u => if len u <? n then PErr else POk (takeN n u) (dropN n u)) CBytes (takeN n r1)).
        - exists (takeN n r1). split; [symmetry; apply takeN_dropN|]. intros e f'. left.
          assert (len (takeN n r1) = n) as Lt by (rewrite takeN_len; lia).
          rewrite len_of_app, takeN_exact, dropN_exact by exact Lt. reflexivity.
        - intros f' u. cbn [parse_item]. cbv zeta. rewrite Ea, Hc. cbn [pbind]. rewrite E0, E1, E2.
          now destruct (len u <? n). }
      destruct (b / 32 =? 3) eqn:E3.
      { destruct (len r1 <? n) eqn:L; [discriminate|]. apply N.ltb_ge in L.
        intro H; injection H as <- <-.
        apply (G _ (fun _ u => if len u <? n then PErr else POk (takeN n u) (dropN n u)) CText (takeN n r1)).
        - exists (takeN n r1). split; [symmetry; apply takeN_dropN|]. intros e f'. left.
          assert (len (takeN n r1) = n) as Lt by (rewrite takeN_len; lia).
          rewrite len_of_app, takeN_exact, dropN_exact by exact Lt. reflexivity.
        - intros f' u. cbn [parse_item]. cbv zeta. rewrite Ea, Hc. cbn [pbind]. rewrite E0, E1, E2, E3.
          now destruct (len u <? n). }
      destruct (b / 32 =? 4) eqn:E4.
      { destruct d; [discriminate|]. destruct (max_elems <? n) eqn:M; [discriminate|].
        destruct (parse_items f d n r1) as [x r'| |] eqn:Ei; cbn [pbind]; try discriminate.
        intro H; injection H as <- <-. apply (G _ (fun f => parse_items f d n) CArr x); [now apply IH2|].
        intros f' u. cbn [parse_item]. cbv zeta. rewrite Ea, Hc. cbn [pbind]. now rewrite E0, E1, E2, E3, E4, M. }
      destruct (b / 32 =? 5) eqn:E5.
      { destruct d; [discriminate|]. destruct (max_elems <? n) eqn:M; [discriminate|].
        destruct (parse_pairs f d n r1) as [x r'| |] eqn:Ei; cbn [pbind]; try discriminate.
        intro H; injection H as <- <-. apply (G _ (fun f => parse_pairs f d n) CMap x); [now apply IH3|].
        intros f' u. cbn [parse_item]. cbv zeta. rewrite Ea, Hc. cbn [pbind]. now rewrite E0, E1, E2, E3, E4, E5, M. }
      destruct (b / 32 =? 6) eqn:E6.
      { destruct (parse_item f d r1) as [x r'| |] eqn:Ei; cbn [pbind]; try discriminate.
        intro H; injection H as <- <-. apply (G _ (fun f => parse_item f d) (CTag n) x); [now apply IH1|].
        intros f' u. cbn [parse_item]. cbv zeta. rewrite Ea, Hc. cbn [pbind]. now rewrite E0, E1, E2, E3, E4, E5, E6. }
      assert (forall f u, parse_item (S f) d (b :: p ++ u) =
        if b mod 32 <? 24 then POk (CSimple n) u
        else if b mod 32 =? 24 then if n <? 32 then PErr else POk (CSimple n) u
        else POk (CFloat (be (if b mod 32 =? 25 then 2%nat else if b mod 32 =? 26 then 4%nat else 8%nat) n)) u) as Z.
      { intros f' u. cbn [parse_item]. cbv zeta. rewrite Ea, Hc. cbn [pbind]. now rewrite E0, E1, E2, E3, E4, E5, E6. }
      destruct (b mod 32 <? 24); [intro H; injection H as <- <-; apply G0; intros; apply Z|].
      destruct (b mod 32 =? 24).
      { destruct (n <? 32); [discriminate|]. intro H; injection H as <- <-. apply G0; intros; apply Z. }
      intro H; injection H as <- <-. apply G0; intros; apply Z.
  - intros d n bs v r. cbn [parse_items]. destruct (n =? 0) eqn:En.
    { intro H; injection H as <- <-. exists []. split; [reflexivity|]. intros e [|f']; [now right|left].
      cbn [parse_items]. now rewrite En. }
    destruct (parse_item f d bs) as [a r1| |] eqn:E; cbn [pbind]; try discriminate.
    destruct (parse_items f d (n - 1) r1) as [l r2| |] eqn:E2; cbn [pbind]; try discriminate.
    intro H; injection H as <- <-. apply IH1 in E. apply IH2 in E2.
    destruct E as (p & -> & Hp). destruct E2 as (q & -> & Hq).
    exists (p ++ q). split; [apply app_assoc|]. intros e [|f']; [now right|].
    cbn [parse_items]. rewrite En, <- app_assoc. destruct (Hp (q ++ e) f') as [-> | ->]; cbn [pbind]; auto.
    destruct (Hq e f') as [-> | ->]; cbn [pbind]; auto.
  - intros d n bs v r. cbn [parse_pairs]. destruct (n =? 0) eqn:En.
    { intro H; injection H as <- <-. exists []. split; [reflexivity|]. intros e [|f']; [now right|left].
      cbn [parse_pairs]. now rewrite En. }
    destruct (parse_item f d bs) as [a r1| |] eqn:E; cbn [pbind]; try discriminate.
    destruct (parse_item f d r1) as [a2 r12| |] eqn:E1; cbn [pbind]; try discriminate.
    destruct (parse_pairs f d (n - 1) r12) as [l r2| |] eqn:E2; cbn [pbind]; try discriminate.
    intro H; injection H as <- <-. apply IH1 in E. apply IH1 in E1. apply IH3 in E2.
    destruct E as (p & -> & Hp). destruct E1 as (p1 & -> & Hp1). destruct E2 as (q & -> & Hq).
    exists (p ++ p1 ++ q). split; [now rewrite <- !app_assoc|]. intros e [|f']; [now right|].
    cbn [parse_pairs]. rewrite En, <- !app_assoc. destruct (Hp (p1 ++ q ++ e) f') as [-> | ->]; cbn [pbind]; auto.
    destruct (Hp1 (q ++ e) f') as [-> | ->]; cbn [pbind]; auto.
    destruct (Hq e f') as [-> | ->]; cbn [pbind]; auto.
  - intros d bs v r. cbn [parse_items_indef]. destruct bs as [|b t]; [discriminate|].
    destruct (b =? 255) eqn:Eb.
    { intro H; injection H as <- <-. exists [b]. split; [reflexivity|]. intros e [|f']; [now right|left].
      cbn [app parse_items_indef]. now rewrite Eb. }
    destruct (parse_item f d (b :: t)) as [a r1| |] eqn:E; cbn [pbind]; try discriminate.
    destruct (parse_items_indef f d r1) as [l r2| |] eqn:E2; cbn [pbind]; try discriminate.
    intro H; injection H as <- <-. pose proof (parse_item_len _ _ _ _ _ E) as Ln.
    apply IH1 in E. apply IH4 in E2.
    destruct E as (p & Ep & Hp). destruct E2 as (q & -> & Hq).
    destruct p as [|b' p]; [cbn [app] in Ep; rewrite Ep in Ln; lia|]. injection Ep as <- ->.
    exists (b :: p ++ q). split; [cbn [app]; now rewrite <- app_assoc|]. intros e [|f']; [now right|].
    cbn [app parse_items_indef]. rewrite Eb, <- app_assoc. change (b :: p ++ q ++ e) with ((b :: p) ++ q ++ e).
    destruct (Hp (q ++ e) f') as [-> | ->]; cbn [pbind]; auto.
    destruct (Hq e f') as [-> | ->]; cbn [pbind]; auto.
  - intros d bs v r. cbn [parse_pairs_indef]. destruct bs as [|b t]; [discriminate|].
    destruct (b =? 255) eqn:Eb.
    { intro H; injection H as <- <-. exists [b]. split; [reflexivity|]. intros e [|f']; [now right|left].
      cbn [app parse_pairs_indef]. now rewrite Eb. }
    destruct (parse_item f d (b :: t)) as [a r1| |] eqn:E; cbn [pbind]; try discriminate.
    destruct (parse_item f d r1) as [a2 r12| |] eqn:E1; cbn [pbind]; try discriminate.
    destruct (parse_pairs_indef f d r12) as [l r2| |] eqn:E2; cbn [pbind]; try discriminate.
    intro H; injection H as <- <-. pose proof (parse_item_len _ _ _ _ _ E) as Ln.
    apply IH1 in E. apply IH1 in E1. apply IH5 in E2.
    destruct E as (p & Ep & Hp). destruct E1 as (p1 & -> & Hp1). destruct E2 as (q & -> & Hq).
    destruct p as [|b' p]; [cbn [app] in Ep; rewrite Ep in Ln; lia|]. injection Ep as <- ->.
    exists (b :: p ++ p1 ++ q). split; [cbn [app]; now rewrite <- !app_assoc|]. intros e [|f']; [now right|].
    cbn [app parse_pairs_indef]. rewrite Eb, <- !app_assoc.
    change (b :: p ++ p1 ++ q ++ e) with ((b :: p) ++ p1 ++ q ++ e).
    destruct (Hp (p1 ++ q ++ e) f') as [-> | ->]; cbn [pbind]; auto.
    destruct (Hp1 (q ++ e) f') as [-> | ->]; cbn [pbind]; auto.
    destruct (Hq e f') as [-> | ->]; cbn [pbind]; auto.
Qed.

(* The item found at the start of the input is in a prefix, and found whatever follows. *)
Lemma parse_top_local bs v r : parse_top bs = POk v r ->
  exists p, bs = p ++ r /\ forall e, parse_top (p ++ e) = POk v e.
Proof.
  intro H. destruct (proj1 (parse_loc_all _) _ _ _ _ H) as (p & -> & Hp). exists p. split; [reflexivity|].
  intro e. destruct (Hp e (parse_fuel (p ++ e))) as [E|E]; [exact E|].
  destruct (parse_top_fuel (p ++ e) E).
Qed.
