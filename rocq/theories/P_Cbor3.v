(* Canonical CBOR is uniquely readable, whatever the document's depth or size. *)
From Coq Require Import Sorting.Sorted.
From Verif Require Import Base M_Cbor S_Cbor P_Cbor P_Cbor2.

Lemma head_prefix mt n h mt' n' h' r r' : mt < 7 -> mt' < 7 -> Head mt n h -> Head mt' n' h' ->
  h ++ r = h' ++ r' -> mt = mt' /\ n = n' /\ r = r'.
Proof.
  intros M M' H H' E.
  assert (X : forall k a b, a < 256 ^ N.of_nat k -> b < 256 ^ N.of_nat k -> be k a ++ r = be k b ++ r' -> a = b /\ r = r').
  { intros k a b A B K. apply app_inj_len in K as [K1 K2]; [|now rewrite !be_len].
    split; [|exact K2]. now apply (be_inj k). }
  change (256 ^ 2) with 65536 in *.
  destruct H; destruct H'; cbn [app] in E;
    match type of E with ?a :: ?s = ?b :: ?t => assert (E1 : a = b) by congruence; assert (E2 : s = t) by congruence end;
    clear E; try (exfalso; clear X E2; lia);
    (split; [clear X E2; lia|]); try (split; [clear X E2; lia|exact E2]);
    match goal with E : be ?k _ ++ _ = _ |- _ => apply (X k) in E; auto end.
Qed.

Ltac hp H1 H2 E := let A := fresh in let B := fresh in let D := fresh in
  destruct (head_prefix _ _ _ _ _ _ _ _ ltac:(lia) ltac:(lia) H1 H2 E) as (A & B & D); try discriminate A.

Lemma simple_head mt n h r x r' : mt < 7 -> Head mt n h -> 240 <= x -> h ++ r = x :: r' -> False.
Proof. intros M H L E. destruct H; cbn [app] in E; injection E as E1 E2; lia. Qed.

Lemma canonical_first v b : canonical v b ->
  (exists mt n h t, mt < 7 /\ Head mt n h /\ b = h ++ t /\
     match v with CUint _ => mt = 0 | CNint _ => mt = 1 | CBytes _ => mt = 2 | CText _ => mt = 3
                | CArr _ => mt = 4 | CMap _ => mt = 5 | _ => False end) \/
  (exists n, v = CSimple n /\ b = [224 + n] /\ 20 <= n <= 22).
Proof.
  intro H. destruct H;
    try (left; match goal with H : Head ?m ?k ?h |- _ => exists m, k, h end; eexists;
         split; [lia|]; split; [eassumption|]; split; [try reflexivity; symmetry; apply app_nil_r|reflexivity]).
  all: right; eexists; split; [reflexivity|]; split; [reflexivity|lia].
Qed.

Definition unambiguous (v : cbor) : Prop := forall b v' b' r r',
  canonical v b -> canonical v' b' -> b ++ r = b' ++ r' -> v = v' /\ r = r'.

Lemma list_unambiguous l : Forall unambiguous l -> forall bs l' bs' r r', length l = length l' ->
  Forall2 canonical l bs -> Forall2 canonical l' bs' -> concat bs ++ r = concat bs' ++ r' -> l = l' /\ r = r'.
Proof.
  induction 1 as [|v l Hv Hl IH]; intros bs [|v' l'] bs' r r' N F F' E; try discriminate N.
  - inversion F; inversion F'; subst. auto.
  - inversion F as [|? b ? t C1 C2]; inversion F' as [|? b' ? t' C1' C2']; subst. cbn [concat] in E.
    rewrite <- !app_assoc in E. destruct (Hv _ _ _ _ _ C1 C1' E) as [-> E'].
    destruct (IH _ l' _ _ _ ltac:(now injection N) C2 C2' E') as [-> ->]. auto.
Qed.

Lemma pairs_unambiguous l : Forall (fun p => unambiguous (fst p) /\ unambiguous (snd p)) l ->
  forall ks vs l' ks' vs' r r', length l = length l' ->
  Forall2 canonical (map fst l) ks -> Forall2 canonical (map snd l) vs ->
  Forall2 canonical (map fst l') ks' -> Forall2 canonical (map snd l') vs' ->
  concat (map (fun p => fst p ++ snd p) (combine ks vs)) ++ r =
  concat (map (fun p => fst p ++ snd p) (combine ks' vs')) ++ r' -> l = l' /\ r = r'.
Proof.
  induction 1 as [|[k v] l [Hk Hv] Hl IH]; intros ks vs [|[k' v'] l'] ks' vs' r r' N F G F' G' E; try discriminate N.
  - inversion F; inversion F'; subst. auto.
  - cbn [map fst snd] in *. inversion F as [|? kb ? kt K1 K2]; inversion G as [|? vb ? vt V1 V2]; 
    inversion F' as [|? kb' ? kt' K1' K2']; inversion G' as [|? vb' ? vt' V1' V2']; subst.
    cbn [combine map fst snd concat] in E. rewrite <- !app_assoc in E.
    destruct (Hk _ _ _ _ _ K1 K1' E) as [-> E1]. destruct (Hv _ _ _ _ _ V1 V1' E1) as [-> E2].
    destruct (IH _ _ l' _ _ _ _ ltac:(now injection N) K2 V2 K2' V2' E2) as [-> ->]. auto.
Qed.

Lemma len_same {A B} (l : list A) (l' : list B) : len l = len l' -> length l = length l'.
Proof. unfold len. lia. Qed.

Lemma canonical_unambiguous v : unambiguous v.
Proof.
  induction v using cbor_ind'; intros bb v' bb' q q' C C' E;
    (destruct (canonical_first v' bb' C') as [(mt & n' & h' & t' & M & Hh & Eb & Km)|(n' & -> & -> & Nn)];
     [|first [ inversion C; subst; exfalso;
         match goal with H : Head ?m ?k ?h |- _ => try rewrite <- app_assoc in E; 
           eapply (simple_head m k h _ (224 + n') q'); [lia|exact H|lia|exact E] end
       | idtac ]]).
  all: try (inversion C; fail).
  - inversion C as [k h Hd| | | | | | | |]; subst. rewrite <- app_assoc in E.
    destruct (head_prefix 0 n bb mt n' h' q (t' ++ q') ltac:(lia) M Hd Hh E) as (A & B & D). subst.
    destruct v'; try contradiction; try discriminate Km. inversion C'; subst.
    destruct (head_prefix 0 _ _ 0 _ _ t' [] ltac:(lia) ltac:(lia) Hh H0) as (_ & -> & ->); [now rewrite app_nil_r|auto].
  - inversion C as [|k h Hd| | | | | | |]; subst. rewrite <- app_assoc in E.
    destruct (head_prefix 1 n bb mt n' h' q (t' ++ q') ltac:(lia) M Hd Hh E) as (A & B & D). subst.
    destruct v'; try contradiction; try discriminate Km. inversion C'; subst.
    destruct (head_prefix 1 _ _ 1 _ _ t' [] ltac:(lia) ltac:(lia) Hh H0) as (_ & -> & ->); [now rewrite app_nil_r|auto].
  - inversion C as [| |k h Wd Hd| | | | | |]; subst. rewrite <- !app_assoc in E.
    destruct (head_prefix 2 (len b) h mt n' h' (b ++ q) (t' ++ q') ltac:(lia) M Hd Hh E) as (A & B & D). subst.
    destruct v'; try contradiction; try discriminate Km. inversion C'; subst.
    match goal with X : Head 2 _ ?hh, Y : ?hh ++ _ = h' ++ t' |- _ =>
      destruct (head_prefix 2 _ _ 2 _ _ t' _ ltac:(lia) ltac:(lia) Hh X (eq_sym Y)) as (_ & L & ->) end.
    apply app_inj_len in D as [-> ->]; auto.
  - inversion C as [| | |k h Wd Hd| | | | |]; subst. rewrite <- !app_assoc in E.
    destruct (head_prefix 3 (len b) h mt n' h' (b ++ q) (t' ++ q') ltac:(lia) M Hd Hh E) as (A & B & D). subst.
    destruct v'; try contradiction; try discriminate Km. inversion C'; subst.
    match goal with X : Head 3 _ ?hh, Y : ?hh ++ _ = h' ++ t' |- _ =>
      destruct (head_prefix 3 _ _ 3 _ _ t' _ ltac:(lia) ltac:(lia) Hh X (eq_sym Y)) as (_ & L & ->) end.
    apply app_inj_len in D as [-> ->]; auto.
  - inversion C as [| | | |k bs h Hd Fd| | | |]; subst. rewrite <- !app_assoc in E.
    destruct (head_prefix 4 (len l) h mt n' h' (concat bs ++ q) (t' ++ q') ltac:(lia) M Hd Hh E) as (A & B & D). subst.
    destruct v'; try contradiction; try discriminate Km. inversion C'; subst.
    match goal with X : Head 4 _ ?hh, Y : ?hh ++ _ = h' ++ t' |- _ =>
      destruct (head_prefix 4 _ _ 4 _ _ t' _ ltac:(lia) ltac:(lia) Hh X (eq_sym Y)) as (_ & L & ->) end.
    destruct (list_unambiguous l H bs l0 bs0 q q' (len_same _ _ L) Fd ltac:(assumption) D) as [-> ->]. auto.
  - inversion C as [| | | | |k ks vs h Hd Fk Fv So| | |]; subst. rewrite <- !app_assoc in E.
    destruct (head_prefix 5 (len l) h mt n' h' _ (t' ++ q') ltac:(lia) M Hd Hh E) as (A & B & D). subst.
    destruct v'; try contradiction; try discriminate Km. inversion C'; subst.
    match goal with X : Head 5 _ ?hh, Y : ?hh ++ _ = h' ++ t' |- _ =>
      destruct (head_prefix 5 _ _ 5 _ _ t' _ ltac:(lia) ltac:(lia) Hh X (eq_sym Y)) as (_ & L & ->) end.
    destruct (pairs_unambiguous l H ks vs l0 ks0 vs0 q q' (len_same _ _ L)) as [-> ->]; auto.
  - exfalso. inversion C; subst; rewrite <- !app_assoc in E; symmetry in E; eapply (simple_head mt n' h'); try exact E; auto; lia.
  - inversion C; subst; cbn [app] in E; injection E as E1 E2; (split; [f_equal; lia|exact E2]).
Qed.

Lemma canonical_one v v' b : canonical v b -> canonical v' b -> v = v'.
Proof. intros H H'. now destruct (canonical_unambiguous v b v' b [] [] H H' eq_refl). Qed.
