(* Bytes, integer codecs, results and list lemmas shared by the whole model. *)
From Coq Require Export List NArith ZArith Lia Bool.
From Coq Require Export ZifyBool ZifyNat ZifyN.
Export ListNotations.
#[global] Open Scope N_scope.

Ltac Zify.zify_post_hook ::= Z.div_mod_to_equations.

#[global] Arguments N.add : simpl never.
#[global] Arguments N.sub : simpl never.
#[global] Arguments N.mul : simpl never.
#[global] Arguments N.div : simpl never.
#[global] Arguments N.modulo : simpl never.
#[global] Arguments N.eqb : simpl never.
#[global] Arguments N.ltb : simpl never.
#[global] Arguments N.leb : simpl never.
#[global] Arguments N.pow : simpl never.
#[global] Arguments N.land : simpl never.
#[global] Arguments N.lor : simpl never.
#[global] Arguments N.testbit : simpl never.
#[global] Arguments N.to_nat : simpl never.
#[global] Arguments N.of_nat : simpl never.

(* ------------------------------------------------------------------ *)
(* Bytes                                                               *)

(* A Go []byte.  Elements are expected below 256: see [wfb]. *)
Definition bytes := list N.

Definition byte_ok (b : N) : Prop := b < 256.
Definition wfb (l : bytes) : Prop := Forall byte_ok l.

Definition wfbb (l : bytes) : bool := forallb (fun b => b <? 256) l.

Definition len {A} (l : list A) : N := N.of_nat (length l).

Definition zeros (n : nat) : bytes := repeat 0 n.

Definition takeN {A} (n : N) (l : list A) : list A := firstn (N.to_nat n) l.
Definition dropN {A} (n : N) (l : list A) : list A := skipn (N.to_nat n) l.

Fixpoint bytes_eqb (a b : bytes) : bool :=
  match a, b with
  | [], [] => true
  | x :: a', y :: b' => (x =? y) && bytes_eqb a' b'
  | _, _ => false
  end.

(* ------------------------------------------------------------------ *)
(* Results                                                             *)

(* The outcome of a Go function: it returns, or it panics. *)
Inductive res (A : Type) : Type :=
| Ok (a : A)
| Panic.
Arguments Ok {A} a.
Arguments Panic {A}.

Definition rbind {A B} (x : res A) (f : A -> res B) : res B :=
  match x with Ok a => f a | Panic => Panic end.

Definition obind {A B} (x : option A) (f : A -> option B) : option B :=
  match x with Some a => f a | None => None end.

Declare Scope res_scope.
Delimit Scope res_scope with res.
Notation "'let?' x := a 'in' b" := (rbind a (fun x => b))
  (at level 200, x pattern, a at level 100, b at level 200) : res_scope.
Notation "'let!' x := a 'in' b" := (obind a (fun x => b))
  (at level 200, x pattern, a at level 100, b at level 200) : res_scope.
#[global] Open Scope res_scope.

Definition is_ok {A} (r : res A) : bool := match r with Ok _ => true | Panic => false end.

(* ------------------------------------------------------------------ *)
(* Fixed-width integer codecs (encoding/binary)                        *)

Fixpoint le (n : nat) (v : N) : bytes :=
  match n with
  | O => []
  | S n' => (v mod 256) :: le n' (v / 256)
  end.

Definition be (n : nat) (v : N) : bytes := rev (le n v).

Fixpoint le_dec (l : bytes) : N :=
  match l with
  | [] => 0
  | b :: r => b + 256 * le_dec r
  end.

Definition be_dec (l : bytes) : N := le_dec (rev l).

(* ------------------------------------------------------------------ *)
(* Lemmas: lists                                                       *)

Lemma len_nil {A} : len (@nil A) = 0.
Proof. reflexivity. Qed.

Lemma len_cons {A} (a : A) l : len (a :: l) = 1 + len l.
Proof. unfold len; simpl length; lia. Qed.

Lemma len_app {A} (a b : list A) : len (a ++ b) = len a + len b.
Proof. unfold len; rewrite app_length; lia. Qed.

Lemma len_zeros n : len (zeros n) = N.of_nat n.
Proof. unfold len, zeros; now rewrite repeat_length. Qed.

Lemma length_len {A} (l : list A) : length l = N.to_nat (len l).
Proof. unfold len; lia. Qed.

Lemma len_0_nil {A} (l : list A) : len l = 0 -> l = [].
Proof. destruct l; auto. rewrite len_cons; lia. Qed.

Lemma takeN_len {A} (l : list A) n : len (takeN n l) = N.min n (len l).
Proof. unfold len, takeN; rewrite firstn_length; lia. Qed.

Lemma dropN_len {A} (l : list A) n : len (dropN n l) = len l - n.
Proof. unfold len, dropN; rewrite skipn_length; lia. Qed.

Lemma takeN_dropN {A} n (l : list A) : takeN n l ++ dropN n l = l.
Proof. apply firstn_skipn. Qed.

Lemma takeN_all {A} (l : list A) n : len l <= n -> takeN n l = l.
Proof. intro H; apply firstn_all2. unfold len in H; lia. Qed.

Lemma dropN_all {A} (l : list A) n : len l <= n -> dropN n l = [].
Proof. intro H; apply skipn_all2. unfold len in H; lia. Qed.

Lemma takeN_app {A} (a b : list A) n :
  takeN n (a ++ b) = takeN n a ++ takeN (n - len a) b.
Proof.
  unfold takeN, len. rewrite firstn_app. do 2 f_equal. lia.
Qed.

Lemma dropN_app {A} (a b : list A) n :
  dropN n (a ++ b) = dropN n a ++ dropN (n - len a) b.
Proof.
  unfold dropN, len. rewrite skipn_app. do 2 f_equal. lia.
Qed.

Lemma takeN_exact {A} (a b : list A) n : len a = n -> takeN n (a ++ b) = a.
Proof.
  intro H. rewrite takeN_app, takeN_all by lia.
  replace (n - len a) with 0 by lia. unfold takeN; simpl. now rewrite app_nil_r.
Qed.

Lemma dropN_exact {A} (a b : list A) n : len a = n -> dropN n (a ++ b) = b.
Proof.
  intro H. rewrite dropN_app, dropN_all by lia.
  replace (n - len a) with 0 by lia. reflexivity.
Qed.

Lemma takeN_0 {A} (l : list A) : takeN 0 l = [].
Proof. reflexivity. Qed.

Lemma dropN_0 {A} (l : list A) : dropN 0 l = l.
Proof. reflexivity. Qed.

Lemma dropN_dropN {A} n m (l : list A) : dropN n (dropN m l) = dropN (m + n) l.
Proof.
  unfold dropN. rewrite <- (firstn_skipn (N.to_nat m) l) at 2.
  rewrite skipn_app.
  destruct (Nat.le_gt_cases (length l) (N.to_nat m)).
  - rewrite (skipn_all2 l) by lia. rewrite !skipn_nil, app_nil_r.
    symmetry. apply skipn_all2. rewrite firstn_length. lia.
  - rewrite firstn_length, Nat.min_l by lia.
    rewrite (skipn_all2 (firstn _ _)) by (rewrite firstn_length; lia).
    simpl. f_equal. lia.
Qed.

Lemma takeN_takeN {A} n m (l : list A) : takeN n (takeN m l) = takeN (N.min n m) l.
Proof. unfold takeN. rewrite firstn_firstn. f_equal. lia. Qed.

Lemma app_inj_len {A} (a b c d : list A) :
  len a = len c -> a ++ b = c ++ d -> a = c /\ b = d.
Proof.
  intros HL H.
  assert (E : length a = length c) by (unfold len in HL; lia).
  revert c E H HL. induction a as [|x a IH]; intros [|y c] E H HL; simpl in *; try lia.
  - auto.
  - injection H as -> H. destruct (IH c) as [-> ->]; auto; try lia. unfold len; lia.
Qed.

Lemma bytes_eqb_eq a b : bytes_eqb a b = true <-> a = b.
Proof.
  revert b; induction a as [|x a IH]; intros [|y b]; simpl; split; intro H; try easy.
  - apply andb_true_iff in H as [H1 H2]. apply N.eqb_eq in H1. apply IH in H2. now subst.
  - injection H as -> ->. rewrite N.eqb_refl. simpl. now apply IH.
Qed.

Lemma bytes_eqb_refl a : bytes_eqb a a = true.
Proof. now apply bytes_eqb_eq. Qed.

Lemma bytes_eqb_neq a b : bytes_eqb a b = false <-> a <> b.
Proof.
  destruct (bytes_eqb a b) eqn:E; split; intro H; try easy.
  - apply bytes_eqb_eq in E. contradiction.
  - intro K. apply bytes_eqb_eq in K. congruence.
Qed.

Lemma bytes_eqb_sym a b : bytes_eqb a b = bytes_eqb b a.
Proof.
  destruct (bytes_eqb b a) eqn:E.
  - apply bytes_eqb_eq in E; subst. apply bytes_eqb_refl.
  - apply bytes_eqb_neq in E. apply bytes_eqb_neq. congruence.
Qed.

Lemma bytes_dec (a b : bytes) : {a = b} + {a <> b}.
Proof. apply list_eq_dec, N.eq_dec. Qed.

(* ------------------------------------------------------------------ *)
(* Lemmas: well-formed bytes                                           *)

Lemma wfb_nil : wfb [].
Proof. constructor. Qed.

Lemma wfb_app a b : wfb (a ++ b) <-> wfb a /\ wfb b.
Proof. apply Forall_app. Qed.

Lemma wfb_cons x l : wfb (x :: l) <-> x < 256 /\ wfb l.
Proof. split; intro H; [inversion H; auto | constructor; tauto]. Qed.

Lemma wfb_zeros n : wfb (zeros n).
Proof. induction n; constructor; auto. unfold byte_ok; lia. Qed.

Lemma wfb_takeN n l : wfb l -> wfb (takeN n l).
Proof.
  intro H. rewrite <- (takeN_dropN n l) in H. apply wfb_app in H. tauto.
Qed.

Lemma wfb_dropN n l : wfb l -> wfb (dropN n l).
Proof.
  intro H. rewrite <- (takeN_dropN n l) in H. apply wfb_app in H. tauto.
Qed.

Lemma wfb_rev l : wfb l -> wfb (rev l).
Proof. apply Forall_rev. Qed.

Lemma wfbb_iff l : wfbb l = true <-> wfb l.
Proof.
  unfold wfbb, wfb. rewrite forallb_forall, Forall_forall. unfold byte_ok.
  split; intros H x Hx; specialize (H x Hx); lia.
Qed.

(* ------------------------------------------------------------------ *)
(* Lemmas: integer codecs                                              *)

Lemma le_length n v : length (le n v) = n.
Proof. revert v; induction n; simpl; auto. Qed.

Lemma be_length n v : length (be n v) = n.
Proof. unfold be. now rewrite rev_length, le_length. Qed.

Lemma le_len n v : len (le n v) = N.of_nat n.
Proof. unfold len. now rewrite le_length. Qed.

Lemma be_len n v : len (be n v) = N.of_nat n.
Proof. unfold len. now rewrite be_length. Qed.

Lemma le_wf n v : wfb (le n v).
Proof.
  revert v; induction n; intro v; cbn [le].
  - apply wfb_nil.
  - apply wfb_cons. split; [lia | auto].
Qed.

Lemma be_wf n v : wfb (be n v).
Proof. apply wfb_rev, le_wf. Qed.

Lemma pow256_S n : 256 ^ N.of_nat (S n) = 256 * 256 ^ N.of_nat n.
Proof. rewrite Nat2N.inj_succ, N.pow_succ_r'. reflexivity. Qed.

Lemma le_dec_le n v : le_dec (le n v) = v mod 256 ^ N.of_nat n.
Proof.
  revert v; induction n; intro v.
  - simpl. rewrite N.mod_1_r. reflexivity.
  - rewrite pow256_S. cbn [le le_dec]. rewrite IHn.
    rewrite N.mod_mul_r by (try apply N.pow_nonzero; lia). reflexivity.
Qed.

Lemma le_dec_bound l : wfb l -> le_dec l < 256 ^ len l.
Proof.
  induction l as [|b l IH]; intro H.
  - reflexivity.
  - apply wfb_cons in H as [Hb Hl]. specialize (IH Hl).
    unfold len. simpl length. rewrite pow256_S. fold (len l).
    cbn [le_dec]. nia.
Qed.

Lemma le_le_dec l : wfb l -> le (length l) (le_dec l) = l.
Proof.
  induction l as [|b l IH]; intro H; auto.
  apply wfb_cons in H as [Hb Hl]. cbn [length le le_dec].
  replace ((b + 256 * le_dec l) mod 256) with b by lia.
  replace ((b + 256 * le_dec l) / 256) with (le_dec l) by lia.
  now rewrite IH.
Qed.

Lemma be_dec_be n v : be_dec (be n v) = v mod 256 ^ N.of_nat n.
Proof. unfold be_dec, be. rewrite rev_involutive. apply le_dec_le. Qed.

Lemma be_dec_be_small n v : v < 256 ^ N.of_nat n -> be_dec (be n v) = v.
Proof. intro H. rewrite be_dec_be. now apply N.mod_small. Qed.

Lemma le_dec_le_small n v : v < 256 ^ N.of_nat n -> le_dec (le n v) = v.
Proof. intro H. rewrite le_dec_le. now apply N.mod_small. Qed.

Lemma be_be_dec l : wfb l -> be (length l) (be_dec l) = l.
Proof.
  intro H. unfold be, be_dec. rewrite <- (rev_length l).
  rewrite le_le_dec by (now apply wfb_rev). apply rev_involutive.
Qed.

Lemma len_rev {A} (l : list A) : len (rev l) = len l.
Proof. unfold len. now rewrite rev_length. Qed.

Lemma be_dec_bound l : wfb l -> be_dec l < 256 ^ len l.
Proof.
  intro H. unfold be_dec. rewrite <- (len_rev l). apply le_dec_bound. now apply wfb_rev.
Qed.

Lemma le_inj n a b :
  a < 256 ^ N.of_nat n -> b < 256 ^ N.of_nat n -> le n a = le n b -> a = b.
Proof.
  intros Ha Hb H. rewrite <- (le_dec_le_small n a), <- (le_dec_le_small n b) by auto.
  now rewrite H.
Qed.

Lemma be_inj n a b :
  a < 256 ^ N.of_nat n -> b < 256 ^ N.of_nat n -> be n a = be n b -> a = b.
Proof.
  intros Ha Hb H. rewrite <- (be_dec_be_small n a), <- (be_dec_be_small n b) by auto.
  now rewrite H.
Qed.

#[global] Hint Resolve wfb_nil wfb_zeros wfb_takeN wfb_dropN wfb_rev le_wf be_wf : wf.
