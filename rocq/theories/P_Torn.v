(* A JSON object cut off before its last byte is not JSON. *)
From Verif Require Import Base M_Utf8 M_Cbor M_Json S_State.

Lemma skip_ws_incl s : incl (skip_ws s) s.
Proof. induction s as [|b s IH]; cbn; [apply incl_refl|]. destruct (is_ws b); [now apply incl_tl|apply incl_refl]. Qed.

Lemma eat_incl w s r : eat w s = Some r -> incl r s.
Proof.
  revert s. induction w as [|a w IH]; intros s H; cbn in H; [injection H as <-; apply incl_refl|].
  destruct s as [|b s]; [discriminate H|]. destruct (a =? b); [|discriminate H]. apply incl_tl. now apply IH.
Qed.

Lemma decode_rune_incl b r c r' : decode_rune b r = (c, r') -> incl r' r.
Proof.
  unfold decode_rune. intro H. destruct (b <? 128); [injection H as _ <-; apply incl_refl|].
  destruct r as [|b1 r1]; [injection H as _ <-; apply incl_refl|].
  destruct (_ && _ && _)%bool; [injection H as _ <-; apply incl_tl, incl_refl|].
  destruct r1 as [|b2 r2]; [injection H as _ <-; apply incl_refl|].
  match type of H with context [if ?x then _ else _] => destruct x end; [injection H as _ <-; apply incl_tl, incl_tl, incl_refl|].
  destruct r2 as [|b3 r3]; [injection H as _ <-; apply incl_refl|].
  match type of H with context [if ?x then _ else _] => destruct x end; injection H as _ <-;
    [apply incl_tl, incl_tl, incl_tl, incl_refl|apply incl_refl].
Qed.

Lemma hex4_incl s u r : hex4 s = Some (u, r) -> incl r s.
Proof.
  unfold hex4. destruct s as [|a [|b [|c [|d t]]]]; try discriminate.
  destruct (hex_val a), (hex_val b), (hex_val c), (hex_val d); try discriminate. cbn. intro H. injection H as _ <-.
  do 4 apply incl_tl. apply incl_refl.
Qed.

Lemma unescape_incl s c r : unescape_u s = Some (c, r) -> incl r s.
Proof.
  unfold unescape_u. destruct (hex4 s) as [[u t]|] eqn:H; [|discriminate]. apply hex4_incl in H. cbn [obind].
  destruct (_ && _)%bool; [|intro Q; injection Q as _ <-; exact H].
  intro Q. assert (X : r = t \/ exists z u2, t = 92 :: 117 :: z /\ hex4 z = Some (u2, r)).
  { destruct t as [|x [|y z]]; try (injection Q as _ <-; now left).
    - destruct x as [|p]; [injection Q as _ <-; now left|]. do 7 (try (destruct p as [p|p|])); injection Q as _ <-; now left.
    - destruct (N.eq_dec x 92) as [->|Nx]; [|left; destruct x as [|p]; [injection Q as _ <-; reflexivity|];
        do 7 (try (destruct p as [p|p|])); try (injection Q as _ <-; reflexivity); congruence].
      destruct (N.eq_dec y 117) as [->|Ny]; [|left; destruct y as [|p]; [injection Q as _ <-; reflexivity|];
        do 7 (try (destruct p as [p|p|])); try (injection Q as _ <-; reflexivity); congruence].
      destruct (hex4 z) as [[u2 r2]|] eqn:Z; [|injection Q as _ <-; now left].
      destruct (_ && _)%bool; injection Q as _ <-; [right; eauto|now left]. }
  destruct X as [->|(z & u2 & -> & Z)]; [exact H|]. apply hex4_incl in Z.
  eapply incl_tran; [|exact H]. now apply incl_tl, incl_tl.
Qed.

Lemma pbind_ok {A B} (m : pres A) (k : A -> bytes -> pres B) v r :
  pbind m k = POk v r -> exists a r', m = POk a r' /\ k a r' = POk v r.
Proof. destruct m; cbn; try discriminate. eauto. Qed.

Lemma parse_str_incl f : forall s v r, parse_str f s = POk v r -> incl r s.
Proof.
  induction f as [|f IH]; intros s v r H; [discriminate H|]. cbn [parse_str] in H.
  assert (G : forall c t, pbind (parse_str f t) (fun x y => POk (c ++ x) y) = POk v r -> incl r t).
  { intros c t Q. apply pbind_ok in Q as (a & r' & Q & Q'). injection Q' as _ <-. now apply IH in Q. }
  destruct s as [|b s]; [discriminate H|].
  destruct (b =? 34); [injection H as _ <-; apply incl_tl, incl_refl|].
  destruct (b =? 92).
  - destruct s as [|e t]; [discriminate H|]. do 2 apply incl_tl.
    repeat match type of H with context [if ?x then _ else _] => destruct x; [now apply G in H|] end.
    destruct (e =? 117); [|discriminate H].
    destruct (unescape_u t) as [[c r2]|] eqn:U; [|discriminate H]. apply G in H. apply unescape_incl in U.
    now apply (incl_tran H).
  - destruct (b <? 32); [discriminate H|]. destruct (decode_rune b s) as [c r'] eqn:D. apply G in H.
    apply decode_rune_incl in D. apply incl_tl. now apply (incl_tran H).
Qed.

Lemma span_incl s d r : span_digits s = (d, r) -> incl r s /\ s = d ++ r.
Proof.
  revert d r. induction s as [|b s IH]; intros d r H; cbn in H; [injection H as <- <-; split; [apply incl_refl|reflexivity]|].
  destruct (is_digit b).
  - destruct (span_digits s) as [d' r'] eqn:S. injection H as <- <-. destruct (IH _ _ eq_refl) as [I ->].
    split; [now apply incl_tl|reflexivity].
  - injection H as <- <-. split; [apply incl_refl|reflexivity].
Qed.

Lemma frac_incl r b r' : parse_frac r = Some (b, r') -> incl r' r.
Proof.
  unfold parse_frac. destruct r as [|x r1]; [intro H; injection H as _ <-; apply incl_refl|].
  destruct (N.eq_dec x 46) as [->|Nx].
  - destruct (span_digits r1) as [d r2] eqn:S. apply span_incl in S as [I _].
    destruct d; [discriminate|]. intro H. injection H as _ <-. now apply incl_tl.
  - intro H. assert (H' : Some (false, x :: r1) = Some (b, r')).
    { destruct x as [|p]; [exact H|]. do 6 (try (destruct p as [p|p|])); try exact H; congruence. }
    injection H' as _ <-. apply incl_refl.
Qed.

Definition num_tail (d r : bytes) : pres (option N) :=
  match parse_frac r with
  | None => PErr
  | Some (isf, r) =>
    match r with
    | e :: r1 =>
      if (e =? 101) || (e =? 69) then
        let r1 := match r1 with s :: r2 => if (s =? 43) || (s =? 45) then r2 else r1 | [] => r1 end in
        match span_digits r1 with ([], _) => PErr | (_, r2) => POk None r2 end
      else POk (if isf : bool then None else Some (digits_val d)) r
    | [] => POk (if isf : bool then None else Some (digits_val d)) r
    end
  end.

Lemma unsigned_tail s : parse_unsigned s = match span_digits s with
  | ([], _) => PErr
  | (d0 :: d', r) => if d0 =? 48 then num_tail [d0] (d' ++ r) else num_tail (d0 :: d') r
  end.
Proof. unfold parse_unsigned. destruct (span_digits s) as [[|d0 d'] r]; [reflexivity|]. destruct (d0 =? 48); reflexivity. Qed.

Lemma tail_incl d t v r : num_tail d t = POk v r -> incl r t.
Proof.
  unfold num_tail. intro H. destruct (parse_frac t) as [[isf t2]|] eqn:F; [|discriminate H].
  apply frac_incl in F. apply (fun H => incl_tran H F).
  destruct t2 as [|e r1]; [injection H as _ <-; apply incl_refl|].
  destruct ((e =? 101) || (e =? 69))%bool; [|injection H as _ <-; apply incl_refl].
  cbv zeta in H. set (r2 := match r1 with _ :: _ => _ | [] => _ end) in H.
  assert (I2 : incl r2 r1) by (subst r2; destruct r1 as [|y r3]; [apply incl_refl|]; destruct (_ || _)%bool; [apply incl_tl|]; apply incl_refl).
  destruct (span_digits r2) as [d2 r4] eqn:S2. apply span_incl in S2 as [I3 _].
  destruct d2; [discriminate H|]. injection H as _ <-. apply incl_tl. now apply (incl_tran I3).
Qed.

Lemma unsigned_incl s v r : parse_unsigned s = POk v r -> incl r (tl s).
Proof.
  rewrite unsigned_tail. destruct (span_digits s) as [d t] eqn:S. apply span_incl in S as [_ ->].
  destruct d as [|d0 d']; [discriminate|]. cbn [app tl].
  destruct (d0 =? 48); intro H; apply tail_incl in H; [exact H|now apply incl_appr].
Qed.

Lemma parse_incl f :
  (forall s v r, parse_val f s = POk v r -> incl r s) /\
  (forall s v r, parse_members f s = POk v r -> incl r s /\ In 125 s) /\
  (forall s v r, parse_elems f s = POk v r -> incl r s).
Proof.
  induction f as [|f (IV & IM & IE)]; [split; [|split]; intros s v r H; discriminate H|].
  split; [|split]; intros s v r H.
  - cbn [parse_val] in H. apply (fun H => incl_tran H (skip_ws_incl s)).
    destruct (skip_ws s) as [|b t]; [discriminate H|]. apply incl_tl.
    destruct (b =? 123); [|destruct (b =? 91); [|destruct (b =? 34); [|destruct (b =? 110); [|destruct (b =? 116);
      [|destruct (b =? 102); [|destruct (b =? 45); [|destruct (is_digit b) eqn:D; [|discriminate H]]]]]]]].
    + apply (fun H => incl_tran H (skip_ws_incl t)). destruct (eat [125] (skip_ws t)) eqn:Q.
      * injection H as _ <-. now apply eat_incl in Q.
      * apply pbind_ok in H as (a & r' & H & H'). injection H' as _ <-. now apply IM in H.
    + apply (fun H => incl_tran H (skip_ws_incl t)). destruct (eat [93] (skip_ws t)) eqn:Q.
      * injection H as _ <-. now apply eat_incl in Q.
      * apply pbind_ok in H as (a & r' & H & H'). injection H' as _ <-. now apply IE in H.
    + apply pbind_ok in H as (a & r' & H & H'). injection H' as _ <-. now apply parse_str_incl in H.
    + destruct (eat _ t) eqn:Q; [|discriminate H]. injection H as _ <-. now apply eat_incl in Q.
    + destruct (eat _ t) eqn:Q; [|discriminate H]. injection H as _ <-. now apply eat_incl in Q.
    + destruct (eat _ t) eqn:Q; [|discriminate H]. injection H as _ <-. now apply eat_incl in Q.
    + apply pbind_ok in H as (a & r' & H & H'). injection H' as _ <-. apply unsigned_incl in H.
      apply (incl_tran H). destruct t; [apply incl_refl|apply incl_tl, incl_refl].
    + apply pbind_ok in H as (a & r' & H & H'). injection H' as _ <-. now apply unsigned_incl in H.
  - cbn [parse_members] in H. destruct s as [|b t]; [discriminate H|]. destruct (b =? 34); [|discriminate H].
    apply pbind_ok in H as (k & r1 & H1 & H). apply parse_str_incl in H1.
    pose proof (skip_ws_incl r1) as I1. destruct (skip_ws r1) as [|c r2]; [discriminate H|].
    assert (I2 : incl r2 (b :: t)) by (apply incl_tl; apply (fun X => incl_tran X (incl_tran I1 H1)); apply incl_tl, incl_refl).
    assert (H' : exists x r3, parse_val f r2 = POk x r3 /\ 
      match skip_ws r3 with
      | c :: r => if c =? 44 then pbind (parse_members f (skip_ws r)) (fun l r => POk ((k, x) :: l) r)
                  else if c =? 125 then POk [(k, x)] r else PErr
      | [] => PErr end = POk v r).
    { destruct (N.eq_dec c 58) as [->|Nc]; [now apply pbind_ok in H as (x & r3 & H2 & H); eauto|].
      exfalso. destruct c as [|p]; [discriminate H|]. do 6 (try (destruct p as [p|p|])); try discriminate H; congruence. }
    clear H. destruct H' as (x & r3 & H2 & H). apply IV in H2.
    pose proof (skip_ws_incl r3) as I3. destruct (skip_ws r3) as [|c2 r4]; [discriminate H|].
    assert (I4 : incl (c2 :: r4) (b :: t)) by (apply (incl_tran I3); now apply (incl_tran H2)).
    assert (I5 : incl r4 (b :: t)) by (apply (fun X => incl_tran X I4); apply incl_tl, incl_refl).
    destruct (c2 =? 44).
    + apply pbind_ok in H as (l & r5 & H & Q). injection Q as _ <-. apply IM in H as [A B].
      pose proof (incl_tran (skip_ws_incl r4) I5) as I6. split; [now apply (incl_tran A)|now apply I6].
    + destruct (c2 =? 125) eqn:Q; [|discriminate H]. apply N.eqb_eq in Q. subst c2. injection H as _ <-.
      split; [exact I5|]. apply I4. now left.
  - cbn [parse_elems] in H. apply pbind_ok in H as (x & r1 & H1 & H). apply IV in H1.
    apply (fun X => incl_tran X H1). apply (fun X => incl_tran X (skip_ws_incl r1)).
    destruct (skip_ws r1) as [|c r2]; [discriminate H|]. apply incl_tl.
    destruct (c =? 44).
    + apply pbind_ok in H as (l & r5 & H & Q). injection Q as _ <-. now apply IE in H.
    + destruct (c =? 93); [|discriminate H]. injection H as _ <-. apply incl_refl.
Qed.

(* An opening brace and no closing one. *)
Lemma open_not_json m : Forall (fun b => b < 123) m -> parse_json (123 :: m) = None.
Proof.
  intro H. assert (X : forall t, incl t m -> ~ In 125 t).
  { intros t I J. apply I in J. rewrite Forall_forall in H. apply H in J. lia. }
  unfold parse_json. destruct (parse_val _ (123 :: m)) as [v r| |] eqn:P; try reflexivity. exfalso.
  cbn [parse_val length] in P. change (skip_ws (123 :: m)) with (123 :: m) in P. cbn [N.eqb] in P.
  change (123 =? 123) with true in P. cbv iota in P.
  destruct (eat [125] (skip_ws m)) eqn:Q.
  - pose proof (skip_ws_incl m) as I. destruct (skip_ws m) as [|c t]; [discriminate Q|]. cbn [eat] in Q.
    destruct (125 =? c) eqn:B; [|discriminate Q]. apply N.eqb_eq in B. subst c. apply (X _ I). now left.
  - apply pbind_ok in P as (a & r' & P & _). apply parse_incl in P as [_ J]. exact (X _ (skip_ws_incl m) J).
Qed.

(* Every proper prefix of a closed text. *)
Lemma torn_not_json d f b r : closed_text d -> d = f ++ b :: r -> parse_json f = None.
Proof.
  intros (m & -> & H) E. destruct f as [|c f]; [reflexivity|]. cbn in E. injection E as <- E.
  apply open_not_json. 
  assert (X : exists z, m = f ++ z).
  { revert m H E. induction f as [|c f IH]; intros m H E; [now exists m|].
    destruct m as [|x m]; [cbn in E; injection E as E1 E2; destruct f; discriminate E2|].
    cbn in E. injection E as -> E. inversion H; subst. destruct (IH m) as [z ->]; auto. now exists z. }
  destruct X as [z ->]. now apply Forall_app in H.
Qed.
