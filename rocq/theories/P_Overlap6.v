(* Counters, guesses and approvals of overlapping requests. *)
From Coq Require Import Permutation.
From Verif Require Import Base M_Str M_Util M_Utf8 M_Cbor M_Json M_Crypto M_Cose M_State M_Client M_Ctap M_U2f M_History M_Overlap.
From Verif Require Import S_Crypto S_Cbor S_Cose S_State S_Client S_Ctap S_CtapReq S_Pin S_U2f S_History S_Overlap.
From Verif Require Import P_Crypto P_Cbor P_Cbor2 P_Cbor3 P_Cose P_Cose2 P_State P_Client P_Ctap P_Ctap2 P_Ctap3 P_U2f P_U2f2 P_Vault P_History P_History2 P_Overlap1 P_Overlap2 P_Overlap3 P_Overlap4 P_Overlap5.

(* ------------------------------------------------------------------ *)
(* The U2F counter                                                     *)

Lemma waits_ctr E i w w' p : waits_for E i w w' p -> cl_ctr (w_client w') = cl_ctr (w_client w).
Proof.
  destruct p; cbn [waits_for].
  - now intros (-> & _).
  - now intros (? & ? & ? & ? & ? & _ & _ & _ & _ & _ & _ & _ & _ & _ & _ & ->).
  - now intros (? & _ & _ & _ & _ & _ & _ & ->).
  - now intros (? & ? & ? & _ & _ & _ & _ & _ & _ & _ & ->).
Qed.
Lemma answers_ctr E w p w' r : answers E w p w' r -> cl_ctr (w_client w') = cl_ctr (w_client w) \/
  (cl_ctr (w_client w') = (cl_ctr (w_client w) + 1) mod 4294967296 /\ exists sig, r = Ok (authentication_reply 1 (cl_ctr (w_client w)) sig)).
Proof. intro H. destruct H; try (left; reflexivity). right. split; [reflexivity|]. eauto. Qed.

Lemma Ok_inj {A} (a b : A) : Ok a = Ok b -> a = b.
Proof. congruence. Qed.

Lemma moves_ctr E w w' es : env_ok E -> client_ok E (w_client w) -> moves E w w' es ->
  (cl_ctr (w_client w') = cl_ctr (w_client w) \/ cl_ctr (w_client w') = (cl_ctr (w_client w) + 1) mod 4294967296) /\
  forall n i o k, In (ODone n i o) es -> u2f_counter (HDone i o) k ->
    k = cl_ctr (w_client w) /\ cl_ctr (w_client w') = (k + 1) mod 4294967296.
Proof.
  intros L K [-> ->|i r G H _ _ A|i p G H A|i p r S H A].
  - split; [auto|]. intros n i o k [I|[]]. discriminate I.
  - split; [destruct (handle_ctr E i w w' r L K G H) as [X|[X _]]; auto|].
    intros n j o k I U. destruct (adds_in _ _ _ _ A I) as [Q Z]. injection Q as <-. specialize (Z _ _ _ eq_refl).
    destruct r as [o'|]; [|discriminate Z]. injection Z as ->. eapply counter_entry; eauto.
  - split; [left; eapply waits_ctr; eauto|]. intros n j o k I _.
    destruct (adds_in _ _ _ _ A I) as [_ Z]. discriminate (Z _ _ _ eq_refl).
  - split; [destruct (answers_ctr E w p w' r H) as [X|[X _]]; auto|].
    intros n j o k I U. destruct (adds_in _ _ _ _ A I) as [Q Z]. injection Q as <-. specialize (Z _ _ _ eq_refl).
    destruct r as [b|]; [|discriminate Z]. injection Z as <-.
    destruct U as (msg & r & q & sig & Q & NI & R & B). injection Q as -> ->. subst r.
    destruct p as [a rp f|a f s|d chal app h|k0 chal app]; cbn [sane] in S.
    + destruct S as ((? & Q & _) & _). discriminate Q.
    + destruct S as ((? & Q & _) & _). discriminate Q.
    + destruct S as ((? & Q & N1) & _). injection Q as <-. congruence.
    + remember (Ok (authentication_reply q k sig)) as r0 eqn:R0. remember (PAuthenticate k0 chal app) as p0 eqn:P0.
      destruct H; try discriminate P0.
      * exfalso. apply Ok_inj in R0. revert R0. apply short_reply. cbn. lia.
      * apply Ok_inj in R0. apply reply_counter in R0; auto; [|apply (co_ctr E _ K)]. subst k. auto.
Qed.

Definition octr (E : Env) (h : list oentry) (up : bool) (w : world) : Prop :=
  ((up = true -> cl_ctr (w_client w) <= len h + 1) /\ forall c, saved_client E w c -> cl_ctr c <= len h + 1) /\
  (len h < 4294967295 ->
   (forall h1 n i o h2 k, h = h1 ++ ODone n i o :: h2 -> no_ostart h2 -> u2f_counter (HDone i o) k ->
     up = true -> k < cl_ctr (w_client w)) /\
   (forall h1 n i o h2 n' i' o' h3 k k', h = h1 ++ ODone n i o :: h2 ++ ODone n' i' o' :: h3 -> no_ostart h2 ->
     u2f_counter (HDone i o) k -> u2f_counter (HDone i' o') k' -> k < k')).

Lemma snoc_split {A} (h es h1 h2 h3 h4 : list A) e e' : h ++ es = h1 ++ e :: h2 -> h2 = h3 ++ e' :: h4 ->
  (exists k, h = h1 ++ e :: h3 ++ e' :: k) \/ (exists k, h = h1 ++ e :: k /\ In e' es /\ exists k', h3 = k ++ k') \/
  (In e es /\ In e' es /\ exists a b, es = a ++ e :: h3 ++ e' :: b).
Proof.
  intros Q ->. apply app_cases in Q as [(k & -> & Q)|(k & -> & ->)].
  - symmetry in Q. apply app_cases in Q as [(k' & -> & ->)|(k' & -> & ->)]; [left; eauto|].
    right. left. exists k. split; [reflexivity|]. split; [apply in_elt|eauto].
  - right. right. split; [apply in_elt|]. split; [apply in_app_iff; right; right; apply in_elt|]. eauto.
Qed.

Lemma adds_one es i oo n j o n' j' o' a h b : adds es i oo -> es = a ++ ODone n j o :: h ++ ODone n' j' o' :: b -> False.
Proof.
  intros (m & x & [-> |[-> | ->]] & X) Q.
  - destruct a as [|? [|]]; discriminate Q.
  - destruct a as [|? [|? [|]]]; try discriminate Q. destruct h; discriminate Q.
  - destruct a as [|? [|]]; try discriminate Q. destruct h; discriminate Q.
Qed.

Lemma no_ostart_app a b : no_ostart (a ++ b) -> no_ostart a.
Proof. intros H p I. apply (H p), in_app_iff. now left. Qed.

Lemma octr_moves E h w w' es : env_ok E -> client_ok E (w_client w) -> moves E w w' es -> octr E h true w -> es <> [] ->
  cl_ctr (w_client w') <= len h + 2 /\ (forall c evs rest, w_trace w' = w_trace w ++ evs ++ rest ->
     saved_client E {| w_client := w_client w'; w_tick := w_tick w'; w_trace := w_trace w ++ evs |} c -> cl_ctr c <= len h + 2) /\
  (len (h ++ es) < 4294967295 ->
   (forall h1 n i o h2 k, h ++ es = h1 ++ ODone n i o :: h2 -> no_ostart h2 -> u2f_counter (HDone i o) k -> k < cl_ctr (w_client w')) /\
   (forall h1 n i o h2 n' i' o' h3 k k', h ++ es = h1 ++ ODone n i o :: h2 ++ ODone n' i' o' :: h3 -> no_ostart h2 ->
     u2f_counter (HDone i o) k -> u2f_counter (HDone i' o') k' -> k < k')).
Proof.
  intros L K M [[B1 B2] IH] NE. specialize (B1 eq_refl). destruct (moves_ctr E w w' es L K M) as [CT AN].
  assert (B3 : cl_ctr (w_client w') <= len h + 2).
  { destruct CT as [-> | ->]; [lia|]. pose proof (N.mod_le (cl_ctr (w_client w) + 1) 4294967296 ltac:(lia)). lia. }
  split; [assumption|]. split.
  { intros c evs rest T SC. destruct (moves_step E w w' es L K M) as (i & SO).
    destruct (saved_step E i w w' evs rest c SO T SC) as [[_ Y]|(_ & _ & _ & Y & _)]; [apply B2 in Y; lia|]. now rewrite Y. }
  intros LH. rewrite len_app in LH.
  assert (LES : 1 <= len es) by (destruct es; [congruence|unfold len; cbn [length]; lia]).
  destruct IH as [IH1 IH2]; [lia|].
  assert (UPW : forall m, m < cl_ctr (w_client w) -> m < cl_ctr (w_client w')).
  { intros m X. destruct CT as [-> | ->]; [assumption|]. rewrite N.mod_small; lia. }
  split.
  - intros h1 n i o h2 k Q NS U. apply app_cases in Q as [(k' & -> & ->)|(k' & -> & ->)].
    + apply UPW. eapply IH1; eauto. eapply no_ostart_app; eauto.
    + destruct (AN n i o k (in_elt _ _ _) U) as [-> ->]. rewrite N.mod_small; lia.
  - intros h1 n i o h2 n' i' o' h3 k k' Q NS U U'.
    destruct (snoc_split _ _ _ _ _ _ _ _ Q eq_refl) as [(m & Q3)|[(m & Q3 & I & m' & Q4)|(_ & _ & a & b & Q3)]].
    + exact (IH2 _ _ _ _ _ _ _ _ _ _ _ Q3 NS U U').
    + rewrite Q4 in NS. apply no_ostart_app in NS. destruct (AN n' i' o' k' I U') as [-> _]. exact (IH1 _ _ _ _ _ _ Q3 NS U eq_refl).
    + exfalso. destruct (moves_adds _ _ _ _ M) as [-> |(j & oo & A)]; [|eapply adds_one; eauto].
      destruct a as [|? [|]]; discriminate Q3.
Qed.

Lemma moves_ne E w w' es : moves E w w' es -> es <> [].
Proof.
  intro M. apply moves_adds in M as [-> |(i & oo & n & x & [-> |[-> | ->]] & _)]; discriminate.
Qed.

Lemma octr_ok E h l w : env_ok E -> ohistory E h l w -> ostarts_ok E h -> octr E h (match l with Some _ => true | None => false end) w.
Proof.
  intros L. apply (ohistory_rec E (octr E) L); clear h l w.
  - intros c t. split; [split; [discriminate|intros c0 (d & A & _); discriminate A]|]. intros _.
    split; [intros h1 n i o h2 k Q|intros h1 n i o h2 n' i' o' h3 k k' Q]; destruct h1; discriminate Q.
  - intros h w p w' H [[_ B2] IH] P S (V & D). destruct (start_live E p w w' _ V L P D S) as (_ & _ & T & _ & _ & X).
    assert (B3 : forall c, saved_client E w' c -> cl_ctr c <= len h + 1).
    { intros c (d & A & B). apply B2. exists d. now rewrite <- T. }
    unfold octr. rewrite len_snoc in *. split.
    + split; [intros _|intros c X0; apply B3 in X0; lia]. destruct (saved_in (w_trace w)) as [d|] eqn:SD.
      * destruct X as (c & A & _ & _ & _ & _ & -> & _). specialize (B2 c). assert (saved_client E w c) by (exists d; auto).
        apply B2 in H0. lia.
      * destruct X as (_ & _ & -> & _). lia.
    + intros LH. destruct IH as [_ IH]; [lia|]. split.
      * intros h1 n i o h2 k Q NS U. apply app_cases in Q as [(m & -> & ->)|(m & -> & Q)]; [exfalso; apply (NS p), in_elt|].
        destruct m as [|? [|]]; discriminate Q.
      * intros h1 n i o h2 n' i' o' h3 k k' Q NS U U'.
        destruct (snoc_split _ _ _ _ _ _ _ _ Q eq_refl) as [(m & Q3)|[(m & Q3 & [I|[]] & _)|([I|[]] & _)]]; try discriminate I.
        exact (IH _ _ _ _ _ _ _ _ _ _ _ Q3 NS U U').
  - intros h l w w' es H K IH M _. pose proof (moves_ne _ _ _ _ M) as NE.
    destruct (octr_moves E h w w' es L K M IH NE) as (A & B & C).
    assert (LES : 1 <= len es) by (destruct es; [congruence|unfold len; cbn [length]; lia]).
    unfold octr. rewrite len_app. split.
    + split; [intros _; lia|]. intros c SC. destruct (moves_step E w w' es L K M) as (i & SO).
      destruct (full_trace E i w w' SO) as (evs & T & Q). rewrite <- Q in SC. specialize (B c evs [] T SC). lia.
    + rewrite len_app in C. intros LH. destruct (C LH) as [C1 C2]. split; [intros; eapply C1; eauto|assumption].
  - intros h l w w' es evs rest H K IH M _ T. pose proof (moves_ne _ _ _ _ M) as NE.
    destruct (octr_moves E h w w' es L K M IH NE) as (A & B & C).
    assert (LES : 1 <= len es) by (destruct es; [congruence|unfold len; cbn [length]; lia]).
    unfold octr. rewrite len_app. split.
    + split; [discriminate|]. intros c SC. specialize (B c evs rest T SC). lia.
    + rewrite len_app in C. intros LH. destruct (C LH) as [C1 C2]. split; [discriminate|assumption].
Qed.

Lemma ou2f_counters E h1 n1 i1 o1 h2 n2 i2 o2 h3 l w k1 k2 : env_ok E ->
  let h := h1 ++ ODone n1 i1 o1 :: h2 ++ ODone n2 i2 o2 :: h3 in
  ohistory E h l w -> ostarts_ok E h -> no_ostart h2 -> len h < 4294967295 ->
  u2f_counter (HDone i1 o1) k1 -> u2f_counter (HDone i2 o2) k2 -> k1 < k2.
Proof.
  intros L h H ST NS LH U1 U2. destruct (octr_ok E h l w L H ST) as [_ X]. destruct (X LH) as [_ Y].
  exact (Y _ _ _ _ _ _ _ _ _ _ _ eq_refl NS U1 U2).
Qed.
