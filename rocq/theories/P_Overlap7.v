(* Guesses, approvals, the PIN gate, and the numbers of overlapping requests. *)
From Coq Require Import Permutation.
From Verif Require Import Base M_Str M_Util M_Utf8 M_Cbor M_Json M_Crypto M_Cose M_State M_Client M_Ctap M_U2f M_History M_Overlap.
From Verif Require Import S_Crypto S_Cbor S_Cose S_State S_Client S_Ctap S_CtapReq S_Pin S_U2f S_History S_Overlap.
From Verif Require Import P_Crypto P_Cbor P_Cbor2 P_Cbor3 P_Cose P_Cose2 P_State P_Client P_Ctap P_Ctap2 P_Ctap3 P_U2f P_U2f2 P_Vault P_History P_History2 P_Overlap1 P_Overlap2 P_Overlap3 P_Overlap4 P_Overlap5 P_Overlap6.

(* ------------------------------------------------------------------ *)
(* Guesses                                                             *)

Lemma answers_in_app a b : answers_in (a ++ b) = answers_in a ++ answers_in b.
Proof. unfold answers_in. now rewrite flat_map_app. Qed.

Lemma wrong_app a b : wrong_count (a ++ b) = (wrong_count a + wrong_count b)%Z.
Proof. unfold wrong_count. rewrite filter_app, app_length. lia. Qed.

Lemma adds_answers es i oo : adds es i oo -> answers_in es = [] \/ exists o, oo = Some o /\ answers_in es = [HDone i o].
Proof. intros (n & x & [-> |[-> | ->]] & [-> |[-> |(o & -> & ->)]]); cbn; eauto. Qed.

Lemma app_split2 {A} (h es h1 h2 : list A) : h ++ es = h1 ++ h2 ->
  (exists k, h = h1 ++ k /\ h2 = k ++ es) \/ exists k, es = k ++ h2.
Proof.
  revert h. induction h1 as [|a h1 IH]; intros h Q.
  - left. exists h. auto.
  - destruct h as [|b h]; cbn [app] in Q.
    + right. exists (a :: h1). exact Q.
    + injection Q as -> Q. destruct (IH h Q) as [(k & -> & ->)|(k & ->)]; [left|right]; exists k; auto.
Qed.

Lemma adds_suffix es i oo a b : adds es i oo -> es = a ++ b -> answers_in b = [] \/ answers_in b = answers_in es.
Proof.
  intros (n & x & [-> |[-> | ->]] & X) Q.
  - destruct a as [|? [|]]; try discriminate Q; cbn [app] in Q; subst; auto. injection Q as <- <-. auto.
  - destruct a as [|? [|? [|]]]; try discriminate Q; cbn [app] in Q; subst; auto; injection Q as <- <-; auto. subst. auto.
  - destruct a as [|? [|]]; try discriminate Q; cbn [app] in Q; subst; auto. injection Q as <- <-. auto.
Qed.

Lemma waits_retries E i w w' p : waits_for E i w w' p -> cl_retries (w_client w') = cl_retries (w_client w).
Proof.
  destruct p; cbn [waits_for].
  - now intros (-> & _).
  - now intros (? & ? & ? & ? & ? & _ & _ & _ & _ & _ & _ & _ & _ & _ & _ & ->).
  - now intros (? & _ & _ & _ & _ & _ & _ & ->).
  - now intros (? & ? & ? & _ & _ & _ & _ & _ & _ & _ & ->).
Qed.
Lemma answers_retries E w p w' r : answers E w p w' r -> cl_retries (w_client w') = cl_retries (w_client w).
Proof. intro H. destruct H; reflexivity. Qed.

(* Waiting requests are not PIN requests. *)
Lemma sane_guess E i p o : sane E i p -> wrong_guess (HDone i o) = false.
Proof.
  destruct p as [a rp f|a f s|d chal app h|k0 chal app]; cbn [sane].
  - intros ((x & -> & _) & _). destruct o as [[|? [|]]| |]; reflexivity.
  - intros ((x & -> & _) & _). destruct o as [[|? [|]]| |]; reflexivity.
  - intros ((x & -> & _) & _). reflexivity.
  - intros (x & -> & _). reflexivity.
Qed.

Lemma runs_inv es e : Forall runs es -> In e es -> runs e.
Proof. rewrite Forall_forall. auto. Qed.
Ltac runs_in R := exfalso; first [exact (runs_inv _ _ R (or_introl eq_refl)) | exact (runs_inv _ _ R (or_intror (or_introl eq_refl)))].

Lemma moves_retries E w w' es : env_ok E -> client_ok E (w_client w) -> moves E w w' es -> Forall runs es ->
  (forall e, In e (answers_in es) -> ~ right_pin e) ->
  (cl_retries (w_client w') + wrong_count (answers_in es) <= cl_retries (w_client w))%Z.
Proof.
  intros L K [-> ->|i r G H _ N A|i p G H A|i p r S H A] R NR.
  - runs_in R.
  - destruct r as [o|].
    + assert (Q : answers_in es = [HDone i o]).
      { destruct A as (n & x & [-> |[-> | ->]] & X); [now specialize (N n)| |].
        - destruct X as [-> |[-> |(o' & -> & Q)]]; try (runs_in R; fail).
          injection Q as <-. reflexivity.
        - destruct X as [-> |[-> |(o' & -> & Q)]]; try (runs_in R; fail).
          injection Q as <-. reflexivity. }
      rewrite Q in *. pose proof (retries_step E i w w' o L K G H (NR _ (or_introl eq_refl))) as X.
      change [HDone i o] with ([] ++ [HDone i o]). rewrite wrong_snoc. change (wrong_count []) with 0%Z. lia.
    + exfalso. destruct A as (n & x & [-> |[-> | ->]] & X); [now specialize (N n)| |].
      * destruct X as [-> |[-> |(o' & -> & Q)]]; try (runs_in R; fail). discriminate Q.
      * destruct X as [-> |[-> |(o' & -> & Q)]]; try (runs_in R; fail). discriminate Q.
  - rewrite (waits_retries _ _ _ _ _ H). destruct (adds_answers _ _ _ A) as [-> |(o & X & _)]; [|discriminate X]. cbn. lia.
  - rewrite (answers_retries _ _ _ _ _ H). destruct (adds_answers _ _ _ A) as [-> |(o & X & ->)]; [cbn; lia|].
    change [HDone i o] with ([] ++ [HDone i o]). rewrite wrong_snoc, (sane_guess _ _ _ _ S). change (wrong_count []) with 0%Z. lia.
Qed.

Lemma oguesses_limited E h1 h2 l w : env_ok E -> ohistory E (h1 ++ h2) l w -> ostarts_ok E (h1 ++ h2) ->
  no_ostart h2 -> (forall e, In e (answers_in h2) -> ~ right_pin e) ->
  (wrong_count (answers_in h2) <= 8)%Z /\ (l <> None -> wrong_count (answers_in h2) + cl_retries (w_client w) <= 8)%Z.
Proof.
  intros L H ST NS NR.
  assert (X : forall h1' h2', h1 ++ h2 = h1' ++ h2' -> no_ostart h2' -> (forall e, In e (answers_in h2') -> ~ right_pin e) ->
    (wrong_count (answers_in h2') <= 8)%Z /\
    ((match l with Some _ => true | None => false end) = true -> wrong_count (answers_in h2') + cl_retries (w_client w) <= 8)%Z).
  { revert H ST. generalize (h1 ++ h2). intro h.
    apply (ohistory_rec E (fun h up w => forall h1' h2', h = h1' ++ h2' -> no_ostart h2' -> (forall e, In e (answers_in h2') -> ~ right_pin e) ->
      (wrong_count (answers_in h2') <= 8)%Z /\ (up = true -> wrong_count (answers_in h2') + cl_retries (w_client w) <= 8)%Z) L);
      clear h l w h1 h2 NS NR.
    - intros c t h1 h2 Q _ _. symmetry in Q. apply app_eq_nil in Q as [-> ->]. split; [cbn; lia|discriminate].
    - intros h w p w' H IH P S (V & D) h1 h2 Q NS NR. destruct (start_live E p w w' _ V L P D S) as (_ & _ & _ & _ & RT & _).
      destruct h2 as [|e h2] using rev_ind; [split; [cbn; lia|intros _; cbn; lia]|].
      rewrite app_assoc in Q. apply app_inj_tail in Q as [_ <-]. exfalso. apply (NS p), in_elt.
    - intros h l w w' es H K IH M R h1 h2 Q NS NR. destruct (moves_step E w w' es L K M) as (i & K' & _).
      pose proof (co_retries E _ K') as B.
      assert (Z : (exists k, h = h1 ++ k /\ h2 = k ++ es) \/ exists k, es = k ++ h2).
      { exact (app_split2 _ _ _ _ Q). }
      destruct Z as [(k & -> & ->)|(k & ->)].
      + rewrite answers_in_app in *. destruct (IH h1 k eq_refl) as [B1 B2].
        { intros p I. apply (NS p), in_app_iff. now left. } { intros e I. apply NR, in_app_iff. now left. }
        specialize (B2 eq_refl). pose proof (moves_retries E w w' es L K M R ltac:(intros e I; apply NR, in_app_iff; now right)).
        rewrite wrong_app. split; lia.
      + assert (Z : answers_in h2 = [] \/ answers_in h2 = answers_in (k ++ h2)).
        { destruct (moves_adds _ _ _ _ M) as [X|(j & oo & A)]; [|eapply adds_suffix; eauto].
          rewrite X in R. runs_in R. }
        destruct Z as [-> |Z]; [cbn; split; lia|].
        rewrite Z in *. pose proof (moves_retries E w w' (k ++ h2) L K M R NR). pose proof (co_retries E _ K).
        split; lia.
    - intros h l w w' es evs rest H K IH M ND T h1 h2 Q NS NR.
      assert (AE : forall x y, es = x ++ y -> answers_in y = []).
      { intros x y ->. destruct (answers_in y) as [|e z] eqn:Y; [reflexivity|]. exfalso.
        assert (I : In e (answers_in y)) by (rewrite Y; now left). apply in_flat_map in I as (f & I & J).
        destruct f as [p|p|n i|n i o|n i|n i|]; try (destruct J; fail). apply (ND n i o), in_app_iff. now right. }
      assert (Z : (exists k, h = h1 ++ k /\ h2 = k ++ es) \/ exists k, es = k ++ h2).
      { exact (app_split2 _ _ _ _ Q). }
      destruct Z as [(k & -> & ->)|(k & ->)].
      + rewrite answers_in_app in *. destruct (IH h1 k eq_refl) as [B1 B2].
        { intros p I. apply (NS p), in_app_iff. now left. } { intros e I. apply NR, in_app_iff. now left. }
        rewrite wrong_app, (AE [] es eq_refl). cbn. split; [lia|discriminate].
      + rewrite (AE k h2 eq_refl). cbn. split; [lia|discriminate]. }
  destruct (X h1 h2 eq_refl NS NR) as [A B]. split; [assumption|]. destruct l; [auto|congruence].
Qed.

(* ------------------------------------------------------------------ *)
(* One approval for each answer                                        *)

Lemma approved_app a x y : approved a (x ++ y) = (approved a x + approved a y)%nat.
Proof. unfold approved. now rewrite filter_app, app_length. Qed.
Lemma said_app a x y : said_yes a (x ++ y) = (said_yes a x + said_yes a y)%nat.
Proof. unfold said_yes. now rewrite filter_app, app_length. Qed.

Lemma adds_approved a es i oo : adds es i oo -> approved a es = 0%nat \/ exists o, oo = Some o /\
  approved a es = (if needs_yes a i o then 1 else 0)%nat.
Proof.
  intros (n & x & [-> |[-> | ->]] & [-> |[-> |(o & -> & ->)]]); unfold approved; cbn [filter length]; auto;
    right; exists o; (split; [reflexivity|]); destruct (needs_yes a i o); reflexivity.
Qed.

Lemma decode_p1 msg h req le : decode_u2f msg = Ok (h, req, le) -> nth_error msg 2 = Some (uh_p1 h).
Proof.
  unfold decode_u2f. destruct msg as [|a [|b [|c [|d buf]]]]; try discriminate. intro H. cbn.
  destruct buf as [|x y] eqn:Y. { injection H as <- _ _. reflexivity. }
  rewrite <- Y in *. destruct (read_buf 1 buf) as [[z r]|]; [|discriminate]. cbn [rbind] in H.
  destruct z as [|[|q] z']; try discriminate.
  destruct (read_be 2 r) as [[n r2]|]; [|discriminate]. cbn [rbind] in H.
  destruct r2 as [|x2 y2] eqn:Y2. { injection H as <- _ _. reflexivity. }
  rewrite <- Y2 in *. destruct (read_buf n r2) as [[q r3]|]; [|discriminate]. cbn [rbind] in H.
  destruct r3 as [|x3 y3] eqn:Y3. { injection H as <- _ _. reflexivity. }
  rewrite <- Y3 in *. destruct (read_be 2 r3) as [[m r4]|]; [|discriminate]. cbn [rbind] in H. injection H as <- _ _. reflexivity.
Qed.

(* The needs of an answer, as conditions. *)
Lemma needs_yes_iff a i o : needs_yes a i o = true ->
  match a with
  | ActMakeCredential => exists d b, i = ICtap (1 :: d) /\ o = OBytes (0 :: b)
  | ActGetAssertion => exists d b g, i = ICtap (2 :: d) /\ o = OBytes (0 :: b) /\ unmarshal dec_ga d = Some g /\ wants_up g = true
  | ActU2FRegister => exists m r, i = IU2f m /\ o = OBytes r /\ nth_error m 1 = Some 1 /\ len r <> 2
  | ActU2FAuthenticate => exists m r, i = IU2f m /\ o = OBytes r /\ nth_error m 1 = Some 2 /\ nth_error m 2 = Some 3 /\ len r <> 2
  end.
Proof.
  assert (Z : forall r : bytes, negb (len r =? 2) = true -> len r <> 2).
  { intros r H. apply negb_true_iff, N.eqb_neq in H. exact H. }
  intro H. destruct a; destruct i as [m|m|b|p|id]; try discriminate H; cbn [needs_yes] in H.
  - destruct m as [|x [|[|[p|p|]] m]]; try discriminate H. destruct o; try discriminate H. eauto 10.
  - destruct m as [|x [|[|[p|[p|p|]|]] m]]; try discriminate H.
    destruct m as [|[|[[p|p|]|p|]] m]; try discriminate H. destruct o; try discriminate H. eauto 10.
  - destruct m as [|[|[p|p|]] m]; try discriminate H. destruct o as [[|[|p] r]| |]; try discriminate H. eauto 10.
  - destruct m as [|[|[p|[p|p|]|]] m]; try discriminate H. destruct o as [[|[|p] r]| |]; try discriminate H.
    destruct (unmarshal dec_ga m) as [g|] eqn:U; [|discriminate H]. exists m, r, g. unfold wants_up.
    destruct (op_up (ga_options g)) as [[|]|]; try discriminate H; auto.
Qed.

(* An answer given at once needs none. *)
Lemma quick_no_yes E a i w w' o : begin E i w = (w', Ok (inl o)) -> needs_yes a i o = false.
Proof.
  intro B. destruct (needs_yes a i o) eqn:N; [|reflexivity]. exfalso. apply needs_yes_iff in N. destruct a.
  - destruct N as (m & r & -> & -> & N1 & N2). cbn [begin] in B. unfold fmapM, bind at 1 in B.
    destruct (u2f_begin E m w) as [w1 [[r1|p1]|]] eqn:X; try discriminate B. injection B as -> ->.
    unfold u2f_begin in X. unfold bind at 1 in X. unfold lift at 1 in X.
    destruct (decode_u2f m) as [[[h req] le]|] eqn:D; [|discriminate X]. rewrite (decode_ins _ _ _ _ D) in N1. injection N1 as N1.
    rewrite N1 in X. change (1 =? 3) with false in X. change (1 =? 1) with true in X. cbn iota in X.
    unfold register_begin in X. destruct (len req =? 64); [|discriminate X].
    unfold new_scalar, bind, tick, ret in X.
    match type of X with context [seal_handle E ?k ?v] => destruct (seal_handle E k v) as [w2 [hd|]] end; discriminate X.
  - destruct N as (m & r & -> & -> & N1 & N3 & N2). cbn [begin] in B. unfold fmapM, bind at 1 in B.
    destruct (u2f_begin E m w) as [w1 [[r1|p1]|]] eqn:X; try discriminate B. injection B as -> ->.
    unfold u2f_begin in X. unfold bind at 1 in X. unfold lift at 1 in X.
    destruct (decode_u2f m) as [[[h req] le]|] eqn:D; [|discriminate X]. rewrite (decode_ins _ _ _ _ D) in N1. injection N1 as N1.
    rewrite (decode_p1 _ _ _ _ D) in N3. injection N3 as N3.
    rewrite N1, N3 in X. change (2 =? 3) with false in X. change (2 =? 1) with false in X. change (2 =? 2) with true in X. cbn iota in X.
    unfold auth_begin in X. fold (auth_parse req) in X. unfold bind at 1 in X. unfold lift at 1 in X.
    destruct (auth_parse req) as [[[chal app] hd]|]; [|discriminate X]. rewrite get_bind in X. unfold bind at 1 in X. unfold lift at 1 in X.
    destruct (open_handle E (cl_key (w_client w)) hd) as [[[[kb|] ap]|]|]; cbn [kh_key kh_app] in X; try discriminate X;
      try (injection X as _ <-; now apply N2).
    destruct (bytes_eqb (or_nil ap) app); [|injection X as _ <-; now apply N2].
    destruct (ec_parse (e_C E) kb) as [k|]; [|discriminate X]. change (3 =? 7) with false in X. change (3 =? 3) with true in X.
    discriminate X.
  - destruct N as (d & b & -> & ->). exact (quick_not_registered E d w w' b B).
  - destruct N as (d & b & g & -> & -> & U & UP). cbn [begin ctap_begin] in B. change (2 =? 1) with false in B.
    change (2 =? 4) with false in B. change (2 =? 2) with true in B. cbn iota in B. unfold fmapM, bind at 1 in B.
    destruct (ga_begin E d w) as [w1 [[r|p]|]] eqn:X; try discriminate B. injection B as -> ->.
    unfold ga_begin in X. rewrite U, get_bind in X. cbv zeta in X.
    change (if cl_pin (w_client w) then _ else _) with (ga_check (e_C E) (w_client w) g) in X.
    destruct (ga_check (e_C E) (w_client w) g) as [f|e] eqn:CK.
    2:{ injection X as _ ->. unfold ga_check in CK. destruct (cl_pin _); [|discriminate CK]. destruct (ga_auth g); [|discriminate CK].
        destruct (_ =? 1); [destruct (bytes_eqb _ _)|]; discriminate CK. }
    unfold bind at 1 in X. destruct (get_assertion_source E (ga_rp g) (ga_allow g) w) as [w2 [[s|]|]]; try discriminate X.
    unfold wants_up in UP. destruct (op_up (ga_options g)) as [[|]|]; discriminate.
Qed.

Lemma answers_yes E a i p w w' b : sane E i p -> answers E w p w' (Ok b) -> needs_yes a i (OBytes b) = true ->
  exists evs, w_trace w' = w_trace w ++ evs /\ (1 <= said_yes a evs)%nat.
Proof.
  intros S H N. apply needs_yes_iff in N. destruct p as [x rp f|x f s|d chal app h|k chal app]; cbn [sane] in S.
  - destruct S as ((d & -> & _) & _). destruct a.
    + destruct N as (? & ? & Q & _). discriminate Q.
    + destruct N as (? & ? & Q & _). discriminate Q.
    + destruct N as (d' & b' & _ & Q). injection Q as ->. apply create_answer in H as (u & dd & cert & H). cbv zeta in H.
      destruct H as (_ & _ & _ & _ & -> & _). eexists. split; [reflexivity|]. cbn. lia.
    + destruct N as (? & ? & ? & Q & _). discriminate Q.
  - destruct S as ((d & -> & _) & _). destruct a.
    + destruct N as (? & ? & Q & _). discriminate Q.
    + destruct N as (? & ? & Q & _). discriminate Q.
    + destruct N as (? & ? & Q & _). discriminate Q.
    + destruct N as (d' & b' & g & _ & Q & _). injection Q as ->. apply login_answer in H as (k & H). cbv zeta in H.
      destruct H as (_ & _ & -> & _). eexists. split; [reflexivity|]. cbn. lia.
  - destruct S as ((msg & -> & N1) & _). destruct a.
    + destruct N as (m & r & _ & Q & _ & N2). injection Q as ->.
      remember (Ok r) as r0 eqn:R0. remember (PRegister d chal app h) as p0 eqn:P0. destruct H; try discriminate P0.
      subst r0. eexists. split; [reflexivity|]. destruct ok; [cbn; lia|]. exfalso. apply N2. now rewrite (H0 r eq_refl eq_refl).
    + destruct N as (m & r & Q & _ & Q1 & _). injection Q as <-. congruence.
    + destruct N as (? & ? & Q & _). discriminate Q.
    + destruct N as (? & ? & ? & Q & _). discriminate Q.
  - destruct S as (msg & -> & N1). destruct a.
    + destruct N as (m & r & Q & _ & Q1 & _). injection Q as <-. congruence.
    + destruct N as (m & r & _ & Q & _ & _ & N2). injection Q as ->.
      remember (Ok r) as r0 eqn:R0. remember (PAuthenticate k chal app) as p0 eqn:P0. destruct H; try discriminate P0.
      * exfalso. apply Ok_inj in R0. subst r. now apply N2.
      * eexists. split; [reflexivity|]. cbn. lia.
    + destruct N as (? & ? & Q & _). discriminate Q.
    + destruct N as (? & ? & ? & Q & _). discriminate Q.
Qed.

Lemma step_evs E i w w' : step_ok E i w w' -> exists evs, w_trace w' = w_trace w ++ evs.
Proof. intros (_ & _ & _ & _ & es & Ev & _). exists es. exact Ev. Qed.

Lemma moves_yes E a w w' es : env_ok E -> client_ok E (w_client w) -> moves E w w' es ->
  exists evs, w_trace w' = w_trace w ++ evs /\ (approved a es <= said_yes a evs)%nat.
Proof.
  intros L K M. destruct (moves_step E w w' es L K M) as (j & SO). destruct (step_evs _ _ _ _ SO) as (evs & T).
  destruct M as [-> ->|i r G H B _ A|i p G H A|i p r S H A].
  - exists []. rewrite app_nil_r. split; [reflexivity|]. cbn. lia.
  - exists evs. split; [assumption|]. destruct (adds_approved a _ _ _ A) as [-> |(o & Q & ->)]; [lia|].
    destruct r as [o'|]; [|discriminate Q]. injection Q as ->. rewrite (quick_no_yes E a i w w' o (B o eq_refl)). lia.
  - exists evs. split; [assumption|]. destruct (adds_approved a _ _ _ A) as [-> |(o & Q & _)]; [lia|discriminate Q].
  - destruct (adds_approved a _ _ _ A) as [-> |(o & Q & ->)]; [exists evs; split; [assumption|lia]|].
    destruct r as [b|]; [|discriminate Q]. injection Q as <-. destruct (needs_yes a i (OBytes b)) eqn:N.
    + destruct (answers_yes E a i p w w' b S H N) as (evs' & T' & X). exists evs'. auto.
    + exists evs. split; [assumption|lia].
Qed.

Lemma oapproved E a h l w : env_ok E -> ohistory E h l w -> ostarts_ok E h -> (approved a h <= said_yes a (w_trace w))%nat.
Proof.
  intro L. apply (ohistory_rec E (fun h _ w => (approved a h <= said_yes a (w_trace w))%nat) L); clear h l w.
  - intros c t. cbn. lia.
  - intros h w p w' H IH P S (V & D). destruct (start_live E p w w' _ V L P D S) as (_ & _ & T & _). rewrite T, approved_app. cbn. lia.
  - intros h l w w' es H K IH M _. destruct (moves_yes E a w w' es L K M) as (evs & -> & X). rewrite approved_app, said_app. lia.
  - intros h l w w' es evs rest H K IH M ND T. cbn [w_trace]. rewrite approved_app, said_app.
    assert (Z : approved a es = 0%nat).
    { unfold approved. assert (F : filter (fun e => match e with ODone _ i o => needs_yes a i o | _ => false end) es = []).
      { clear - ND. induction es as [|e es IH]; [reflexivity|]. cbn [filter].
        assert (IH' : filter (fun e => match e with ODone _ i o => needs_yes a i o | _ => false end) es = []).
        { apply IH. intros n i o I. apply (ND n i o). now right. }
        destruct e; try exact IH'. exfalso. eapply ND. now left. }
      now rewrite F. }
    lia.
Qed.

(* ------------------------------------------------------------------ *)
(* The PIN gate of registrations                                       *)

Lemma ogate E h1 n d b h2 l w : env_ok E ->
  let h := h1 ++ ODone n (ICtap (1 :: d)) (OBytes (0 :: b)) :: h2 in
  ohistory E h l w -> ostarts_ok E h ->
  exists h0 k l0 w0 a, h1 = h0 ++ OBegin n (ICtap (1 :: d)) :: k /\ ohistory E h0 (Some l0) w0 /\ unmarshal dec_mc d = Some a /\
    (cl_pin (w_client w0) = true ->
     mc_verified (e_C E) (w_client w0) a \/ (mc_auth a = None /\ cl_hash (w_client w0) = None)).
Proof.
  intros L h H ST. destruct (done_at E h l w L H ST _ _ _ _ _ eq_refl) as (w1 & A & _).
  assert (ST1 : ostarts_ok E h1) by (eapply ostarts_app; exact ST).
  destruct A as [(l1 & x & l2 & w2 & r & H2 & -> & QI & _ & _)|(h0 & l0 & w0 & _ & _ & _ & _ & B)].
  2:{ exfalso. exact (quick_not_registered E d w0 w1 b B). }
  pose proof (waiting_began E _ _ _ H2 _ eq_refl) as F. rewrite Forall_forall in F.
  destruct (F x (in_elt _ _ _)) as (h0 & k & p & Q & (N & G & l0 & w0 & w0' & H0 & B) & SR).
  assert (ST0 : ostarts_ok E h0) by (rewrite Q in ST1; eapply ostarts_app; exact ST1).
  destruct (ohistory_inv E _ _ _ L H0 ST0) as (V & _ & LV & _). destruct (LV _ eq_refl) as (K & _).
  pose proof (begin_wait E _ w0 w0' p L K G B) as WF. rewrite <- QI in *.
  pose proof (waits_sane E _ w0 w0' p L K G WF) as SN. destruct (sane_create _ _ _ SN) as (a & rp & f & ->).
  destruct WF as (_ & d' & Qd & U & _ & CK & _). injection Qd as <-.
  exists h0, k, l0, w0, a. split; [assumption|]. split; [assumption|]. split; [assumption|]. intro P.
  apply mc_check_ok in CK as [[_ X]|(_ & _ & X)]; auto.
Qed.

(* ------------------------------------------------------------------ *)
(* The numbers                                                         *)

Lemma numbers_app a b : answered_numbers (a ++ b) = answered_numbers a ++ answered_numbers b.
Proof. unfold answered_numbers. now rewrite flat_map_app. Qed.

Lemma refreshed_nos w l : map wt_no (refreshed w l) = map wt_no l.
Proof. unfold refreshed. rewrite map_map. reflexivity. Qed.

Lemma nodup_left {A} (a b : list A) : NoDup (a ++ b) -> NoDup a.
Proof.
  induction a as [|x a IH]; cbn [app]; intro H; [constructor|]. inversion H; subst. constructor; auto.
  intro I. apply H2, in_app_iff. now left.
Qed.

Definition numbers_ok (h : list oentry) (l : list waiting) : Prop :=
  NoDup (answered_numbers h ++ map wt_no l) /\ forall n, In n (answered_numbers h ++ map wt_no l) -> (n < length h)%nat.

Lemma onumbers_inv E h l w : ohistory E h l w -> numbers_ok h (match l with Some l => l | None => [] end).
Proof.
  assert (SUB : forall h l es, numbers_ok h l -> answered_numbers es = [] -> numbers_ok (h ++ es) []).
  { intros h0 l0 es [A B] Q. unfold numbers_ok. rewrite numbers_app, Q, app_nil_r, app_length. cbn [map]. rewrite app_nil_r.
    split; [now apply nodup_left in A|]. intros n I. assert (n < length h0)%nat by (apply B, in_app_iff; now left). lia. }
  assert (ADD : forall h l n es, numbers_ok h l -> (length h <= n)%nat -> (n < length (h ++ es))%nat -> answered_numbers es = [n] ->
    numbers_ok (h ++ es) l).
  { intros h0 l0 n es [A B] N1 N2 Q. unfold numbers_ok. rewrite numbers_app, Q, <- app_assoc. cbn [app]. split.
    - apply NoDup_Add with (a := n) (l := answered_numbers h0 ++ map wt_no l0); [apply Add_app|]. split; [assumption|].
      intro I. apply B in I. lia.
    - intros m I. rewrite app_length in *. apply in_app_iff in I as [I|[<-|I]]; [|lia|];
        assert (m < length h0)%nat by (apply B, in_app_iff; auto); lia. }
  assert (MOVE : forall h l1 x l2 i o w, numbers_ok h (l1 ++ x :: l2) -> numbers_ok (h ++ [ODone (wt_no x) i o]) (refreshed w (l1 ++ l2))).
  { intros h0 l1 x l2 i o w0 [A B]. unfold numbers_ok. rewrite numbers_app, refreshed_nos. cbn [answered_numbers flat_map app].
    assert (P : Permutation (answered_numbers h0 ++ map wt_no (l1 ++ x :: l2)) ((answered_numbers h0 ++ [wt_no x]) ++ map wt_no (l1 ++ l2))).
    { rewrite <- app_assoc. apply Permutation_app_head. rewrite !map_app. cbn [map app]. symmetry. apply Permutation_middle. }
    split; [eapply Permutation_NoDup; eauto|]. intros n I. apply (Permutation_in n (Permutation_sym P)) in I. apply B in I.
    rewrite app_length. lia. }
  intro H. induction H as [c t|h w p w' H IH S|h w p w' H IH S|h l w i w' p H IH G S|h l w i w' o H IH G S|
    h l1 x l2 w w' r H IH S|h l w i w' H IH G S|h l1 x l2 w w' H IH S|h l w i w' r es rest H IH G S T|
    h l1 x l2 w w' r es rest H IH S T|h l w H IH]; try (eapply SUB; eauto; fail).
  - split; [constructor|intros n []].
  - destruct IH as [A B]. unfold numbers_ok. rewrite numbers_app, map_app, refreshed_nos, app_length. cbn [answered_numbers flat_map map app wt_no length].
    rewrite app_nil_r, app_assoc. split.
    + apply NoDup_Add with (a := length h) (l := answered_numbers h ++ map wt_no l); [rewrite <- (app_nil_r (answered_numbers h ++ map wt_no l)) at 1; apply Add_app|].
      split; [assumption|]. intro I. apply B in I. lia.
    + intros n I. apply in_app_iff in I as [I|[<-|[]]]; [apply B in I; lia|lia].
  - eapply ADD with (n := length h); [|lia|rewrite app_length; cbn; lia|reflexivity].
    destruct IH as [A B]. unfold numbers_ok. now rewrite refreshed_nos.
  - now apply MOVE.
Qed.

(* Every answer is to a request that came before, and none is answered twice. *)
Lemma onumbers E h l w : env_ok E -> ohistory E h l w -> ostarts_ok E h -> NoDup (answered_numbers h) /\
  forall h1 n i o h2, h = h1 ++ ODone n i o :: h2 -> exists a b, h1 = a ++ OBegin n i :: b /\ length a = n.
Proof.
  intros L H ST. split.
  - destruct (onumbers_inv E h l w H) as [A _]. now apply nodup_left in A.
  - intros h1 n i o h2 Q. destruct (done_at E h l w L H ST _ _ _ _ _ Q) as (w1 & A & _).
    destruct A as [(l1 & x & l2 & w2 & r & H2 & -> & -> & _ & _)|(h0 & l0 & w0 & -> & -> & _ & _ & _)].
    + pose proof (waiting_began E _ _ _ H2 _ eq_refl) as F. rewrite Forall_forall in F.
      destruct (F x (in_elt _ _ _)) as (h0 & k & p & -> & (N & _) & _). exists h0, k. auto.
    + exists h0, []. auto.
Qed.

(* ------------------------------------------------------------------ *)
(* Requests one after the other                                        *)

Lemma serial_there E h o up w : serial h o -> history E h up w -> ohistory E o (if up then Some [] else None) w.
Proof.
  intro S. revert up w. induction S as [|h o p S IH|h o p S IH|h o i r S IH|h o i S IH]; intros up w H.
  - inversion H as [c t Q1 Q2 Q3| | | | |]; subst; try (destruct h; discriminate). constructor.
  - apply history_last in H as (up0 & w0 & H & _ & -> & -> & X). apply IH in H. cbn in H. econstructor; eauto.
  - apply history_last in H as (up0 & w0 & H & _ & -> & -> & X). apply IH in H. cbn in H. eapply O_start_failed; eauto.
  - apply history_last in H as (up0 & w0 & H & _ & -> & -> & G & X). apply IH in H. cbn in H.
    rewrite handle_split in X. unfold bind in X. destruct (begin E i w0) as [w1 [[r'|p]|]] eqn:B; [| |discriminate X].
    + cbn in X. injection X as <- <-. change (@nil waiting) with (refreshed w1 []). eapply O_quick; eauto.
    + cbn [rest_out] in X. unfold fmapM, bind in X. destruct (resume E p w1) as [w2 [b|]] eqn:R; [|discriminate X]. cbn in X. injection X as <- <-.
      pose proof (O_wait E o [] w0 i w1 p H G B) as H1. cbn [refreshed map app] in H1.
      pose proof (O_resume E (o ++ [OBegin (length o) i]) [] (mk_waiting (length o) i p) [] w1 w2 b H1 R) as H2.
      rewrite <- app_assoc in H2. exact H2.
  - apply history_last in H as (up0 & w0 & H & _ & -> & -> & G & X). apply IH in H. cbn in H.
    rewrite handle_split in X. unfold bind in X. destruct (begin E i w0) as [w1 [[r'|p]|]] eqn:B; [discriminate X| |].
    + cbn [rest_out] in X. unfold fmapM, bind in X. destruct (resume E p w1) as [w2 [b|]] eqn:R; [discriminate X|]. injection X as <-.
      pose proof (O_wait E o [] w0 i w1 p H G B) as H1. cbn [refreshed map app] in H1.
      pose proof (O_panic_later E (o ++ [OBegin (length o) i]) [] (mk_waiting (length o) i p) [] w1 w2 H1 R) as H2.
      rewrite <- app_assoc in H2. exact H2.
    + injection X as <-. eapply O_panic; eauto.
Qed.

Lemma two_last {A} (h h' : list A) a b e : h ++ [e] = h' ++ [a; b] -> h = h' ++ [a] /\ e = b.
Proof. change [a; b] with ([a] ++ [b]). rewrite app_assoc. apply app_inj_tail. Qed.

Lemma olast E h e l w : ohistory E (h ++ [e]) l w ->
  match e with
  | OStart p => l = Some [] /\ exists w0, ohistory E h None w0 /\ start E p (saved_in (w_trace w0)) w0 = (w, Ok tt)
  | OStartFailed p => l = None /\ exists w0, ohistory E h None w0 /\ start E p (saved_in (w_trace w0)) w0 = (w, Panic)
  | OBegin n i => n = length h /\ exists l0 w0 p, ohistory E h (Some l0) w0 /\ good_input i /\ begin E i w0 = (w, Ok (inr p)) /\
      l = Some (refreshed w l0 ++ [mk_waiting n i p])
  | ODone n i o =>
      (exists h0 l0 w0, h = h0 ++ [OBegin n i] /\ n = length h0 /\ ohistory E h0 (Some l0) w0 /\ good_input i /\
         begin E i w0 = (w, Ok (inl o)) /\ l = Some (refreshed w l0)) \/
      (exists l1 x l2 w0 b, n = wt_no x /\ i = wt_input x /\ o = OBytes b /\ ohistory E h (Some (l1 ++ x :: l2)) w0 /\
         resume E (wt_state x) w0 = (w, Ok b) /\ l = Some (refreshed w (l1 ++ l2)))
  | OPanic n i => l = None /\
      ((exists h0 l0 w0, h = h0 ++ [OBegin n i] /\ n = length h0 /\ ohistory E h0 (Some l0) w0 /\ good_input i /\
         begin E i w0 = (w, Panic)) \/
       (exists l1 x l2 w0, n = wt_no x /\ i = wt_input x /\ ohistory E h (Some (l1 ++ x :: l2)) w0 /\
         resume E (wt_state x) w0 = (w, Panic)))
  | _ => True
  end.
Proof.
  intro H. remember (h ++ [e]) as z eqn:Q.
  destruct H; try (symmetry in Q; first [apply two_last in Q as [-> ->] | apply app_inj_tail in Q as [-> ->]]).
  - destruct h; discriminate Q.
  - split; [reflexivity|]. eauto.
  - split; [reflexivity|]. eauto.
  - split; [reflexivity|]. eauto 10.
  - left. exists h0, l, w. auto 10.
  - right. exists l1, x, l2, w, r. auto 10.
  - split; [reflexivity|]. left. exists h0, l, w. auto 10.
  - split; [reflexivity|]. right. exists l1, x, l2, w. auto 10.
  - exact I.
  - exact I.
  - exact I.
Qed.

Lemma one_waiting (l1 l2 : list waiting) x y : l1 ++ x :: l2 = [y] -> l1 = [] /\ l2 = [] /\ x = y.
Proof. destruct l1 as [|a [|]]; cbn [app]; intro H; try discriminate H. now injection H as -> ->. Qed.

Lemma serial_back E h o l w : serial h o -> ohistory E o l w ->
  exists up, history E h up w /\ l = (if up then Some [] else None).
Proof.
  intro S. revert l w. induction S as [|h o p S IH|h o p S IH|h o i r S IH|h o i S IH]; intros l w H.
  - remember [] as z eqn:Q. destruct H; try (destruct h; discriminate Q). exists false. split; [constructor|reflexivity].
  - apply olast in H as (-> & w0 & H & X). apply IH in H as (up & H & Q). destruct up; [discriminate Q|].
    exists true. split; [|reflexivity]. econstructor; eauto.
  - apply olast in H as (-> & w0 & H & X). apply IH in H as (up & H & Q). destruct up; [discriminate Q|].
    exists false. split; [|reflexivity]. eapply H_start_failed; eauto.
  - change [OBegin (length o) i; ODone (length o) i r] with ([OBegin (length o) i] ++ [ODone (length o) i r]) in H. rewrite app_assoc in H.
    apply olast in H as [(h0 & l0 & w0 & Q & _ & H & G & X & ->)|(l1 & x & l2 & w0 & b & _ & Qi & -> & H & X & ->)].
    + apply app_inj_tail in Q as [<- _]. apply IH in H as (up & H & Q). destruct up; [|discriminate Q]. injection Q as ->.
      exists true. split; [|reflexivity]. eapply H_done; eauto. now apply begin_quick.
    + apply olast in H as (_ & l0 & w1 & p & H & G & B & Q). apply IH in H as (up & H & Q'). destruct up; [|discriminate Q'].
      injection Q' as ->. cbn [refreshed map app] in Q. injection Q as Q. apply one_waiting in Q as (-> & -> & ->).
      exists true. split; [|reflexivity]. eapply H_done; eauto. rewrite handle_split. unfold bind. rewrite B. cbn [rest_out wt_state] in *.
      unfold fmapM, bind. rewrite X. reflexivity.
  - change [OBegin (length o) i; OPanic (length o) i] with ([OBegin (length o) i] ++ [OPanic (length o) i]) in H. rewrite app_assoc in H.
    apply olast in H as (-> & [(h0 & l0 & w0 & Q & _ & H & G & X)|(l1 & x & l2 & w0 & _ & Qi & H & X)]).
    + apply app_inj_tail in Q as [<- _]. apply IH in H as (up & H & Q). destruct up; [|discriminate Q].
      exists false. split; [|reflexivity]. eapply H_panic; eauto. now apply begin_panic.
    + apply olast in H as (_ & l0 & w1 & p & H & G & B & Q). apply IH in H as (up & H & Q'). destruct up; [|discriminate Q'].
      injection Q' as ->. cbn [refreshed map app] in Q. injection Q as Q. apply one_waiting in Q as (-> & -> & ->).
      exists false. split; [|reflexivity]. eapply H_panic; eauto. rewrite handle_split. unfold bind. rewrite B. cbn [rest_out wt_state] in *.
      unfold fmapM, bind. rewrite X. reflexivity.
Qed.

Lemma serial_same E h o up w : serial h o -> (history E h up w <-> ohistory E o (if up then Some [] else None) w).
Proof.
  intro S. split; [now apply serial_there|]. intro H. destruct (serial_back E h o _ w S H) as (up' & H' & Q).
  destruct up, up'; try discriminate Q; assumption.
Qed.

Lemma cut E i w : handle E i w =
  match begin E i w with
  | (w', Ok (inl o)) => (w', Ok o)
  | (w', Ok (inr p)) => let '(w2, r) := resume E p w' in (w2, match r with Ok b => Ok (OBytes b) | Panic => Panic end)
  | (w', Panic) => (w', Panic)
  end.
Proof.
  rewrite handle_split. unfold bind. destruct (begin E i w) as [w1 [[o|p]|]]; [reflexivity| |reflexivity].
  cbn [rest_out]. unfold fmapM, bind. destruct (resume E p w1) as [w2 [b|]]; reflexivity.
Qed.
