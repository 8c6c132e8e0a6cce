(* The log of the HID server. *)
From Verif Require Import Base M_Str M_Util M_Hid M_Logged M_HidLog S_HidLog.
From Coq Require Import Lia ZArith.
Open Scope N_scope.

(* ---- the functions with logs are those of M_Hid *)
Lemma new_transaction_erase m : snd (new_transaction_l m) = new_transaction m.
Proof.
  unfold new_transaction_l, new_transaction, rbind. destruct (read_le 4 m) as [(c, b)|]; [|reflexivity].
  destruct (read_le 1 b) as [(d, b')|]; [|reflexivity].
  destruct (N.land d 128 =? 0); [reflexivity|]. destruct (d =? cmd_cancel); [reflexivity|].
  destruct (read_be 2 b') as [(p, b'')|]; [|reflexivity]. now destruct (p <=? len b'').
Qed.

Lemma add_message_erase t m : snd (add_message_l t m) = add_message t m.
Proof.
  unfold add_message_l, add_message, rbind. destruct (t_done t); [reflexivity|].
  destruct (read_le 4 m) as [(c, b)|]; [|reflexivity]. destruct (t_result t) as [r|]; [|reflexivity].
  destruct (negb (c =? tr_chan r)); [reflexivity|]. destruct (read_le 1 b) as [(q, b')|]; [|reflexivity].
  destruct (q =? cmd_cancel); [reflexivity|]. destruct (negb (N.land q 128 =? 0)); [reflexivity|].
  destruct (negb (q =? tr_seq r)); [reflexivity|]. cbv zeta. now destruct (tr_plen r <=? len (tr_payload r ++ b')).
Qed.

Lemma finalized_erase {A} (h : apps A) s a ka ch r :
  snd (handle_finalized_l h s a ka ch r) = handle_finalized h s a ka ch r.
Proof.
  unfold handle_finalized_l, handle_finalized, before_l. cbn [fst snd]. destruct (ch =? hid_broadcast).
  - unfold handle_broadcast_l, handle_broadcast. destruct (tr_cmd r =? cmd_init).
    + destruct (new_channel s) as (s', id). cbv zeta. now destruct (len (tr_payload r ++ tr_spare r) <? 8).
    + now destruct (tr_cmd r =? cmd_ping).
  - unfold handle_data_l, handle_data. destruct (tr_cmd r =? cmd_msg).
    + now destruct (app_u2f h a (tr_payload r)) as (a', [q|]).
    + destruct (tr_cmd r =? cmd_cbor); [cbv zeta; now destruct (app_ctap h a (tr_payload r)) as (a', [q|])|].
      now destruct (tr_cmd r =? cmd_ping).
Qed.

Lemma handle_erase {A} (h : apps A) s a ka m : snd (hid_handle_l h s a ka m) = hid_handle h s a ka m.
Proof.
  unfold hid_handle_l, hid_handle. destruct (read_le 4 m) as [(ch, b)|]; [|reflexivity].
  destruct (chan_lookup ch (srv_channels s)) as [cur|]; [|reflexivity].
  unfold channel_handle_l, channel_handle.
  replace (match cur with Some t => add_message t m | None => new_transaction m end)
    with (snd (match cur with Some t => add_message_l t m | None => new_transaction_l m end))
    by (destruct cur; [apply add_message_erase|apply new_transaction_erase]).
  destruct (match cur with Some t => add_message_l t m | None => new_transaction_l m end) as (l, [t|]); [|reflexivity].
  cbn [snd]. destruct (t_done t); [|reflexivity].
  destruct (negb (t_error t =? 0)); [reflexivity|]. destruct (t_cancelled t); [reflexivity|].
  destruct (t_result t) as [r|]; [|reflexivity]. rewrite <- (finalized_erase h s a ka ch r).
  destruct (handle_finalized_l h s a ka ch r) as (l', o). cbn [snd]. now destruct (o_res o).
Qed.

(* the events are those of [hid_run] *)
Lemma events_run {A} (h : apps A) : forall ms s a,
  flat_map ev_out (hid_events h s a ms) = o_packets (hid_run h s a ms).
Proof.
  induction ms as [|(ka, m) r IH]; intros s a; [reflexivity|]. cbn [hid_events hid_run].
  rewrite <- (handle_erase h s a ka m). destruct (hid_handle_l h s a ka m) as (l, o). cbn [snd].
  destruct (o_res o); cbn [flat_map ev_out o_packets]; [now rewrite IH|apply app_nil_r].
Qed.

(* ---- packets determine the payload *)
Lemma pad_fit b n : (length b <= n)%nat -> pad b n = b ++ zeros (n - length b).
Proof.
  intro L. unfold pad, zeros. rewrite firstn_app. rewrite firstn_all2 by exact L. f_equal.
  replace n with ((n - length b) + length b)%nat at 2 by lia. rewrite repeat_app, firstn_app, repeat_length.
  replace (n - length b - (n - length b))%nat with 0%nat by lia. rewrite firstn_O, app_nil_r.
  apply firstn_all2. rewrite repeat_length. lia.
Qed.

Lemma rest_of_loop : forall fuel ch cmd q p, (length p <= fuel)%nat -> (0 <= q)%Z ->
  exists k, (k < 59)%nat /\ flat_map (skipn 5) (response_loop fuel ch cmd q p) = p ++ zeros k.
Proof.
  induction fuel as [|f IH]; intros ch cmd q p L Q.
  - destruct p; [|cbn in L; lia]. exists 0%nat. split; [lia|reflexivity].
  - destruct p as [|x p']; [exists 0%nat; split; [lia|reflexivity]|]. set (p := x :: p') in *.
    cbn [response_loop]. fold p. unfold p at 1. cbn iota. fold p.
    rewrite (proj2 (Z.ltb_ge q 0)) by lia. cbv zeta.
    set (hd := le 4 ch ++ [Z.to_N (q mod 256)]). assert (length hd = 5%nat) as LH by (unfold hd; rewrite app_length, le_length; reflexivity).
    assert (len hd = 5) as LH' by (unfold len; rewrite LH; reflexivity). rewrite LH'. change (hid_max_packet - 5) with 59.
    assert (N.to_nat (N.min 59 (len p)) = Nat.min 59 (length p)) as M by (unfold len; lia).
    unfold takeN, dropN. rewrite M. cbn [flat_map].
    assert (1 <= length p)%nat as LP by (unfold p; cbn; lia).
    rewrite pad_fit by (rewrite app_length, firstn_length, LH; lia).
    rewrite <- app_assoc, skipn_app, LH, Nat.sub_diag, skipn_O. rewrite skipn_all2 by lia. cbn [app].
    destruct (le_lt_dec 59 (length p)) as [B|B].
    + rewrite Nat.min_l by lia. destruct (IH ch cmd (q + 1)%Z (skipn 59 p)) as (k & K & ->); [rewrite skipn_length; lia|lia|].
      exists k. split; [exact K|]. rewrite app_length, firstn_length, LH, Nat.min_l by lia. cbn [Nat.sub zeros repeat]. rewrite app_nil_r.
      rewrite app_assoc. now rewrite firstn_skipn.
    + rewrite Nat.min_r by lia. rewrite firstn_all, skipn_all.
      exists (59 - length p)%nat. split; [lia|]. rewrite app_length, LH.
      replace (64 - (5 + length p))%nat with (59 - length p)%nat by lia. destruct f; cbn [response_loop flat_map]; now rewrite app_nil_r.
Qed.

Lemma zeros_eq a b i j : a ++ zeros i = b ++ zeros j -> length a = length b -> a = b.
Proof. intros H L. revert b L H. induction a as [|x a IH]; intros [|y b] L H; try discriminate; [reflexivity|].
  cbn in H. injection H as -> H. f_equal. apply IH; [cbn in L; lia|exact H]. Qed.

Lemma be2_len a b : be 2 a = be 2 b -> a mod 65536 = b mod 65536.
Proof.
  unfold be. intro H. apply (f_equal (@rev N)) in H. rewrite !rev_involutive in H. cbn [le] in H. injection H as H1 H2.
  change 65536 with (256 * 256). rewrite !N.mod_mul_r by lia. now rewrite H1, H2.
Qed.

Lemma first_packet ch cmd p : p <> [] -> exists k first rest, (k < 59)%nat /\
  create_response_packets ch cmd p = first :: rest /\ firstn 7 first = le 4 ch ++ le 1 cmd ++ be 2 (len p) /\
  skipn 7 first ++ flat_map (skipn 5) rest = p ++ zeros k.
Proof.
  intro NE. unfold create_response_packets. destruct p as [|x p']; [contradiction|]. set (p := x :: p') in *.
  change (length p) with (S (length p')). cbn [response_loop]. fold p. unfold p at 1. cbn iota. fold p.
  change ((-1 <? 0)%Z) with true. cbv zeta iota.
  set (hd := le 4 ch ++ le 1 cmd ++ be 2 (len p)).
  assert (length hd = 7%nat) as LH by (unfold hd; rewrite !app_length, !le_length, be_length; reflexivity).
  assert (len hd = 7) as LH' by (unfold len; rewrite LH; reflexivity). rewrite LH'. change (hid_max_packet - 7) with 57.
  assert (N.to_nat (N.min 57 (len p)) = Nat.min 57 (length p)) as M by (unfold len; lia).
  unfold takeN, dropN. rewrite M. change (-1 + 1)%Z with 0%Z.
  assert (1 <= length p)%nat as LP by (unfold p; cbn; lia).
  rewrite pad_fit by (rewrite app_length, firstn_length, LH; lia).
  destruct (rest_of_loop (length p') ch cmd 0 (skipn (Nat.min 57 (length p)) p)) as (k & K & E);
    [rewrite skipn_length; unfold p; cbn [length]; lia|lia|].
  assert (forall t, firstn 7 ((hd ++ t)) = hd) as F by (intro t; rewrite firstn_app, LH, Nat.sub_diag, firstn_O, app_nil_r; now apply firstn_all2; rewrite LH).
  assert (forall t, skipn 7 ((hd ++ t)) = t) as G by (intro t; rewrite skipn_app, LH, Nat.sub_diag, skipn_O, skipn_all2 by lia; reflexivity).
  destruct (le_lt_dec 57 (length p)) as [B|B].
  - exists k. eexists _, _. split; [exact K|]. split; [reflexivity|]. rewrite <- app_assoc. rewrite F, G. split; [reflexivity|].
    rewrite E. rewrite Nat.min_l by lia. rewrite app_length, firstn_length, LH, Nat.min_l by lia. cbn [Nat.sub zeros repeat]. rewrite app_nil_r.
    rewrite app_assoc. now rewrite firstn_skipn.
  - exists (57 - length p)%nat. eexists _, _. split; [lia|]. split; [reflexivity|]. rewrite <- app_assoc. rewrite F, G. split; [reflexivity|].
    rewrite Nat.min_r by lia. rewrite firstn_all, skipn_all. rewrite app_length, LH.
    replace (64 - (7 + length p))%nat with (57 - length p)%nat by lia.
    destruct (length p'); cbn [response_loop flat_map]; now rewrite app_nil_r.
Qed.

Lemma packets_inj ch cmd p q : create_response_packets ch cmd p = create_response_packets ch cmd q -> p = q.
Proof.
  intro H. destruct p as [|x p'].
  { destruct q as [|y q']; [reflexivity|]. destruct (first_packet ch cmd (y :: q')) as (k & f & r & _ & E & _); [discriminate|].
    rewrite E in H. discriminate. }
  destruct q as [|y q'].
  { destruct (first_packet ch cmd (x :: p')) as (k & f & r & _ & E & _); [discriminate|]. rewrite E in H. discriminate. }
  set (p := x :: p') in *. set (q := y :: q') in *.
  destruct (first_packet ch cmd p) as (k & f & r & K & E & F & S); [discriminate|].
  destruct (first_packet ch cmd q) as (k' & f' & r' & K' & E' & F' & S'); [discriminate|].
  rewrite E, E' in H. injection H as <- <-. rewrite S in S'. rewrite F in F'.
  apply app_inv_head in F'. apply app_inv_head in F'. apply be2_len in F'.
  apply (zeros_eq _ _ _ _ S'). pose proof (f_equal (@length N) S') as L. unfold zeros in L. rewrite !app_length, !repeat_length in L.
  unfold len in F'. pose proof (N.div_mod (N.of_nat (length p)) 65536). pose proof (N.div_mod (N.of_nat (length q)) 65536). lia.
Qed.

(* ---- keepalives *)
Lemma alive_packet ch : exists t, keepalive ch = [le 4 ch ++ [187; 0; 1; 2] ++ t].
Proof.
  exists (zeros 56). unfold keepalive, create_response_packets. cbn [length response_loop].
  change ((-1 <? 0)%Z) with true. cbv zeta iota.
  assert (len (le 4 ch ++ le 1 cmd_keepalive ++ be 2 (len [hid_status_upneeded])) = 7) as ->
    by (unfold len; rewrite !app_length, !le_length, be_length; reflexivity).
  change (N.min (hid_max_packet - 7) (len [hid_status_upneeded])) with 1. unfold takeN, dropN. cbn [N.to_nat Pos.to_nat Pos.iter_op Nat.add firstn skipn].
  reflexivity.
Qed.

Lemma nth4 ch x t : nth 4 (le 4 ch ++ x :: t) 0 = x.
Proof. rewrite app_nth2; rewrite le_length; [reflexivity|lia]. Qed.

Lemma first_cmd ch cmd p f r : create_response_packets ch cmd p = f :: r -> nth 4 f 0 = cmd mod 256.
Proof.
  intro H. assert (p <> []) as NE by (intros ->; discriminate).
  destruct (first_packet ch cmd p NE) as (k & f' & r' & _ & E & F & _). rewrite E in H. injection H as -> ->.
  rewrite <- (firstn_skipn 7 f), F. rewrite <- app_assoc. cbn [le app]. reflexivity.
Qed.

Lemma quiet_app a b : quiet (a ++ b) = quiet a ++ quiet b.
Proof. apply filter_app. Qed.

Lemma quiet_alive ch ka : quiet (concat (repeat (keepalive ch) ka)) = [].
Proof.
  induction ka as [|n IH]; [reflexivity|]. cbn [repeat concat]. rewrite quiet_app, IH, app_nil_r.
  destruct (alive_packet ch) as (t & ->). unfold quiet. cbn [filter app]. now rewrite nth4.
Qed.

Lemma alive_cancel ch c : forall k1 k2 p q,
  concat (repeat (keepalive ch) k1) ++ create_response_packets c cmd_cbor p =
  concat (repeat (keepalive ch) k2) ++ create_response_packets c cmd_cbor q -> p = q.
Proof.
  destruct (alive_packet ch) as (t & E). rewrite E. clear E.
  assert (forall p l, create_response_packets c cmd_cbor p <> (le 4 ch ++ [187; 0; 1; 2] ++ t) :: l) as NO.
  { intros p l H. apply first_cmd in H. cbn [app] in H. rewrite nth4 in H. discriminate. }
  induction k1 as [|k1 IH]; intros [|k2] p q H; cbn [repeat concat app] in H.
  - now apply packets_inj in H.
  - now apply NO in H.
  - symmetry in H. now apply NO in H.
  - injection H as H. eapply IH. exact H.
Qed.

(* ---- one message: two devices in the same state of the HID layer *)
Definition same {A B} (x : list entry * outcome A) (y : list entry * outcome B) : Prop :=
  o_srv (snd x) = o_srv (snd y) /\
  (o_packets (snd x) = o_packets (snd y) -> fst x = fst y) /\
  (fst x = fst y -> quiet (o_packets (snd x)) = quiet (o_packets (snd y))).

Definition okb {T} (r : res T) : bool := match r with Ok _ => true | Panic => false end.

Definition agree {A B} (x : list entry * outcome A) (y : list entry * outcome B) : Prop :=
  (okb (o_res (snd x)) = okb (o_res (snd y)) -> same x y) /\
  (fst x = fst y -> okb (o_res (snd x)) = okb (o_res (snd y))).

Lemma agree_eq {A B} l s (a : A) (b : B) ps r : agree (l, mk_outcome s a ps r) (l, mk_outcome s b ps r).
Proof. split; [intros _; split; [reflexivity|split; reflexivity]|reflexivity]. Qed.

Lemma agree_before {A B} l (x : list entry * outcome A) (y : list entry * outcome B) : agree x y -> agree (before_l l x) (before_l l y).
Proof.
  intros (H1 & H2). split.
  - intro R. destruct (H1 R) as (S1 & S2 & S3). split; [exact S1|]. split.
    + intro P. cbn. f_equal. exact (S2 P).
    + intro P. apply S3. cbn in P. now apply app_inv_head in P.
  - intro P. apply H2. cbn in P. now apply app_inv_head in P.
Qed.

Lemma finalized_agree {A B} (h : apps A) (g : apps B) s a b ka kb ch r :
  agree (handle_finalized_l h s a ka ch r) (handle_finalized_l g s b kb ch r).
Proof.
  unfold handle_finalized_l. apply agree_before. destruct (ch =? hid_broadcast).
  - unfold handle_broadcast_l. destruct (tr_cmd r =? cmd_init).
    + destruct (new_channel s) as (s', id). cbv zeta. destruct (len (tr_payload r ++ tr_spare r) <? 8); apply agree_eq.
    + destruct (tr_cmd r =? cmd_ping); apply agree_eq.
  - unfold handle_data_l. destruct (tr_cmd r =? cmd_msg).
    + destruct (app_u2f h a (tr_payload r)) as (a', [p|]), (app_u2f g b (tr_payload r)) as (b', [q|]);
        try (split; cbn; [discriminate|intro X; discriminate X]); [|apply agree_eq].
      split; [|reflexivity]. intros _. split; [reflexivity|]. cbn [fst snd o_packets]. split.
      * intro P. apply packets_inj in P. now subst.
      * intro P. injection P as _ ->. reflexivity.
    + destruct (tr_cmd r =? cmd_cbor); [|destruct (tr_cmd r =? cmd_ping); apply agree_eq]. cbv zeta.
      destruct (app_ctap h a (tr_payload r)) as (a', [p|]), (app_ctap g b (tr_payload r)) as (b', [q|]);
        try (split; cbn; [discriminate|intro X; discriminate X]).
      * split; [|reflexivity]. intros _. split; [reflexivity|]. cbn [fst snd o_packets]. split.
        -- intro P. apply alive_cancel in P. now subst.
        -- intro P. injection P as ->. now rewrite !quiet_app, !quiet_alive.
      * split; [|reflexivity]. intros _. split; [reflexivity|]. cbn [fst snd o_packets]. split; [reflexivity|].
        intros _. now rewrite !quiet_alive.
Qed.

Lemma handle_agree {A B} (h : apps A) (g : apps B) s a b ka kb m :
  agree (hid_handle_l h s a ka m) (hid_handle_l g s b kb m).
Proof.
  unfold hid_handle_l. destruct (read_le 4 m) as [(ch, bf)|]; [|apply agree_eq].
  destruct (chan_lookup ch (srv_channels s)) as [cur|]; [|apply agree_eq].
  unfold channel_handle_l.
  destruct (match cur with Some t => add_message_l t m | None => new_transaction_l m end) as (l, [t|]); [|apply agree_eq].
  destruct (t_done t); [|apply agree_eq].
  destruct (negb (t_error t =? 0)); [apply agree_eq|]. destruct (t_cancelled t); [apply agree_eq|].
  destruct (t_result t) as [r|]; [|apply agree_eq].
  pose proof (finalized_agree h g s a b ka kb ch r) as (H1 & H2).
  destruct (handle_finalized_l h s a ka ch r) as (l1, o1), (handle_finalized_l g s b kb ch r) as (l2, o2). cbn [fst snd] in H1, H2.
  assert (forall l1 l2 : list entry, l ++ l1 = l ++ l2 -> l1 = l2) as AI by (intros; eapply app_inv_head; eauto).
  destruct (o_res o1) eqn:R1, (o_res o2) eqn:R2; cbn [okb] in H1, H2; (split; cbn [fst snd o_res]; rewrite ?R1, ?R2; cbn [okb]).
  - intros _. destruct (H1 eq_refl) as (S1 & S2 & S3). cbn [fst snd] in *.
    split; [cbn; now rewrite S1|]. cbn [fst snd o_packets]. split; [intro P; now rewrite (S2 P)|intro P; apply S3; eauto].
  - reflexivity.
  - discriminate.
  - intro P. apply AI in P. now apply H2 in P.
  - discriminate.
  - intro P. apply AI in P. now apply H2 in P.
  - intros _. destruct (H1 eq_refl) as (S1 & S2 & S3). cbn [fst snd] in *.
    split; [exact S1|]. cbn [fst snd]. split; [intro P; now rewrite (S2 P)|intro P; apply S3; eauto].
  - reflexivity.
Qed.

(* ---- runs *)
Lemma events_told {A B} (h : apps A) (g : apps B) : forall ms ns s a b,
  map seen (hid_events h s a ms) = map seen (hid_events g s b ns) ->
  map ev_log (hid_events h s a ms) = map ev_log (hid_events g s b ns).
Proof.
  induction ms as [|(ka, m) ms IH]; intros [|(kb, n) ns] s a b H.
  - reflexivity.
  - exfalso. cbn [hid_events] in H. destruct (hid_handle_l g s b kb n) as (l, o). destruct (o_res o); discriminate.
  - exfalso. cbn [hid_events] in H. destruct (hid_handle_l h s a ka m) as (l, o). destruct (o_res o); discriminate.
  - cbn [hid_events] in *. assert (m = n) as <-.
    { destruct (hid_handle_l h s a ka m) as (l, o), (hid_handle_l g s b kb n) as (l', o'). destruct (o_res o), (o_res o'); now injection H. }
    pose proof (handle_agree h g s a b ka kb m) as (H1 & _).
    destruct (hid_handle_l h s a ka m) as (l, o), (hid_handle_l g s b kb m) as (l', o'). cbn [fst snd] in H1.
    destruct (o_res o), (o_res o'); cbn [map seen ev_in ev_out ev_ok ev_log] in *; try discriminate.
    + injection H as P R. destruct (H1 eq_refl) as (S & Q & _). cbn [fst snd] in *. rewrite (Q P). f_equal. rewrite S. apply IH. rewrite <- S at 1. exact R.
    + injection H as P. destruct (H1 eq_refl) as (S & Q & _). cbn [fst snd] in *. now rewrite (Q P).
Qed.

Lemma events_tell {A B} (h : apps A) (g : apps B) : forall ms ns s a b, map snd ms = map snd ns ->
  map ev_log (hid_events h s a ms) = map ev_log (hid_events g s b ns) ->
  map (fun e => quiet (ev_out e)) (hid_events h s a ms) = map (fun e => quiet (ev_out e)) (hid_events g s b ns) /\
  map ev_ok (hid_events h s a ms) = map ev_ok (hid_events g s b ns).
Proof.
  induction ms as [|(ka, m) ms IH]; intros [|(kb, n) ns] s a b E H; try discriminate; [now split|].
  cbn [map snd] in E. injection E as <- E. cbn [hid_events] in *.
  pose proof (handle_agree h g s a b ka kb m) as (H1 & H2).
  destruct (hid_handle_l h s a ka m) as (l, o), (hid_handle_l g s b kb m) as (l', o'). cbn [fst snd] in H1, H2.
  destruct (o_res o), (o_res o'); cbn [map ev_out ev_ok ev_log okb] in *.
  - injection H as P R. destruct (H1 eq_refl) as (S & _ & Q). cbn [fst snd] in *. rewrite S in *.
    destruct (IH ns _ _ _ E R) as (X & Y). rewrite (Q P). now rewrite X, Y.
  - exfalso. injection H as P _. now apply H2 in P.
  - exfalso. injection H as P _. now apply H2 in P.
  - injection H as P. destruct (H1 eq_refl) as (S & _ & Q). cbn [fst snd] in *. now rewrite (Q P).
Qed.
