(* One HID message: at most one request, and why every packet is sent. *)
From Verif Require Import Base M_Util M_Hid S_Hid P_Hid1 P_Hid2 P_Hid3 M_Client M_History S_Device.
From Verif Require Import P_Usbip2.
From Coq Require Import Lia.

Definition partly (written : list bytes) (ch : N) (r : tresult) : Prop :=
  tr_chan r = ch /\ exists first rest,
    In first written /\ incl rest written /\
    Forall (fun p => takeN 4 p = le 4 ch) (first :: rest) /\
    nth 4 first 0 = tr_cmd r /\
    map (fun p => nth 4 p 0) rest = map N.of_nat (seq 0 (length rest)) /\
    256 * nth 5 first 0 + nth 6 first 0 = tr_plen r /\
    tr_seq r = N.of_nat (length rest) /\ (length rest <= 128)%nat /\
    tr_payload r = dropN 7 first ++ concat (map (dropN 5) rest).

Definition waiting (written : list bytes) (s : server) : Prop :=
  forall k t, chan_lookup k (srv_channels s) = Some (Some t) ->
    t_done t = false /\ exists r, t_result t = Some r /\ partly written k r.

Lemma partly_mono w w' ch r : incl w w' -> partly w ch r -> partly w' ch r.
Proof.
  intros I (H & f & l & A & B & C). split; [exact H|]. exists f, l.
  split; [auto|]. split; [|exact C]. intros x Hx. auto.
Qed.

Lemma waiting_mono w w' s : incl w w' -> waiting w s -> waiting w' s.
Proof. intros I H k t L. destruct (H k t L) as (D & r & R & P). eauto using partly_mono. Qed.

Lemma requested_mono w w' ch c m : incl w w' -> requested w ch c m -> requested w' ch c m.
Proof.
  intros I (f & l & A & B & C). exists f, l. split; [auto|]. split; [|exact C]. intros x Hx. auto.
Qed.

Lemma explained_mono w w' h h' p : incl w w' -> incl h h' -> explained w h p -> explained w' h' p.
Proof.
  intros I J X. destruct X.
  - eapply X_keepalive; eauto using requested_mono.
  - eapply X_error; eauto.
  - eapply X_init; eauto using requested_mono.
  - eapply X_ping; eauto using requested_mono.
  - eapply X_ctap; eauto using requested_mono.
  - eapply X_u2f; eauto using requested_mono.
Qed.

Lemma waiting_new : waiting [] new_server.
Proof.
  intros k t H. unfold new_server, srv_channels, chan_lookup in H.
  destruct (hid_broadcast =? k); discriminate H.
Qed.

Lemma waiting_set w s ch v : waiting w s ->
  match v with Some t => t_done t = false /\ exists r, t_result t = Some r /\ partly w ch r | None => True end ->
  waiting w (srv_set s ch v).
Proof.
  intros P V k t. cbn [srv_set srv_channels]. destruct (N.eq_dec ch k) as [<-|E].
  - rewrite chan_lookup_set_eq. intros [= ->]. exact V.
  - rewrite chan_lookup_set_neq by exact E. apply P.
Qed.

(* what becomes of the transaction *)
Definition txn_next (w : list bytes) (ch : N) (t : txn) : Prop :=
  if t_done t then
    t_error t <> 0 \/ t_cancelled t = true \/
    exists r, t_result t = Some r /\ tr_chan r = ch /\ requested w ch (tr_cmd r) (tr_payload r)
  else exists r, t_result t = Some r /\ partly w ch r.

Lemma len_take_le {A} n (l : list A) : n <= len l -> len (takeN n l) = n.
Proof. intro H. rewrite takeN_len. lia. Qed.

Lemma new_txn_next w ch rest t : ch < 4294967296 -> In (le 4 ch ++ rest) w -> wfb rest ->
  new_transaction (le 4 ch ++ rest) = Ok t -> txn_next w ch t.
Proof.
  intros Hch Hin W. unfold new_transaction. rewrite read_le_app by exact Hch. cbn [rbind].
  destruct rest as [|b rest]; [vm_compute; discriminate|].
  rewrite read_le_1. cbn [rbind].
  destruct (N.land b 128 =? 0).
  { intros [= <-]. left. cbn. discriminate. }
  destruct (b =? cmd_cancel).
  { intros [= <-]. right. left. reflexivity. }
  apply wfb_cons in W as [Hb W].
  destruct (N.lt_ge_cases (len rest) 2) as [S|S].
  { destruct rest as [|x [|y rest]]; [vm_compute; discriminate|vm_compute; discriminate|].
    rewrite !len_cons in S. lia. }
  destruct (be2_split rest W S) as (n & buf & -> & Hn).
  rewrite read_be_app by exact Hn. cbn [rbind].
  assert (F : Forall (fun p => takeN 4 p = le 4 ch) [le 4 ch ++ b :: be 2 n ++ buf]).
  { constructor; [|constructor]. apply takeN_exact. reflexivity. }
  assert (D7 : dropN 7 (le 4 ch ++ b :: be 2 n ++ buf) = buf) by (rewrite le4, be2; reflexivity).
  assert (N4 : nth 4 (le 4 ch ++ b :: be 2 n ++ buf) 0 = b) by (rewrite le4; reflexivity).
  assert (N56 : 256 * nth 5 (le 4 ch ++ b :: be 2 n ++ buf) 0 + nth 6 (le 4 ch ++ b :: be 2 n ++ buf) 0 = n).
  { rewrite le4, be2. cbn [app nth].
    rewrite (N.mod_small (n / 256)) by (apply N.div_lt_upper_bound; lia).
    symmetry. apply N.div_mod. lia. }
  destruct (n <=? len buf) eqn:L; intros [= <-]; unfold txn_next; cbn [t_done t_error t_cancelled t_result].
  - apply N.leb_le in L. right. right. eexists. split; [reflexivity|]. cbn [tr_chan tr_cmd tr_payload].
    split; [reflexivity|]. exists (le 4 ch ++ b :: be 2 n ++ buf), [].
    split; [exact Hin|]. split; [intros x []|]. split; [exact F|]. split; [exact N4|].
    split; [reflexivity|]. split; [now rewrite N56, len_take_le|].
    rewrite len_take_le, D7 by exact L. cbn [map concat]. now rewrite app_nil_r.
  - eexists. split; [reflexivity|]. split; [reflexivity|].
    exists (le 4 ch ++ b :: be 2 n ++ buf), []. cbn [tr_chan tr_cmd tr_payload tr_plen tr_seq].
    split; [exact Hin|]. split; [intros x []|]. split; [exact F|]. split; [exact N4|].
    split; [reflexivity|]. split; [exact N56|]. split; [reflexivity|]. split; [cbn; lia|].
    rewrite D7. cbn [map concat]. now rewrite app_nil_r.
Qed.

Lemma add_txn_next w ch t0 rest t : ch < 4294967296 -> In (le 4 ch ++ rest) w -> wfb rest ->
  t_done t0 = false -> (exists r, t_result t0 = Some r /\ partly w ch r) ->
  add_message t0 (le 4 ch ++ rest) = Ok t -> txn_next w ch t.
Proof.
  intros Hch Hin W D (r & R & HC & first & l & F1 & F2 & F3 & F4 & F5 & F6 & F7 & F8 & F9).
  unfold add_message. rewrite D, R. rewrite read_le_app by exact Hch. cbn [rbind].
  rewrite HC, N.eqb_refl. cbn [negb].
  destruct rest as [|b rest]; [vm_compute; discriminate|].
  rewrite read_le_1. cbn [rbind].
  destruct (b =? cmd_cancel).
  { intros [= <-]. right. left. reflexivity. }
  apply wfb_cons in W as [Hb W].
  destruct (N.land b 128 =? 0) eqn:L128; cbn [negb].
  2:{ intros [= <-]. left. cbn. discriminate. }
  rewrite land128 in L128 by exact Hb. apply N.ltb_lt in L128.
  destruct (b =? tr_seq r) eqn:Q; cbn [negb].
  2:{ intros [= <-]. left. cbn. discriminate. }
  apply N.eqb_eq in Q.
  set (m := le 4 ch ++ b :: rest) in *.
  assert (I' : incl (l ++ [m]) w) by (apply incl_app; [exact F2|]; intros x [<-|[]]; exact Hin).
  assert (F3' : Forall (fun p => takeN 4 p = le 4 ch) (first :: l ++ [m])).
  { inversion F3; subst. constructor; [assumption|]. apply Forall_app. split; [assumption|].
    constructor; [|constructor]. apply takeN_exact. reflexivity. }
  assert (Lm : length (l ++ [m]) = S (length l)) by (rewrite app_length; cbn; lia).
  assert (F5' : map (fun p => nth 4 p 0) (l ++ [m]) = map N.of_nat (seq 0 (length (l ++ [m])))).
  { rewrite Lm, seq_S, !map_app. f_equal; [exact F5|]. cbn [map]. unfold m. rewrite le4. cbn [app nth].
    rewrite Nat.add_0_l. now rewrite Q, F7. }
  assert (P : tr_payload r ++ rest = dropN 7 first ++ concat (map (dropN 5) (l ++ [m]))).
  { rewrite F9, map_app, concat_app, app_assoc. f_equal. cbn [map concat]. rewrite app_nil_r.
    unfold m. now rewrite le4. }
  destruct (tr_plen r <=? len (tr_payload r ++ rest)) eqn:L; intros [= <-];
    unfold txn_next; cbn [t_done t_error t_cancelled t_result].
  - apply N.leb_le in L. right. right. eexists. split; [reflexivity|].
    cbn [tr_chan tr_cmd tr_payload]. split; [reflexivity || exact HC|]. exists first, (l ++ [m]).
    split; [exact F1|]. split; [exact I'|]. split; [exact F3'|]. split; [exact F4|].
    split; [exact F5'|]. split; [now rewrite F6, len_take_le|].
    rewrite len_take_le by exact L. now rewrite P.
  - eexists. split; [reflexivity|]. split; [reflexivity || exact HC|]. exists first, (l ++ [m]).
    cbn [tr_chan tr_cmd tr_payload tr_plen tr_seq].
    split; [exact F1|]. split; [exact I'|]. split; [exact F3'|]. split; [exact F4|].
    split; [exact F5'|]. split; [exact F6|]. rewrite Lm. split; [|split; [|exact P]].
    + rewrite F7 in Q |- *. rewrite N.mod_small by lia. lia.
    + lia.
Qed.

(* The effect of one message on the authenticators. *)
Inductive called {A} (h : apps A) (w : list bytes) (a : A) (o : outcome A) : Prop :=
| Called_none : o_app o = a -> (forall l p, In p (o_packets o) -> explained w l p) -> called h w a o
| Called_ctap ch m r : requested w ch 0x90 m -> wfb m -> app_ctap h a m = (o_app o, r) ->
    match r with
    | Ok b => o_res o = Ok tt /\ forall l p, In (HDone (ICtap m) (OBytes b)) l ->
                In p (o_packets o) -> explained w l p
    | Panic => o_res o = Panic
    end -> called h w a o
| Called_u2f ch m r : requested w ch 0x83 m -> wfb m -> app_u2f h a m = (o_app o, r) ->
    match r with
    | Ok b => o_res o = Ok tt /\ forall l p, In (HDone (IU2f m) (OBytes b)) l ->
                In p (o_packets o) -> explained w l p
    | Panic => o_res o = Panic
    end -> called h w a o.

Lemma wfb_concat l : Forall wfb l -> wfb (concat l).
Proof. induction 1; cbn; [constructor|now apply wfb_app]. Qed.

Lemma requested_wfb w ch c m : Forall wfb w -> requested w ch c m -> wfb m.
Proof.
  intros W (f & l & A & B & _ & _ & _ & _ & ->). rewrite Forall_forall in W.
  apply wfb_take, wfb_app. split; [apply wfb_drop; auto|].
  apply wfb_concat, Forall_forall. intros x Hx. apply in_map_iff in Hx as (y & <- & Hy).
  apply wfb_drop; auto.
Qed.

Lemma finalized_called {A} (h : apps A) w s a ka ch r : Forall wfb w -> tr_chan r = ch ->
  requested w ch (tr_cmd r) (tr_payload r) -> called h w a (handle_finalized h s a ka ch r).
Proof.
  intros W C Q. unfold handle_finalized, handle_broadcast, handle_data. rewrite C.
  pose proof (requested_wfb _ _ _ _ W Q) as Wm.
  destruct (ch =? hid_broadcast) eqn:B.
  - apply N.eqb_eq in B. subst ch. rewrite B in Q.
    destruct (tr_cmd r =? cmd_init) eqn:E1.
    + apply N.eqb_eq in E1. rewrite E1 in Q. destruct (new_channel s) as [s' id].
      destruct (len (tr_payload r ++ tr_spare r) <? 8) eqn:L.
      * apply Called_none; [reflexivity|]. intros ? ? [].
      * apply N.ltb_ge in L. apply Called_none; [reflexivity|]. cbn [o_packets]. intros l p.
        rewrite create_response_packets_spec by (vm_compute; reflexivity).
        unfold init_response. intro Hp. eapply X_init; [exact Q| |exact Hp].
        now apply len_take_le.
    + destruct (tr_cmd r =? cmd_ping) eqn:E2.
      * apply N.eqb_eq in E2. rewrite E2 in Q. apply Called_none; [reflexivity|].
        cbn [o_packets]. intros l p. rewrite create_response_packets_spec by (vm_compute; reflexivity).
        intro Hp. eapply X_ping; [exact Q|exact Hp].
      * apply Called_none; [reflexivity|]. intros ? ? [].
  - destruct (tr_cmd r =? cmd_msg) eqn:E1.
    + apply N.eqb_eq in E1. rewrite E1 in Q.
      destruct (app_u2f h a (tr_payload r)) as [a' [b|]] eqn:U; (eapply Called_u2f; [exact Q|exact Wm|exact U|]).
      * split; [reflexivity|]. cbn [o_packets]. intros l p Hl.
        rewrite create_response_packets_spec by (vm_compute; reflexivity).
        intro Hp. eapply X_u2f; [exact Q|exact Hl|exact Hp].
      * reflexivity.
    + destruct (tr_cmd r =? cmd_cbor) eqn:E2.
      * apply N.eqb_eq in E2. rewrite E2 in Q.
        destruct (app_ctap h a (tr_payload r)) as [a' [b|]] eqn:U; (eapply Called_ctap; [exact Q|exact Wm|exact U|]).
        -- split; [reflexivity|]. cbn [o_packets]. intros l p Hl.
           rewrite create_response_packets_spec by (vm_compute; reflexivity).
           intro Hp. apply in_app_or in Hp as [Hp|Hp].
           ++ apply in_concat in Hp as (x & Hx & Hp). apply repeat_spec in Hx. subst x.
              unfold keepalive in Hp. rewrite create_response_packets_spec in Hp by (vm_compute; reflexivity).
              eapply X_keepalive; [exact Q|exact Hp].
           ++ eapply X_ctap; [exact Q|exact Hl|exact Hp].
        -- reflexivity.
      * destruct (tr_cmd r =? cmd_ping) eqn:E3.
        -- apply N.eqb_eq in E3. rewrite E3 in Q. apply Called_none; [reflexivity|].
           cbn [o_packets]. intros l p. rewrite create_response_packets_spec by (vm_compute; reflexivity).
           intro Hp. eapply X_ping; [exact Q|exact Hp].
        -- apply Called_none; [reflexivity|]. intros ? ? [].
Qed.

Lemma finalized_waiting {A} (h : apps A) w s a ka ch r :
  waiting w s -> waiting w (o_srv (handle_finalized h s a ka ch r)).
Proof.
  intro P. unfold handle_finalized, handle_broadcast, handle_data.
  destruct (ch =? hid_broadcast).
  - destruct (tr_cmd r =? cmd_init); [|destruct (tr_cmd r =? cmd_ping); exact P].
    assert (waiting w (fst (new_channel s))) as Q.
    { apply (waiting_set w s ((srv_max s + 1) mod 4294967296) None P Logic.I). }
    destruct (new_channel s) as [s' id]. destruct (_ <? 8); exact Q.
  - destruct (tr_cmd r =? cmd_msg); [destruct (app_u2f h a (tr_payload r)) as [? [?|]]; exact P|].
    destruct (tr_cmd r =? cmd_cbor); [destruct (app_ctap h a (tr_payload r)) as [? [?|]]; exact P|].
    destruct (tr_cmd r =? cmd_ping); exact P.
Qed.

Lemma hid_handle_called {A} (h : apps A) w s a ka m : Forall wfb w -> In m w -> waiting w s ->
  let o := hid_handle h s a ka m in called h w a o /\ waiting w (o_srv o).
Proof.
  intros W Hm P. assert (Wm : wfb m) by (rewrite Forall_forall in W; auto).
  assert (NO : forall s', waiting w s' -> forall x, let o := mk_outcome s' a [] x in
             called h w a o /\ waiting w (o_srv o)).
  { intros s' P' x. split; [|exact P']. apply Called_none; [reflexivity|]. intros ? ? []. }
  destruct (N.lt_ge_cases (len m) 4) as [S|S].
  { rewrite hid_handle_short by exact S. now apply NO. }
  destruct (msg_split m S Wm) as (ch & rest & -> & Hch).
  assert (Tk : takeN 4 (le 4 ch ++ rest) = le 4 ch) by (apply takeN_exact; reflexivity).
  unfold hid_handle. rewrite read_le_app by exact Hch.
  destruct (chan_lookup ch (srv_channels s)) as [cur|] eqn:Hl.
  2:{ rewrite hid_error_spec. split; [|exact P]. apply Called_none; [reflexivity|].
      cbn [o_packets]. intros l p Hp. eapply X_error; [exact Hm|exact Tk|exact Hp]. }
  apply wfb_app in Wm as [_ Wm].
  unfold channel_handle.
  set (t' := match cur with None => _ | Some t => _ end).
  assert (Hn : forall t, t' = Ok t -> txn_next w ch t).
  { intros t E. unfold t' in E. destruct cur as [t0|].
    - destruct (P ch t0 Hl) as (D & R). eapply add_txn_next; eauto.
    - eapply new_txn_next; eauto. }
  destruct t' as [t|]; [|now apply NO]. specialize (Hn t eq_refl). unfold txn_next in Hn.
  destruct (t_done t) eqn:D.
  2:{ apply NO. apply waiting_set; [exact P|]. split; assumption. }
  set (o := if negb (t_error t =? 0) then _ else _).
  assert (called h w a o /\ waiting w (o_srv o)) as [Q1 Q2].
  { unfold o. destruct (t_error t =? 0) eqn:E0; cbn [negb].
    - destruct (t_cancelled t) eqn:EC; [now apply NO|].
      destruct Hn as [Hn|[Hn|(r & R & C & Q)]];
        [apply N.eqb_eq in E0; contradiction|discriminate Hn|].
      rewrite R. split; [now apply finalized_called|now apply finalized_waiting].
    - rewrite hid_error_spec. split; [|exact P]. apply Called_none; [reflexivity|].
      cbn [o_packets]. intros l p Hp. eapply X_error; [exact Hm|exact Tk|exact Hp]. }
  destruct (o_res o) as [[]|] eqn:E; [|now split].
  split; [|cbn [o_srv]; now apply waiting_set].
  destruct Q1 as [? ?|ch' m' r X1 X2 X3 X4|ch' m' r X1 X2 X3 X4].
  - now apply Called_none.
  - eapply Called_ctap; [exact X1|exact X2|exact X3|]. rewrite E in X4. destruct r; [exact X4|discriminate X4].
  - eapply Called_u2f; [exact X1|exact X2|exact X3|]. rewrite E in X4. destruct r; [exact X4|discriminate X4].
Qed.
