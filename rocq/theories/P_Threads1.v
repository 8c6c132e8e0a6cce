(* The first part of handling a message: it is the beginning of hid_handle, and why it sends
   what it sends. *)
From Verif Require Import Base M_Util M_Hid M_HidConc M_Client M_History M_Overlap M_Usbip M_Device M_Threads S_Hid S_Device S_Threads
  P_Hid1 P_Hid2 P_Hid3 P_Usbip2 P_Device1.
From Coq Require Import Lia.

Lemma front_handle {A} (h : apps A) s a ka m : let o := hid_handle h s a ka m in
  match hid_front s m with
  | FKeep s' => o = mk_outcome s' a [] (Ok tt)
  | FSend _ s' ps => o = mk_outcome s' a ps (Ok tt)
  | FCall ch s' ctap reply q =>
    let ticks := if ctap : bool then concat (repeat (keepalive ch) ka) else [] in
    match (if ctap : bool then app_ctap h a q else app_u2f h a q) with
    | (a', Ok b) => o = mk_outcome s' a' (ticks ++ create_response_packets reply (if ctap then cmd_cbor else cmd_msg) b) (Ok tt)
    | (a', Panic) => o_app o = a' /\ o_res o = Panic
    end
  | FPanic => o_app o = a /\ o_res o = Panic
  end.
Proof.
  unfold hid_handle, hid_front. destruct (read_le 4 m) as [[ch rest]|]; [|now split].
  destruct (chan_lookup ch (srv_channels s)) as [cur|]; [|reflexivity].
  unfold channel_handle. destruct (match cur with None => _ | Some t => _ end) as [t|]; [|now split].
  destruct (t_done t); [|reflexivity].
  destruct (t_error t =? 0); cbn [negb]; [|reflexivity].
  destruct (t_cancelled t); [reflexivity|].
  destruct (t_result t) as [r|]; [|now split].
  unfold front_finalized, handle_finalized. destruct (ch =? hid_broadcast).
  - unfold handle_broadcast. destruct (tr_cmd r =? cmd_init).
    + destruct (new_channel s) as [s' id]. destruct (_ <? 8); [now split|reflexivity].
    + destruct (tr_cmd r =? cmd_ping); [reflexivity|now split].
  - unfold handle_data. destruct (tr_cmd r =? cmd_msg).
    + destruct (app_u2f h a (tr_payload r)) as [a' [b|]]; [reflexivity|now split].
    + destruct (tr_cmd r =? cmd_cbor).
      * destruct (app_ctap h a (tr_payload r)) as [a' [b|]]; [reflexivity|now split].
      * destruct (tr_cmd r =? cmd_ping); [reflexivity|now split].
Qed.

(* What the front part wants to send has a reason, and what it hands on was requested. *)
Definition front_ok (w : list bytes) (m : bytes) (f : front) : Prop :=
  match f with
  | FKeep s' => P_Device1.waiting w s'
  | FSend lock s' ps => P_Device1.waiting w s' /\
      (exists t, answer_number t = [] /\ (forall h, reason w h t) /\ ps = out_packets t) /\
      (forall ch, lock = Some ch -> exists rest, read_le 4 m = Ok (ch, rest))
  | FCall ch s' ctap reply q => P_Device1.waiting w s' /\ reply = ch /\ wfb q /\ ch < 4294967296 /\
      requested w ch (asks_by (input_of ctap q)) q /\ exists rest, read_le 4 m = Ok (ch, rest)
  | FPanic => True
  end.

Lemma hid_front_ok w s m : Forall wfb w -> In m w -> P_Device1.waiting w s -> front_ok w m (hid_front s m).
Proof.
  intros W Hm P. assert (Wm : wfb m) by (rewrite Forall_forall in W; auto).
  unfold hid_front. destruct (read_le 4 m) as [[ch0 r0]|] eqn:RL; [|exact Logic.I].
  destruct (N.lt_ge_cases (len m) 4) as [S|S].
  { unfold read_le in RL. replace (len m <? N.of_nat 4) with true in RL by lia. discriminate RL. }
  destruct (msg_split m S Wm) as (ch & rest & -> & Hch).
  rewrite read_le_app in RL by exact Hch. injection RL as <- <-.
  assert (RL : read_le 4 (le 4 ch ++ rest) = Ok (ch, rest)) by (apply read_le_app; exact Hch).
  assert (Tk : takeN 4 (le 4 ch ++ rest) = le 4 ch) by (apply takeN_exact; reflexivity).
  assert (ERR : forall lock s' code, P_Device1.waiting w s' -> (lock = None \/ lock = Some ch) ->
            front_ok w (le 4 ch ++ rest) (FSend lock s' (hid_error ch code))).
  { intros lock s' code P' L. split; [exact P'|]. split.
    - exists (Failure ch code). rewrite hid_error_spec. split; [reflexivity|]. split; [|reflexivity]. intros h. split; [exact Hch|]. cbn. eauto.
    - intros c ->. destruct L as [L|L]; [discriminate L|]. injection L as ->. eauto. }
  destruct (chan_lookup ch (srv_channels s)) as [cur|] eqn:Hl; [|apply ERR; auto].
  apply wfb_app in Wm as [_ Wm].
  set (t' := match cur with None => _ | Some t => _ end).
  assert (Hn : forall t, t' = Ok t -> txn_next w ch t).
  { intros t E. unfold t' in E. destruct cur as [t0|].
    - destruct (P ch t0 Hl) as (D & R). eapply add_txn_next; eauto.
    - eapply new_txn_next; eauto. }
  destruct t' as [t|]; [|exact Logic.I]. specialize (Hn t eq_refl). unfold txn_next in Hn.
  assert (PN : P_Device1.waiting w (srv_set s ch None)) by (now apply waiting_set).
  destruct (t_done t) eqn:D.
  2:{ cbn. apply waiting_set; [exact P|]. split; assumption. }
  destruct (t_error t =? 0) eqn:E0; cbn [negb]; [|apply ERR; auto].
  destruct (t_cancelled t) eqn:EC; [exact PN|].
  destruct Hn as [Hn|[Hn|(r & R & C & Q)]]; [apply N.eqb_eq in E0; contradiction|discriminate Hn|].
  rewrite R. pose proof (requested_wfb _ _ _ _ W Q) as Wq. unfold front_finalized. rewrite C.
  destruct (ch =? hid_broadcast) eqn:B.
  - apply N.eqb_eq in B. subst ch. unfold handle_broadcast. rewrite B in Q |- *.
    destruct (tr_cmd r =? cmd_init) eqn:E1.
    + apply N.eqb_eq in E1. rewrite E1 in Q.
      assert (P' : P_Device1.waiting w (fst (new_channel s))).
      { apply (waiting_set w s ((srv_max s + 1) mod 4294967296) None P Logic.I). }
      destruct (new_channel s) as [s' id]. cbn [fst] in P'.
      destruct (len (tr_payload r ++ tr_spare r) <? 8) eqn:L; cbn [o_res o_srv o_packets]; [exact Logic.I|].
      apply N.ltb_ge in L. split; [now apply waiting_set|]. split; [|intros c [= <-]; rewrite <- B; eauto].
      exists (Opened (takeN 8 (tr_payload r ++ tr_spare r)) id). split; [reflexivity|]. split.
      * intro h. split; [vm_compute; reflexivity|]. split; [now apply len_take_le|]. eauto.
      * rewrite create_response_packets_spec by (vm_compute; reflexivity). reflexivity.
    + destruct (tr_cmd r =? cmd_ping) eqn:E2; cbn [o_res o_srv o_packets]; [|exact Logic.I].
      apply N.eqb_eq in E2. rewrite E2 in Q. split; [rewrite <- B; exact PN|]. split; [|intros c [= <-]; rewrite <- B; eauto].
      exists (Echo hid_broadcast (tr_payload r)). split; [reflexivity|]. split; [intro h; split; [vm_compute; reflexivity|exact Q]|].
      rewrite create_response_packets_spec by (vm_compute; reflexivity). reflexivity.
  - destruct (tr_cmd r =? cmd_msg) eqn:E1.
    + apply N.eqb_eq in E1. rewrite E1 in Q. split; [exact PN|]. split; [reflexivity|]. split; [exact Wq|]. split; [exact Hch|]. split; [exact Q|eauto].
    + destruct (tr_cmd r =? cmd_cbor) eqn:E2.
      * apply N.eqb_eq in E2. rewrite E2 in Q. split; [exact PN|]. split; [reflexivity|]. split; [exact Wq|]. split; [exact Hch|]. split; [exact Q|eauto].
      * destruct (tr_cmd r =? cmd_ping) eqn:E3; [|exact Logic.I].
        apply N.eqb_eq in E3. rewrite E3 in Q. split; [exact PN|]. split; [|intros c [= <-]; eauto].
        exists (Echo ch (tr_payload r)). split; [reflexivity|]. split; [intro h; split; [exact Hch|exact Q]|].
        rewrite create_response_packets_spec by (vm_compute; reflexivity). reflexivity.
Qed.
