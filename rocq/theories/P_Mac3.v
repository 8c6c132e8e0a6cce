(* The life of the device on macOS is a history, and every report it sends has a reason. *)
From Verif Require Import Base M_Hid M_Crypto M_Cose M_State M_Client M_Ctap M_U2f M_History M_Device M_Mac
  S_Hid S_Device S_Client S_History S_Mac P_Hid1 P_Device1 P_Device3 P_Device5 P_Client P_History P_Mac1 P_Mac2.

Record mac_ok (h : list entry) (d : mac) : Prop := mk_mac_ok {
  mk_inv : exists qr, mac_inv d qr;
  mk_waiting : waiting (mc_seen d) (mc_srv d);
  mk_host : forall p, In p (mc_host d) -> explained (mc_seen d) h p;
  mk_count : (length (filter is_request h) + (if mc_current d then 1 else 0) <= length (mc_seen d))%nat;
  mk_from : Forall (came_from (mc_seen d)) h }.

Lemma seen_wfb d qr : mac_inv d qr -> Forall wfb (mc_seen d).
Proof.
  intro I. apply Forall_forall. intros x Hx.
  assert (In x (mc_written d)) as J by (eapply sub_in; [apply (mi_sub _ _ I)|apply in_or_app; now left]).
  pose proof (mi_written _ _ I) as F. rewrite Forall_forall in F. now apply F.
Qed.

Lemma mac_ok_init u w : usb_driver_start = Ok (Some u) -> mac_ok [] (mac_init u w).
Proof.
  intro E. split; cbn; auto using Forall_nil.
  - exists []. now apply mac_inv_init.
  - apply waiting_new.
  - intros p [].
Qed.

Inductive mac_did (E : Env) (d : mac) (m : mac_moved) (h : list entry) : Prop :=
| MDid_nothing : mac_world_after m = mc_world d ->
    match m with MRunning d' => mac_ok h d' | MDead _ => True | MCorrupt _ => False end -> mac_did E d m h
| MDid_request i o : good_input i -> handle E i (mc_world d) = (mac_world_after m, o) ->
    match m, o with
    | MRunning d', Ok r => mac_ok (h ++ [HDone i r]) d'
    | MDead _, Panic => True
    | _, _ => False
    end -> mac_did E d m h.

Lemma mac_ok_handled h d o n u es : mac_ok h d -> mc_current d <> None ->
  (exists qr, mac_inv (mk_mac u (mc_notes d) None (o_srv o) (o_app o) (mc_host d ++ o_packets o) n (mc_written d) (mc_seen d)) qr) ->
  waiting (mc_seen d) (o_srv o) ->
  (forall p, In p (o_packets o) -> explained (mc_seen d) (h ++ es) p) ->
  (length (filter is_request es) <= 1)%nat -> Forall (came_from (mc_seen d)) es ->
  mac_ok (h ++ es) (mk_mac u (mc_notes d) None (o_srv o) (o_app o) (mc_host d ++ o_packets o) n (mc_written d) (mc_seen d)).
Proof.
  intros [K1 K2 K3 K4 K5] C I W P L F. split; cbn [mc_seen mc_srv mc_host mc_current]; auto.
  - intros p H. apply in_app_or in H as [H|H]; [|auto]. eapply explained_mono; [apply incl_refl|apply incl_app_l|auto].
  - rewrite filter_app, app_length. destruct (mc_current d); [lia|congruence].
  - apply Forall_app. auto.
Qed.

Lemma mac_step_did E h d l m : mac_ok h d -> mac_label_ok l -> mac_step E d l = Some m -> mac_did E d m h.
Proof.
  intros K L S. destruct (mk_inv _ _ K) as (qr & I). pose proof (mac_inv_step E d qr l m I L S) as T.
  destruct l as [a r| |ka junk|i].
  - destruct m as [d'|w|w]; [|cbn [mac_step] in S; destruct (_ || _); [discriminate|]; destruct (new_hid_frame _ _ _) as [[]|]; discriminate S|destruct T].
    destruct T as (qr' & I' & T1 & T2 & T3 & T4 & T5). apply MDid_nothing.
    + cbn [mac_step] in S. destruct (_ || _); [discriminate|]. destruct (new_hid_frame _ _ _) as [[]|]; [|discriminate S]. now injection S as <-.
    + cbn [mac_step] in S. destruct (_ || _); [discriminate|]. destruct (new_hid_frame _ _ _) as [[]|]; [|discriminate S].
      injection S as <-. destruct K. split; eauto.
  - cbn [mac_step] in S. destruct (mc_current d) as [m0|] eqn:Cd; [discriminate S|]. destruct (mc_notes d) as [|n]; [discriminate S|].
    destruct (notify_frame (mc_uc d)) as [[u x]|]; [|injection S as <-; destruct T].
    injection S as <-. apply MDid_nothing; [reflexivity|]. destruct T as (qr' & I' & _).
    destruct K as [K1 K2 K3 K4 K5]. rewrite Cd in K4.
    assert (Inc : incl (mc_seen d) (mc_seen d ++ match x with Some y => [y] | None => [] end)) by apply incl_app_l.
    split; cbn [mc_seen mc_srv mc_host mc_current]; eauto.
    + eapply waiting_mono; eauto.
    + intros p Hp. eapply explained_mono; [exact Inc|apply incl_refl|auto].
    + rewrite app_length. destruct x; cbn; lia.
    + eapply Forall_impl; [|exact K5]. intros e He. eapply came_from_mono; eauto.
  - cbn [mac_step] in S. destruct (mc_current d) as [m0|] eqn:Cd; [|discriminate S]. cbn [obind] in S.
    rewrite (send_packets _ junk (dv_device _ _ (mi_drv _ _ I)) L _ 0%nat (handle_64 _ _ _ _ _)) in S.
    assert (In0 : In m0 (mc_seen d)).
    { pose proof (mi_current _ _ I) as B. rewrite Cd in B. destruct B as (b & B). rewrite B. apply in_or_app. right. now left. }
    destruct (hid_handle_called (device_apps E) (mc_seen d) (mc_srv d) (mc_world d) ka m0 (seen_wfb _ _ I) In0 (mk_waiting _ _ K)) as [C W].
    set (o := hid_handle (device_apps E) (mc_srv d) (mc_world d) ka m0) in *.
    assert (Cn : mc_current d <> None) by (rewrite Cd; discriminate).
    destruct C as [C1 C2|ch q r Q1 Q2 Q3 Q4|ch q r Q1 Q2 Q3 Q4].
    + destruct (o_res o) as [v|]; injection S as <-; (apply MDid_nothing; [exact C1|]); [|exact Logic.I].
      destruct T as (qr' & I' & _). rewrite <- (app_nil_r h). apply mac_ok_handled; eauto.
    + change (ctap_handle E q (mc_world d) = (o_app o, r)) in Q3. apply P_Device3.handle_ctap in Q3. destruct r as [b|].
      * destruct Q4 as [R Q4]. rewrite R in S. injection S as <-. destruct T as (qr' & I' & _).
        eapply MDid_request; [|exact Q3|]; [exact Q2|]. apply mac_ok_handled; eauto.
        -- intros p Hp. apply Q4; [|exact Hp]. apply in_or_app. right. now left.
        -- constructor; [|constructor]. cbn. eauto.
      * rewrite Q4 in S. injection S as <-. eapply MDid_request; [|exact Q3|]; [exact Q2|]. exact Logic.I.
    + change (u2f_handle E q (mc_world d) = (o_app o, r)) in Q3. apply P_Device3.handle_u2f in Q3. destruct r as [b|].
      * destruct Q4 as [R Q4]. rewrite R in S. injection S as <-. destruct T as (qr' & I' & _).
        eapply MDid_request; [|exact Q3|]; [exact Q2|]. apply mac_ok_handled; eauto.
        -- intros p Hp. apply Q4; [|exact Hp]. apply in_or_app. right. now left.
        -- constructor; [|constructor]. cbn. eauto.
      * rewrite Q4 in S. injection S as <-. eapply MDid_request; [|exact Q3|]; [exact Q2|]. exact Logic.I.
  - cbn [mac_step] in S. destruct (local_input i) eqn:LI; [|discriminate S].
    destruct (handle E i (mc_world d)) as [w [o|]] eqn:Hh; injection S as <-;
      (eapply MDid_request; [exact L|exact Hh|]); [|exact Logic.I].
    destruct T as (qr' & I' & _). destruct K. split; cbn [mc_seen mc_srv mc_host mc_current]; eauto.
    + intros p H. eapply explained_mono; [apply incl_refl|apply incl_app_l|]. auto.
    + rewrite filter_app, app_length. destruct i; try discriminate LI; cbn [filter is_request length]; lia.
    + apply Forall_app. split; [assumption|]. constructor; [|constructor]. destruct i; try discriminate LI; exact Logic.I.
Qed.

Lemma mac_life_history E ps s : mac_life E ps s -> exists H, history E H (mac_is_up s) (mac_world_of s) /\ starts_of H = ps /\
  match s with MUp d => mac_ok (since_start H) d | MDown _ => True end.
Proof.
  induction 1 as [c t|ps w p w' u L (H & A & B & _) W St|ps w p w' L (H & A & B & _) St
    |ps d l d' L (H & A & B & C) Lo St|ps d l w L (H & A & B & C) Lo St|ps d l m es rest L (H & A & B & C) Lo St Tr];
    cbn [mac_is_up mac_world_of] in *.
  - exists []. split; [constructor|]. split; [reflexivity|exact Logic.I].
  - exists (H ++ [HStart p]). split; [eapply H_start; eauto|]. split; [now rewrite starts_app, B|].
    rewrite since_start_new. now apply mac_ok_init.
  - exists (H ++ [HStartFailed p]). split; [eapply H_start_failed; eauto|]. split; [now rewrite starts_app, B|exact Logic.I].
  - destruct (mac_step_did _ _ _ _ _ C Lo St) as [D1 D2|i o G D1 D2]; cbn [mac_world_after] in D1.
    + exists H. rewrite D1. auto.
    + destruct o as [r|]; [|destruct D2]. exists (H ++ [HDone i r]). split; [eapply H_done; eauto|].
      split; [rewrite starts_app, B; apply app_nil_r|].
      rewrite since_start_more; [exact D2|eapply up_started; eauto|reflexivity].
  - destruct (mac_step_did _ _ _ _ _ C Lo St) as [D1 D2|i o G D1 D2]; cbn [mac_world_after] in D1.
    + subst w. exists (H ++ [HCrash (ICtap [])]). split; [|split; [rewrite starts_app, B; apply app_nil_r|exact Logic.I]].
      apply kill_idle in A. destruct (mc_world d). exact A.
    + destruct o as [r|]; [destruct D2|]. exists (H ++ [HPanic i]). split; [eapply H_panic; eauto|].
      split; [rewrite starts_app, B; apply app_nil_r|exact Logic.I].
  - destruct (mac_step_did _ _ _ _ _ C Lo St) as [D1 D2|i o G D1 D2].
    + rewrite D1 in *. exists (H ++ [HCrash (ICtap [])]).
      split; [|split; [rewrite starts_app, B; apply app_nil_r|exact Logic.I]].
      assert (es = []) as ->.
      { rewrite <- (app_nil_r (w_trace (mc_world d))) in Tr at 1. apply app_inv_head in Tr.
        symmetry in Tr. now apply app_eq_nil in Tr. }
      rewrite app_nil_r. now apply kill_idle.
    + exists (H ++ [HCrash i]). split; [|split; [rewrite starts_app, B; apply app_nil_r|exact Logic.I]].
      eapply H_crash; eauto.
Qed.

Lemma mac_history E ps s : mac_life E ps s -> exists h, history E h (mac_is_up s) (mac_world_of s) /\ starts_of h = ps /\
  match s with
  | MDown _ => True
  | MUp d =>
    let now := since_start h in
    sub (mc_seen d) (mc_written d) /\ Forall (came_from (mc_seen d)) now /\
    (length (filter is_request now) <= length (mc_seen d))%nat /\
    Forall (explained (mc_seen d) now) (mc_host d)
  end.
Proof.
  intro L. destruct (mac_life_history _ _ _ L) as (H & A & B & C). exists H. split; [exact A|]. split; [exact B|].
  destruct s as [w|d]; [exact Logic.I|]. cbv zeta. destruct C as [(qr & I) C2 C3 C4 C5]. split; [|split; [exact C5|split; [lia|]]].
  - eapply sub_trans; [apply (mi_sub _ _ I)|]. rewrite <- (app_nil_r (mc_seen d)) at 1. apply sub_app; [apply sub_refl|].
    clear. induction qr; constructor; auto.
  - apply Forall_forall. auto.
Qed.

Lemma mac_restarts E ps w p : env_ok E -> mac_life E ps (MDown w) -> Forall (params_ok E) (ps ++ [p]) ->
  exists w' u, start E p (saved_in (w_trace w)) w = (w', Ok tt) /\ usb_driver_start = Ok (Some u) /\
    mac_life E (ps ++ [p]) (MUp (mac_init u w')).
Proof.
  intros O L F. destruct (mac_life_history _ _ _ L) as (H & A & B & _). cbn in A.
  destruct started as (u & Eu & _).
  assert (exists w', start E p (saved_in (w_trace w)) w = (w', Ok tt)) as (w' & St).
  { destruct (start E p (saved_in (w_trace w)) w) as [w' [[]|]] eqn:St; [eauto|exfalso].
    pose proof (H_start_failed E H w p w' A St) as H'.
    refine (starts_succeed E _ _ _ p O H' _ _); [|apply in_or_app; right; now left].
    intros q Hq. rewrite Forall_forall in F. apply F. apply starts_of_in in Hq. now rewrite starts_app, B in Hq. }
  exists w', u. split; [exact St|]. split; [exact Eu|]. eapply ML_start; eauto.
Qed.
