(* Runs of the device on macOS: what is handled, in which order, and what the host reads. *)
From Verif Require Import Base M_Hid M_Crypto M_Cose M_State M_Client M_Ctap M_U2f M_History M_Device M_Mac
  S_Hid S_Device S_Client S_History S_Mac P_Hid1 P_Hid2 P_Hid3 P_Hid4 P_Device1 P_Device3 P_Device4 P_Device5 P_Mac1 P_Mac2 P_Mac3.

Lemma mac_run_snoc E ls : forall d l, mac_run E d (ls ++ [l]) =
  match mac_run E d ls with Some (MRunning d') => mac_step E d' l | _ => None end.
Proof.
  induction ls as [|x ls IH]; intros d l; cbn [app mac_run].
  - destruct (mac_step E d l) as [[]|]; reflexivity.
  - destruct (mac_step E d x) as [[d'|w|w]|]; cbn [obind]; auto; destruct ls; reflexivity.
Qed.

Lemma mac_run_ind E (P : list mac_label -> mac -> Prop) d0 : P [] d0 ->
  (forall ls d l d', mac_run E d0 ls = Some (MRunning d) -> P ls d -> mac_step E d l = Some (MRunning d') -> P (ls ++ [l]) d') ->
  forall ls d, mac_run E d0 ls = Some (MRunning d) -> P ls d.
Proof.
  intros P0 Ps. induction ls as [|l ls IH] using rev_ind; intros d R.
  - cbn in R. now injection R as <-.
  - rewrite mac_run_snoc in R. destruct (mac_run E d0 ls) as [[d1|w|w]|] eqn:R1; try discriminate R. eauto.
Qed.

(* ---------------------------------------------------- safety *)
Lemma life_inv E ps s : mac_life E ps s -> match s with MUp d => exists qr, mac_inv d qr | MDown _ => True end.
Proof. intro L. destruct (mac_life_history _ _ _ L) as (h & _ & _ & K). destruct s; [exact Logic.I|apply K]. Qed.

Lemma mac_safe E ps d l w : mac_life E ps (MUp d) -> mac_label_ok l -> mac_step E d l <> Some (MCorrupt w).
Proof.
  intros L Lo S. destruct (life_inv _ _ _ L) as (qr & I). exact (mac_inv_step E d qr l _ I Lo S).
Qed.

Lemma mac_no_junk E ps d ka j1 j2 : mac_life E ps (MUp d) -> (forall i, len (j1 i) = 64) -> (forall i, len (j2 i) = 64) ->
  mac_step E d (MHandle ka j1) = mac_step E d (MHandle ka j2).
Proof.
  intros L J1 J2. destruct (life_inv _ _ _ L) as (qr & I). cbn [mac_step]. destruct (mc_current d) as [m|]; [|reflexivity]. cbn [obind].
  now rewrite !(send_packets _ _ (dv_device _ _ (mi_drv _ _ I))) by (auto; apply handle_64).
Qed.

(* ---------------------------------------------------- order *)
Lemma reports_app a b : reports_of (a ++ b) = reports_of a ++ reports_of b.
Proof. apply flat_map_app. Qed.
Lemma notifies_app a b : notifies (a ++ b) = (notifies a + notifies b)%nat.
Proof. unfold notifies. now rewrite filter_app, app_length. Qed.
Lemma ticks_app a b : ticks_of (a ++ b) = ticks_of a ++ ticks_of b.
Proof. apply flat_map_app. Qed.

Record tally (ls : list mac_label) (d : mac) (qr : list bytes) : Prop := mk_tally {
  ta_inv : mac_inv d qr;
  ta_written : mc_written d = reports_of ls;
  ta_notes : (mc_notes d + notifies ls = length (reports_of ls))%nat;
  ta_ticks : (length (ticks_of ls) + (if mc_current d then 1 else 0) = length (mc_seen d))%nat }.

Lemma tally_run E u w ls d : usb_driver_start = Ok (Some u) -> mac_run E (mac_init u w) ls = Some (MRunning d) ->
  Forall mac_label_ok ls -> exists qr, tally ls d qr.
Proof.
  intros U R. revert ls d R. apply (mac_run_ind E (fun ls d => Forall mac_label_ok ls -> exists qr, tally ls d qr)).
  - intros _. exists []. split; [now apply mac_inv_init| | |]; reflexivity.
  - intros ls d l d' R IH S F. apply Forall_app in F as [F Fl]. inversion_clear Fl as [|? ? Lo _].
    destruct (IH F) as (qr & [I Wr Nt Tk]). destruct (mac_inv_step E d qr l _ I Lo S) as (qr' & I' & T).
    exists qr'. destruct l as [a r| |ka junk|i].
    + destruct T as (T1 & T2 & T3 & T4 & T5). split; auto.
      * now rewrite T1, Wr, reports_app.
      * rewrite T2, notifies_app, reports_app, app_length. cbn. lia.
      * rewrite T3, ticks_app. cbn [mac_step] in S. destruct (_ || _); [discriminate|].
        destruct (new_hid_frame _ _ _) as [[]|]; [|discriminate S]. injection S as <-. cbn. rewrite app_nil_r. exact Tk.
    + destruct T as (T1 & T2 & T3 & T5). cbn [mac_step] in S. destruct (mc_current d) as [m0|] eqn:Cd; [discriminate S|].
      split; auto.
      * rewrite T1, Wr, reports_app. cbn. now rewrite app_nil_r.
      * rewrite notifies_app, reports_app, app_length. cbn. lia.
      * rewrite ticks_app, app_length. cbn. destruct qr as [|r q]; destruct T3 as (T3 & _ & Cc); rewrite T3, Cc, ?app_length; cbn; lia.
    + destruct T as (T1 & T2 & T3 & T4 & T5). split; auto.
      * rewrite T1, Wr, reports_app. cbn. now rewrite app_nil_r.
      * rewrite T2, notifies_app, reports_app, app_length. cbn. lia.
      * rewrite T3, ticks_app, app_length. cbn [mac_step] in S. destruct (mc_current d); [|discriminate S]. cbn [obind] in S.
        destruct (send_all _ _ _ _) as [[[]]|]; [|discriminate S]. destruct (o_res _); [|discriminate S]. injection S as <-. cbn. lia.
    + destruct T as (T1 & T2 & T3 & T4 & T5). split; auto.
      * rewrite T1, Wr, reports_app. cbn. now rewrite app_nil_r.
      * rewrite T2, notifies_app, reports_app, app_length. cbn. lia.
      * rewrite T3, ticks_app, app_length. cbn [mac_step] in S. destruct (local_input i); [|discriminate S].
        destruct (handle _ _ _) as [? []]; [|discriminate S]. injection S as <-. cbn. lia.
Qed.

Lemma paced_prefix a b : paced (a ++ b) -> paced a.
Proof. intros P x y E. apply (P x (y ++ b)). now rewrite E, app_assoc. Qed.

Lemma none_lost E u w ls d : usb_driver_start = Ok (Some u) -> mac_run E (mac_init u w) ls = Some (MRunning d) ->
  Forall mac_label_ok ls -> paced ls -> uc_lost (mc_uc d) = 0.
Proof.
  intros U R. revert ls d R. apply (mac_run_ind E (fun ls d => Forall mac_label_ok ls -> paced ls -> uc_lost (mc_uc d) = 0)).
  - intros _ _. destruct started as (u' & E' & _ & _ & _ & _ & Z). rewrite U in E'. assert (u = u') by congruence. now subst.
  - intros ls d l d' R IH S F P. apply Forall_app in F as [F Fl]. inversion_clear Fl as [|? ? Lo _].
    destruct (tally_run _ _ _ _ _ U R F) as (qr & [I Wr Nt Tk]). specialize (IH F (paced_prefix _ _ P)).
    destruct (mac_inv_step E d qr l _ I Lo S) as (qr' & I' & T). destruct l as [a r| |ka junk|i].
    + destruct T as (T1 & T2 & T3 & T4 & T5). rewrite T5, IH.
      specialize (P (ls ++ [MReport a r]) [] ltac:(now rewrite app_nil_r)).
      rewrite reports_app, notifies_app, app_length in P. cbn in P. pose proof (mi_notes1 _ _ I).
      replace (16 <? len qr) with false; [reflexivity|]. unfold len. lia.
    + destruct T as (_ & _ & _ & T5). congruence.
    + destruct T as (_ & _ & _ & _ & T5). congruence.
    + destruct T as (_ & _ & _ & _ & T5). congruence.
Qed.

Lemma mac_in_order E u w ls d : usb_driver_start = Ok (Some u) -> mac_run E (mac_init u w) ls = Some (MRunning d) ->
  Forall mac_label_ok ls -> paced ls ->
  mc_seen d = firstn (notifies ls) (reports_of ls) /\ (notifies ls + mc_notes d = length (reports_of ls))%nat.
Proof.
  intros U R F P. destruct (tally_run _ _ _ _ _ U R F) as (qr & [I Wr Nt Tk]).
  pose proof (none_lost _ _ _ _ _ U R F P) as Z.
  assert (Sf : mc_seen d ++ qr = mc_written d).
  { apply sub_full; [apply (mi_sub _ _ I)|]. pose proof (mi_count _ _ I) as C. rewrite Z in C. rewrite app_length. unfold len in C. lia. }
  pose proof (mi_notes1 _ _ I). pose proof (mi_notes2 _ _ I) as N2. rewrite Z in N2. unfold len in N2. split; [|lia].
  rewrite <- Wr, <- Sf. apply (f_equal (@length bytes)) in Sf. rewrite app_length, Wr in Sf.
  rewrite firstn_app. replace (notifies ls) with (length (mc_seen d)) by lia. rewrite firstn_all, Nat.sub_diag. cbn. now rewrite app_nil_r.
Qed.

(* Whatever the host does: no report twice, none out of order, at most 17 waiting; only reports
   beyond those 17 are lost. *)
Lemma mac_at_most_once E u w ls d : usb_driver_start = Ok (Some u) -> mac_run E (mac_init u w) ls = Some (MRunning d) ->
  Forall mac_label_ok ls ->
  exists waiting, sub (mc_seen d ++ waiting) (reports_of ls) /\ (length waiting <= 17)%nat /\
    ll_num (uc_list (mc_uc d)) = len waiting /\
    len (reports_of ls) = len (mc_seen d) + len waiting + uc_lost (mc_uc d).
Proof.
  intros U R F. destruct (tally_run _ _ _ _ _ U R F) as (qr & [I Wr Nt Tk]). exists qr. rewrite <- Wr.
  split; [apply (mi_sub _ _ I)|]. split; [apply (dv_max _ _ (mi_drv _ _ I))|]. split; [apply drv_num, I|apply (mi_count _ _ I)].
Qed.

(* ---------------------------------------------------- progress *)
Lemma mac_progress_inv E : forall n d qr, mac_inv d qr -> mc_notes d = n ->
  exists ls m, Forall works ls /\ mac_run E d ls = Some m /\
    match m with
    | MRunning d' => settled d' /\ mc_seen d' = mc_seen d ++ qr /\ mc_written d' = mc_written d
    | MDead _ => True
    | MCorrupt _ => False
    end.
Proof.
  assert (HD : forall d qr x, mac_inv d qr -> mc_current d = Some x ->
    exists m, mac_step E d (MHandle 0 (fun _ => zeros 64)) = Some m /\
      match m with
      | MRunning d' => mac_inv d' qr /\ mc_current d' = None /\ mc_notes d' = mc_notes d /\
                       mc_seen d' = mc_seen d /\ mc_written d' = mc_written d
      | MDead _ => True
      | MCorrupt _ => False
      end).
  { intros d qr x I C.
    assert (Lo : mac_label_ok (MHandle 0 (fun _ => zeros 64))) by (intro; reflexivity).
    destruct (mac_step E d (MHandle 0 (fun _ => zeros 64))) as [m|] eqn:S.
    - exists m. split; [reflexivity|]. pose proof (mac_inv_step E d qr _ m I Lo S) as T. destruct m as [d'|w|w]; auto.
      destruct T as (qr' & I' & T1 & T2 & T3 & -> & T5). split; [exact I'|]. split; [|auto].
      cbn [mac_step] in S. rewrite C in S. cbn [obind] in S. destruct (send_all _ _ _ _) as [[[]]|]; [|discriminate S].
      destruct (o_res _); [|discriminate S]. now injection S as <-.
    - exfalso. cbn [mac_step] in S. rewrite C in S. cbn [obind] in S. destruct (send_all _ _ _ _) as [[[]]|]; [|discriminate S].
      destruct (o_res _); discriminate S. }
  assert (W1 : works (MHandle 0 (fun _ => zeros 64))) by (intro; reflexivity).
  assert (Idle : forall n d qr, mac_inv d qr -> mc_notes d = n -> mc_current d = None ->
    exists ls m, Forall works ls /\ mac_run E d ls = Some m /\
    match m with
    | MRunning d' => settled d' /\ mc_seen d' = mc_seen d ++ qr /\ mc_written d' = mc_written d
    | MDead _ => True
    | MCorrupt _ => False
    end).
  { induction n as [|n IH]; intros d qr I N C.
    - exists [], (MRunning d). split; [constructor|]. split; [reflexivity|]. split; [split; auto|].
      pose proof (mi_notes1 _ _ I). destruct qr; [|cbn in *; lia]. now rewrite app_nil_r.
    - destruct (mac_step E d MNotify) as [m|] eqn:S.
      2:{ exfalso. cbn [mac_step] in S. rewrite C, N in S. destruct (notify_frame _) as [[]|]; discriminate S. }
      pose proof (mac_inv_step E d qr MNotify m I Logic.I S) as T. destruct m as [d1|w|w]; [| |destruct T].
      2:{ exfalso. cbn [mac_step] in S. rewrite C, N in S. destruct (notify_frame _) as [[]|]; discriminate S. }
      destruct T as (qr' & I' & T1 & T2 & T3 & T5). destruct qr as [|r q].
      + destruct T3 as (T3 & -> & T4). destruct (IH d1 [] I' ltac:(lia) T4) as (ls & m & A & B & D).
        exists (MNotify :: ls), m. split; [constructor; [exact Logic.I|exact A]|]. split; [cbn [mac_run]; rewrite S; exact B|].
        destruct m; auto. rewrite T3, T1 in D. exact D.
      + destruct T3 as (T3 & -> & T4). destruct (HD d1 q r I' T4) as (m & S2 & D). destruct m as [d2|w|w]; [| |destruct D].
        * destruct D as (I2 & C2 & N2 & Se & Wr). destruct (IH d2 q I2 ltac:(lia) C2) as (ls & m & A & B & D).
          exists (MNotify :: MHandle 0 (fun _ => zeros 64) :: ls), m. split; [repeat (constructor; [assumption || exact Logic.I|]); exact A|].
          split; [cbn [mac_run]; rewrite S; cbn [obind]; rewrite S2; exact B|]. destruct m; auto.
          destruct D as (D1 & D2 & D3). split; [exact D1|]. rewrite D2, D3, Se, Wr, T3, T1. split; [now rewrite <- app_assoc|reflexivity].
        * exists [MNotify; MHandle 0 (fun _ => zeros 64)], (MDead w). split; [repeat (constructor; [assumption || exact Logic.I|]); constructor|].
          split; [cbn [mac_run]; rewrite S; cbn [obind]; rewrite S2; reflexivity|exact Logic.I]. }
  intros n d qr I N. destruct (mc_current d) as [x|] eqn:C; [|now apply (Idle n)].
  destruct (HD d qr x I C) as (m & S2 & D). destruct m as [d2|w|w]; [| |destruct D].
  - destruct D as (I2 & C2 & N2 & Se & Wr). destruct (Idle n d2 qr I2 ltac:(lia) C2) as (ls & m & A & B & D).
    exists (MHandle 0 (fun _ => zeros 64) :: ls), m. split; [constructor; assumption|].
    split; [cbn [mac_run]; rewrite S2; exact B|]. destruct m; auto. rewrite Se, Wr in D. exact D.
  - exists [MHandle 0 (fun _ => zeros 64)], (MDead w). split; [constructor; [assumption|constructor]|].
    split; [cbn [mac_run]; rewrite S2; reflexivity|exact Logic.I].
Qed.

Lemma mac_progress E ps d : mac_life E ps (MUp d) ->
  exists ls m, Forall works ls /\ mac_run E d ls = Some m /\
    match m with
    | MRunning d' => settled d' /\ mc_written d' = mc_written d /\
        len (mc_seen d') = len (mc_seen d) + ll_num (uc_list (mc_uc d))
    | MDead _ => True
    | MCorrupt _ => False
    end.
Proof.
  intro L. destruct (life_inv _ _ _ L) as (qr & I). destruct (mac_progress_inv E _ d qr I eq_refl) as (ls & m & A & B & C).
  exists ls, m. split; [exact A|]. split; [exact B|]. destruct m; auto. destruct C as (C1 & C2 & C3). split; [exact C1|]. split; [exact C3|].
  rewrite C2, len_app. now rewrite (drv_num _ _ (mi_drv _ _ I)).
Qed.

(* ---------------------------------------------------- what the host reads *)
Lemma mac_runs E u w ls d : usb_driver_start = Ok (Some u) -> mac_run E (mac_init u w) ls = Some (MRunning d) ->
  Forall mac_label_ok ls -> Forall mac_no_local ls ->
  let o := hid_run (device_apps E) new_server w (combine (ticks_of ls) (mc_seen d)) in
  o_res o = Ok tt /\ o_srv o = mc_srv d /\ o_app o = mc_world d /\ o_packets o = mc_host d.
Proof.
  intros U R. cbv zeta. revert ls d R. apply (mac_run_ind E (fun ls d => Forall mac_label_ok ls -> Forall mac_no_local ls ->
    let o := hid_run (device_apps E) new_server w (combine (ticks_of ls) (mc_seen d)) in
    o_res o = Ok tt /\ o_srv o = mc_srv d /\ o_app o = mc_world d /\ o_packets o = mc_host d)).
  - intros _ _. cbn. auto.
  - intros ls d l d' R IH S F NL. apply Forall_app in F as [F Fl]. inversion_clear Fl as [|? ? Lo _].
    apply Forall_app in NL as [NL NLl]. inversion_clear NLl as [|? ? Nl _].
    destruct (tally_run _ _ _ _ _ U R F) as (qr & [I Wr Nt Tk]). specialize (IH F NL). cbv zeta in IH |- *.
    pose proof (mac_inv_step E d qr l _ I Lo S) as (qr' & I' & T).
    destruct l as [a r| |ka junk|i]; [| | |destruct Nl]; rewrite ticks_app; cbn [ticks_of flat_map app].
    + destruct T as (T1 & T2 & T3 & T4 & T5). rewrite app_nil_r, T3. cbn [mac_step] in S. destruct (_ || _); [discriminate|].
      destruct (new_hid_frame _ _ _) as [[]|]; [|discriminate S]. injection S as <-. exact IH.
    + rewrite app_nil_r. cbn [mac_step] in S. destruct (mc_current d) as [m0|]; [discriminate S|].
      destruct (mc_notes d) as [|n]; [discriminate S|]. destruct (notify_frame _) as [[u' x]|]; [|discriminate S].
      injection S as <-. cbn [mc_seen mc_srv mc_world mc_host].
      replace (combine (ticks_of ls) (mc_seen d ++ match x with Some y => [y] | None => [] end)) with (combine (ticks_of ls) (mc_seen d)); [exact IH|].
      assert (Lt : length (mc_seen d) = length (ticks_of ls)) by lia. clear - Lt. revert Lt. generalize (mc_seen d). generalize (ticks_of ls).
      induction l as [|t l IHl]; intros [|s l0] Lt; cbn in *; try reflexivity; try discriminate Lt. f_equal. apply IHl. lia.
    + destruct T as (T1 & T2 & T3 & T4 & T5). rewrite T3. pose proof (mi_current _ _ I) as Cu. cbn [mac_step] in S.
      destruct (mc_current d) as [m0|] eqn:Cd; [|discriminate S]. cbn [obind] in S.
      rewrite (send_packets _ junk (dv_device _ _ (mi_drv _ _ I)) Lo _ 0%nat (handle_64 _ _ _ _ _)) in S.
      destruct Cu as (before & Se). rewrite Se, app_length in Tk. cbn in Tk.
      assert (Lb : length (ticks_of ls) = length before) by lia.
      rewrite Se in IH |- *. rewrite combine_snoc by exact Lb.
      assert (combine (ticks_of ls) (before ++ [m0]) = combine (ticks_of ls) before) as Cm.
      { rewrite combine_split by lia. rewrite <- Lb, firstn_all, skipn_all. apply app_nil_r. }
      rewrite Cm in IH. destruct IH as (IH1 & IH2 & IH3 & IH4). rewrite hid_run_app. cbv zeta. rewrite IH1. cbn [hid_run].
      rewrite IH2, IH3. destruct (o_res (hid_handle (device_apps E) (mc_srv d) (mc_world d) ka m0)) as [[]|] eqn:Rs; [|discriminate S].
      injection S as <-. cbn [o_res o_srv o_app o_packets mc_srv mc_world mc_host]. rewrite IH4, app_nil_r. auto.
Qed.

Lemma settled_seen E u w ls d : usb_driver_start = Ok (Some u) -> mac_run E (mac_init u w) ls = Some (MRunning d) ->
  Forall mac_label_ok ls -> paced ls -> settled d ->
  mc_seen d = reports_of ls /\ length (ticks_of ls) = length (reports_of ls).
Proof.
  intros U R F P [S1 S2]. destruct (mac_in_order _ _ _ _ _ U R F P) as [O1 O2]. rewrite S1, Nat.add_0_r in O2.
  destruct (tally_run _ _ _ _ _ U R F) as (qr & [I Wr Nt Tk]). rewrite S2, Nat.add_0_r in Tk.
  assert (mc_seen d = reports_of ls) as Q by (rewrite O1, O2; apply firstn_all). split; [exact Q|]. now rewrite Tk, Q.
Qed.

Lemma reports_wfb ls : Forall mac_label_ok ls -> Forall wfb (reports_of ls).
Proof.
  induction 1 as [|l ls H F IH]; [constructor|]. destruct l; cbn [reports_of flat_map app]; auto. constructor; [apply H|exact IH].
Qed.

Lemma mac_transaction E u w ls d ch cmd before m w' r : usb_driver_start = Ok (Some u) ->
  mac_run E (mac_init u w) ls = Some (MRunning d) -> Forall mac_label_ok ls -> Forall mac_no_local ls ->
  paced ls -> settled d ->
  reports_of ls = before ++ host_send ch cmd m ->
  0 < ch < 0xFFFFFFFF -> cmd = 0x90 \/ cmd = 0x83 -> len m <= 7609 ->
  let b := hid_run (device_apps E) new_server w (combine (firstn (length before) (ticks_of ls)) before) in
  idle (o_srv b) ch ->
  (if cmd =? 0x90 then ctap_handle E m else u2f_handle E m) (o_app b) = (w', Ok r) -> 1 <= len r <= 7609 ->
  exists reply, filter (on_channel ch) (mc_host d) = filter (on_channel ch) (o_packets b) ++ reply /\
    host_await ch reply = Some (cmd, r) /\ mc_world d = w'.
Proof.
  intros U R F NL P St Wr Hch Hc Hm b Id Ap Hr. destruct (settled_seen _ _ _ _ _ U R F P St) as [Se Hk].
  destruct (mac_runs E u w ls d U R F NL) as (O1 & O3 & O2 & O4). rewrite Se, Wr in O1, O2, O3, O4.
  rewrite Wr, app_length in Hk. pose proof (reports_wfb _ F) as Wf. rewrite Wr in Wf. apply Forall_app in Wf as [Wf1 Wf2].
  rewrite combine_split in O1, O2, O3, O4 by lia.
  rewrite hid_run_app in O1, O2, O3, O4. cbv zeta in O1, O2, O3, O4. fold b in O1, O2, O3, O4.
  destruct (o_res b) as [[]|] eqn:Rb; [|rewrite Rb in O1; discriminate O1].
  assert (Hl : length (skipn (length before) (ticks_of ls)) = length (host_send ch cmd m)).
  { rewrite skipn_length. lia. }
  assert (Ap' : (if cmd =? 0x90 then app_ctap (device_apps E) (o_app b) m else app_u2f (device_apps E) (o_app b) m) = (w', Ok r)).
  { unfold device_apps. cbn [app_ctap app_u2f]. now destruct (cmd =? 0x90). }
  destruct (transaction (device_apps E) (o_srv b) (o_app b) ch cmd m _ w' r ltac:(lia) ltac:(lia) Hc Hm Id Hl Ap' Hr)
    as (T1 & T2 & T3 & T4).
  cbn [o_res o_srv o_app o_packets] in O1, O2, O3, O4.
  eexists. split; [rewrite <- O4, filter_app; reflexivity|].
  rewrite filter_on_channel.
  { split; [exact T1|]. now rewrite <- O2. }
  apply run_on_channel.
  - apply (combine_all (fun x => wfb x /\ takeN 4 x = le 4 ch)).
    pose proof (host_send_channel ch cmd m) as Cc. rewrite Forall_forall in *. auto.
  - apply run_chan_inv; [now apply combine_all|apply new_server_chan_inv].
Qed.

(* ---------------------------------------------------- memory *)
Lemma mac_memory E ps d : mac_life E ps (MUp d) -> mc_cbytes d = 64 * len (mc_host d).
Proof. intro L. destruct (life_inv _ _ _ L) as (qr & I). apply I. Qed.

(* one PING of one byte on the broadcast channel *)
Definition ping1 : bytes := [255; 255; 255; 255; 129; 0; 1; 7].

Lemma chan_lookup_set k v l : chan_lookup k (chan_set k v l) = Some v.
Proof.
  induction l as [|[k' v'] l IH]; cbn [chan_set chan_lookup]; [now rewrite N.eqb_refl|].
  destruct (k' =? k) eqn:E; cbn [chan_lookup]; rewrite E; auto.
Qed.

Lemma ping_once E d : mac_inv d [] -> settled d -> chan_lookup 0xFFFFFFFF (srv_channels (mc_srv d)) = Some None ->
  exists ls d', Forall mac_label_ok ls /\ mac_run E d ls = Some (MRunning d') /\ mac_inv d' [] /\ settled d' /\
    chan_lookup 0xFFFFFFFF (srv_channels (mc_srv d')) = Some None /\ mc_cbytes d' = mc_cbytes d + 64.
Proof.
  intros I [N0 C0] Ch.
  assert (L1 : mac_label_ok (MReport 1 ping1)) by (split; [now apply wfbb_iff|vm_compute; discriminate]).
  assert (Fr : allocated (uc_heap (mc_uc d)) 1 = false).
  { destruct (dv_rep _ _ (mi_drv _ _ I)) as (q & Rq & M). destruct q; [|discriminate M]. now rewrite (rep_allocated _ _ _ 1 Rq). }
  destruct (mac_step E d (MReport 1 ping1)) as [m1|] eqn:S1.
  2:{ exfalso. cbn [mac_step] in S1. rewrite Fr in S1. cbn in S1. destruct (new_hid_frame _ _ _) as [[]|]; discriminate S1. }
  pose proof (mac_inv_step E d [] _ _ I L1 S1) as T. destruct m1 as [d1|w1|w1]; [| |destruct T].
  2:{ exfalso. cbn [mac_step] in S1. rewrite Fr in S1. cbn in S1. destruct (new_hid_frame _ _ _) as [[]|]; discriminate S1. }
  destruct T as (q1 & I1 & _ & Nt1 & _ & -> & _). change (16 <? len []) with false in I1. cbn [app] in I1.
  assert (K1 : mc_current d1 = None /\ mc_srv d1 = mc_srv d /\ mc_cbytes d1 = mc_cbytes d).
  { cbn [mac_step] in S1. rewrite Fr in S1. cbn in S1. destruct (new_hid_frame _ _ _) as [[]|]; [|discriminate S1]. injection S1 as <-. auto. }
  destruct K1 as (C1 & Sr1 & Cb1).
  destruct (mac_step E d1 MNotify) as [m2|] eqn:S2.
  2:{ exfalso. cbn [mac_step] in S2. rewrite C1, Nt1 in S2. destruct (notify_frame _) as [[]|]; discriminate S2. }
  pose proof (mac_inv_step E d1 _ MNotify _ I1 Logic.I S2) as T. destruct m2 as [d2|w2|w2]; [| |destruct T].
  2:{ exfalso. cbn [mac_step] in S2. rewrite C1, Nt1 in S2. destruct (notify_frame _) as [[]|]; discriminate S2. }
  destruct T as (q2 & I2 & _ & Nt2 & (_ & -> & C2) & _).
  assert (K2 : mc_srv d2 = mc_srv d1 /\ mc_cbytes d2 = mc_cbytes d1).
  { cbn [mac_step] in S2. rewrite C1, Nt1 in S2. destruct (notify_frame _) as [[]|]; [|discriminate S2]. injection S2 as <-. auto. }
  destruct K2 as (Sr2 & Cb2).
  assert (L3 : mac_label_ok (MHandle 0 (fun _ => zeros 64))) by (intro; reflexivity).
  assert (H3 : hid_handle (device_apps E) (mc_srv d2) (mc_world d2) 0 ping1 =
    mk_outcome (srv_set (mc_srv d2) 0xFFFFFFFF None) (mc_world d2) (create_response_packets 0xFFFFFFFF 129 [7]) (Ok tt)).
  { unfold hid_handle. change (M_Util.read_le 4 ping1) with (Ok (0xFFFFFFFF, [129; 0; 1; 7])). cbv iota beta.
    rewrite Sr2, Sr1, Ch. unfold channel_handle.
    change (new_transaction ping1) with (Ok (mk_txn true false 0 (Some (mk_tresult 0xFFFFFFFF 129 1 0 [7] [])))). reflexivity. }
  destruct (mac_step E d2 (MHandle 0 (fun _ => zeros 64))) as [m3|] eqn:S3.
  2:{ exfalso. cbn [mac_step] in S3. rewrite C2 in S3. cbn [obind] in S3. rewrite H3 in S3. cbn [o_packets o_res] in S3.
      destruct (send_all _ _ _ _) as [[[]]|]; discriminate S3. }
  pose proof (mac_inv_step E d2 _ _ _ I2 L3 S3) as T. destruct m3 as [d3|w3|w3]; [| |destruct T].
  2:{ exfalso. cbn [mac_step] in S3. rewrite C2 in S3. cbn [obind] in S3. rewrite H3 in S3. cbn [o_packets o_res] in S3.
      destruct (send_all _ _ _ _) as [[[]]|]; discriminate S3. }
  destruct T as (q3 & I3 & _ & Nt3 & _ & -> & _).
  assert (K3 : mc_current d3 = None /\ mc_srv d3 = srv_set (mc_srv d2) 0xFFFFFFFF None /\ mc_cbytes d3 = mc_cbytes d2 + 64).
  { cbn [mac_step] in S3. rewrite C2 in S3. cbn [obind] in S3. rewrite H3 in S3. cbn [o_packets o_res o_srv o_app] in S3.
    rewrite (send_packets _ _ (dv_device _ _ (mi_drv _ _ I2)) L3 _ 0%nat (ltac:(vm_compute; repeat constructor) : Forall (fun p => len p = 64) (create_response_packets 0xFFFFFFFF 129 [7]))) in S3.
    injection S3 as <-. cbn [mc_current mc_srv mc_cbytes]. auto. }
  destruct K3 as (C3 & Sr3 & Cb3).
  exists [MReport 1 ping1; MNotify; MHandle 0 (fun _ => zeros 64)], d3.
  split; [repeat (constructor; [assumption || exact Logic.I|]); constructor|].
  split; [cbn [mac_run]; rewrite S1; cbn [obind]; rewrite S2; cbn [obind]; rewrite S3; reflexivity|].
  split; [exact I3|]. split; [split; [lia|exact C3]|]. split; [|lia].
  rewrite Sr3. cbn [srv_set srv_channels]. apply chan_lookup_set.
Qed.

Lemma mac_life_run E ps ls : forall d d', mac_life E ps (MUp d) -> Forall mac_label_ok ls ->
  mac_run E d ls = Some (MRunning d') -> mac_life E ps (MUp d').
Proof.
  induction ls as [|l ls IH]; intros d d' L F R; cbn [mac_run] in R.
  - now injection R as <-.
  - inversion_clear F. destruct (mac_step E d l) as [[d1|w|w]|] eqn:S; cbn [obind] in R; try discriminate R; try (destruct ls; discriminate R).
    eapply IH; [|eassumption|exact R]. eapply ML_step; eauto.
Qed.

Lemma mac_unbounded E ps u w : mac_life E ps (MUp (mac_init u w)) -> usb_driver_start = Ok (Some u) ->
  forall n, exists d, mac_life E ps (MUp d) /\ mac_inv d [] /\ settled d /\
    chan_lookup 0xFFFFFFFF (srv_channels (mc_srv d)) = Some None /\ mc_cbytes d = 64 * N.of_nat n.
Proof.
  intros L U n. induction n as [|n (d & Ld & I & S & Ch & Cb)].
  - exists (mac_init u w). split; [exact L|]. split; [now apply mac_inv_init|]. split; [split; reflexivity|]. split; reflexivity.
  - destruct (ping_once E d I S Ch) as (ls & d' & F & R & I' & S' & Ch' & Cb').
    exists d'. split; [eapply mac_life_run; eauto|]. split; [exact I'|]. split; [exact S'|]. split; [exact Ch'|]. rewrite Cb', Cb. lia.
Qed.

(* ---------------------------------------------------- the driver's methods *)
Definition refused (u : uc) : res mresult := Ok (mk_mresult u KBadArgument None []).

Lemma stop_never u a r : external_method u 4 a = Ok r -> r = mk_mresult u KBadArgument None [].
Proof.
  unfold external_method. cbn [method]. destruct (pass _ a) eqn:P; [|intro E; now injection E as <-].
  unfold pass in P. cbn [ck_completion ck_scalars_in ck_scalars_out ck_in ck_out] in P.
  unfold handle_send_frame. unfold in_size in P. destruct (ma_in a) as [b|]; [|discriminate]. destruct b; [discriminate|].
  exfalso. rewrite len_cons in P. destruct (0 =? 1 + len b) eqn:Q; [apply N.eqb_eq in Q; lia|]. now rewrite !andb_false_r in P.
Qed.

Lemma methods_total E ps d sel a : mac_life E ps (MUp d) -> sel <> 4 ->
  exists r, external_method (mc_uc d) sel a = Ok r /\
    (mr_ret r = KBadArgument -> mr_uc r = mc_uc d /\ mr_out r = None /\ mr_reports r = []) /\
    Forall (fun p => 1 <= len p <= 64) (mr_reports r).
Proof.
  intros L S4. destruct (life_inv _ _ _ L) as (qr & I). pose proof (mi_drv _ _ I) as [(q & Rq & Mq) Mx Ft Dv Nt].
  unfold external_method. destruct sel as [|p].
  - cbn [method]. destruct (pass _ a) eqn:P; [|eexists; split; [reflexivity|]; cbn; auto].
    unfold pass, in_size in P. cbn [ck_completion ck_scalars_in ck_scalars_out ck_in ck_out] in P.
    unfold handle_send_frame. destruct (ma_in a) as [[|l0 b]|]; [now rewrite andb_false_r in P| |now rewrite andb_false_r in P].
    destruct ((l0 =? 0) || (64 <? l0)) eqn:B; (eexists; split; [reflexivity|]); cbn [mr_ret mr_uc mr_out mr_reports].
    + auto.
    + split; [discriminate|]. rewrite Dv. constructor; [|constructor].
      assert (len b = 64).
      { rewrite len_cons in P. destruct (65 =? 1 + len b) eqn:Q; [apply N.eqb_eq in Q; lia|].
        rewrite andb_false_r in P. discriminate P. }
      rewrite takeN_len. apply orb_false_elim in B as [B1 B2]. apply N.eqb_neq in B1. apply N.ltb_ge in B2. lia.
  - assert (Ref : forall x, x = mk_mresult (mc_uc d) KBadArgument None [] ->
      exists r, Ok x = Ok r /\ (mr_ret r = KBadArgument -> mr_uc r = mc_uc d /\ mr_out r = None /\ mr_reports r = []) /\
        Forall (fun p => 1 <= len p <= 64) (mr_reports r)).
    { intros x ->. eexists. split; [reflexivity|]. cbn. auto. }
    assert (Oth : forall u o, exists r, Ok (mk_mresult u KSuccess o []) = Ok r /\
        (mr_ret r = KBadArgument -> mr_uc r = mc_uc d /\ mr_out r = None /\ mr_reports r = []) /\
        Forall (fun p => 1 <= len p <= 64) (mr_reports r)).
    { intros u o. eexists. split; [reflexivity|]. cbn. split; [discriminate|constructor]. }
    destruct p as [[p|p|]|[p|p|]|]; cbn [method]; try (now apply Ref);
      try (destruct p; try (now apply Ref); congruence).
    + destruct (pass _ a); [|now apply Ref]. unfold handle_start_device. apply Oth.
    + destruct (pass _ a); [|now apply Ref]. unfold handle_get_frame. destruct q as [|[b x] q].
      * rewrite (rep_pop_empty _ _ Rq). cbn [rbind]. eexists. split; [reflexivity|]. cbn. split; [discriminate|constructor].
      * destruct (rep_pop _ _ _ _ _ Rq) as (h1 & l1 & E1 & _). rewrite E1. cbn [rbind]. apply Oth.
    + destruct (pass _ a); [|now apply Ref]. unfold handle_notify_frame. destruct (ma_completion a); [apply Oth|now apply Ref].
Qed.
