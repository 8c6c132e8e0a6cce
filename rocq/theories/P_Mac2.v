(* The invariant of the device on macOS: no access outside of an object, frames kept in order. *)
From Verif Require Import Base M_Util M_Hid M_Crypto M_Cose M_State M_Client M_Ctap M_U2f M_History M_Device M_Mac S_Mac S_Hid P_Hid1 P_Mac1.

Lemma ok_inj {A} (x y : A) : Ok x = Ok y -> x = y.
Proof. congruence. Qed.

(* ---------------------------------------------------- frames *)
Definition frame_of (r : bytes) : bytes := (len r mod 256) :: r ++ dropN (len r) (zeros 64).
Definition report_fits (r : bytes) : Prop := wfb r /\ len r <= 64.

(* the reports [qr] wait in the driver *)
Record drv (u : uc) (qr : list bytes) : Prop := mk_drv {
  dv_rep : exists q, rep (uc_heap u) (uc_list u) q /\ map snd q = map frame_of qr;
  dv_max : (length qr <= 17)%nat;
  dv_fits : Forall report_fits qr;
  dv_device : uc_device u = true;
  dv_notify : uc_notify u = true }.

Lemma drv_num u qr : drv u qr -> ll_num (uc_list u) = len qr.
Proof.
  intros [(q & R & M) Mx _ _ _]. rewrite (rp_num _ _ _ R). apply (f_equal (@length bytes)) in M. rewrite !map_length in M.
  unfold len. rewrite M. apply N.mod_small. lia.
Qed.

Lemma new_frame u qr a r : drv u qr -> report_fits r -> a <> 0 -> allocated (uc_heap u) a = false ->
  exists u', new_hid_frame u a r = Ok (u', true) /\
    drv u' ((if (16 <? len qr) then tl qr else qr) ++ [r]) /\
    uc_lost u' = uc_lost u + (if 16 <? len qr then 1 else 0).
Proof.
  intros K [Fw Fl] A0 Al. unfold new_hid_frame. rewrite (dv_notify _ _ K), (drv_num _ _ K). cbn [negb].
  destruct K as [(q & R & M) Mx F Dv Nt].
  assert (ML : length q = length qr) by (apply (f_equal (@length bytes)) in M; now rewrite !map_length in M).
  assert (C : memcpy_data (zeros 64) r = Ok (r ++ dropN (len r) (zeros 64))).
  { unfold memcpy_data. replace (len r <=? 64) with true by lia. reflexivity. }
  assert (Fr : ~ In a (map fst q)).
  { apply not_live. now rewrite <- (rep_allocated _ _ _ a R). }
  destruct (16 <? len qr) eqn:B.
  - destruct qr as [|r0 qr]; [discriminate B|]. destruct q as [|[b d] q]; [discriminate ML|].
    destruct (rep_pop _ _ _ _ _ R) as (h1 & l1 & E1 & R1). rewrite E1. cbn [rbind uc_heap uc_list uc_device uc_notify uc_lost].
    rewrite C. cbn [rbind].
    destruct (rep_push h1 l1 q a (frame_of r) R1 A0) as (h2 & l2 & E2 & R2).
    { intro I. apply Fr. now right. }
    change ((len r mod 256) :: r ++ dropN (len r) (zeros 64)) with (frame_of r). rewrite E2. cbn [rbind].
    eexists. split; [reflexivity|]. cbn [tl uc_lost]. split; [|reflexivity].
    cbn [map] in M. injection M as M1 M2. split; cbn [uc_heap uc_list uc_device uc_notify]; auto.
    + exists (q ++ [(a, frame_of r)]). split; [exact R2|]. rewrite !map_app, M2. reflexivity.
    + rewrite app_length. cbn in *. lia.
    + apply Forall_app. split; [now inversion F|]. repeat constructor; auto.
  - cbn [rbind]. rewrite C. cbn [rbind].
    destruct (rep_push _ _ q a (frame_of r) R A0 Fr) as (h2 & l2 & E2 & R2).
    change ((len r mod 256) :: r ++ dropN (len r) (zeros 64)) with (frame_of r). rewrite E2. cbn [rbind].
    eexists. split; [reflexivity|]. cbn [uc_lost]. split; [|lia].
    split; cbn [uc_heap uc_list uc_device uc_notify]; auto.
    + exists (q ++ [(a, frame_of r)]). split; [exact R2|]. rewrite !map_app, M. reflexivity.
    + rewrite app_length. cbn. unfold len in B. lia.
    + apply Forall_app. split; [exact F|]. repeat constructor; auto.
Qed.

Lemma notify_none u : drv u [] -> notify_frame u = Ok (u, None).
Proof.
  intros [(q & R & M) _ _ Dv Nt]. destruct q; [|discriminate M]. unfold notify_frame, external_method.
  cbn [method]. match goal with |- context [pass ?c ?x] => change (pass c x) with true end. cbv iota.
  unfold handle_get_frame. rewrite (rep_pop_empty _ _ R). cbn [rbind mr_ret mr_out mr_uc]. now destruct u.
Qed.

Lemma take_frame r : report_fits r -> takeN (len r) (r ++ dropN (len r) (zeros 64)) = r.
Proof. intros _. unfold takeN. rewrite <- length_len, firstn_app, Nat.sub_diag, firstn_all. cbn. apply app_nil_r. Qed.

Lemma notify_some u r qr : drv u (r :: qr) ->
  exists u', notify_frame u = Ok (u', Some r) /\ drv u' qr /\ uc_lost u' = uc_lost u.
Proof.
  intros [(q & R & M) Mx F Dv Nt]. destruct q as [|[a d] q]; [discriminate M|]. cbn [map snd] in M. injection M as Md M.
  unfold notify_frame, external_method.
  cbn [method]. match goal with |- context [pass ?c ?x] => change (pass c x) with true end. cbv iota.
  unfold handle_get_frame. destruct (rep_pop _ _ _ _ _ R) as (h1 & l1 & E1 & R1). rewrite E1. cbn [rbind mr_ret mr_out mr_uc].
  subst d. inversion F as [|? ? Fr F']; subst. destruct Fr as [Fw Fl]. unfold frame_of.
  rewrite (N.mod_small (len r) 256) by lia. replace (64 <? len r) with false by lia. cbv iota.
  rewrite take_frame by (split; auto).
  eexists. split; [reflexivity|]. split; [|reflexivity]. split; cbn [uc_heap uc_list uc_device uc_notify]; auto.
  - eauto.
  - cbn in Mx. lia.
Qed.

(* ---------------------------------------------------- sending *)
Definition all_64 (ps : list bytes) : Prop := Forall (fun p => len p = 64) ps.

Lemma send_one u junk p : uc_device u = true -> len p = 64 -> len junk = 64 ->
  handle_response u junk p = Ok (u, [p], 64).
Proof.
  intros Dv Lp Lj. unfold handle_response. rewrite Lp. change (0 <? 64) with true. cbv iota.
  unfold memcpy_data. rewrite Lp. change (64 <=? 64) with true. cbv iota.
  assert (dropN 64 junk = []) as ->.
  { apply len_0_nil. rewrite dropN_len, Lj. reflexivity. }
  rewrite app_nil_r. cbn [rbind]. unfold external_method. cbn [method].
  assert (pass (mk_checks false 0 0 65 0) (mk_margs false 0 0 (Some ((64 mod 256) :: p)) 0) = true) as ->.
  { unfold pass, in_size. cbn [ck_completion ck_scalars_in ck_scalars_out ck_in ck_out ma_completion ma_scalars_in ma_scalars_out ma_in ma_out].
    rewrite len_cons, Lp. reflexivity. }
  unfold handle_send_frame. cbn [ma_in]. change (64 mod 256) with 64. change ((64 =? 0) || (64 <? 64)) with false. cbv iota.
  rewrite Dv. cbn [rbind mr_uc mr_reports]. do 2 f_equal. f_equal.
  unfold takeN. replace (N.to_nat 64) with (length p) by (unfold len in Lp; lia). now rewrite firstn_all.
Qed.

Lemma send_packets u junk : uc_device u = true -> (forall i, len (junk i) = 64) -> forall ps i, all_64 ps ->
  send_all u junk i ps = Ok (u, ps, 64 * len ps).
Proof.
  intros Dv J. induction ps as [|p ps IH]; intros i A; cbn [send_all]; [reflexivity|].
  inversion A as [|? ? Ap As]; subst. rewrite send_one by auto. cbn [rbind]. rewrite IH by auto. cbn [rbind].
  replace (64 * len (p :: ps)) with (64 + 64 * len ps) by (rewrite len_cons; lia). reflexivity.
Qed.

Lemma spec_64 ch cmd p : all_64 (spec_packets ch cmd p).
Proof. unfold spec_packets. apply Forall_map, Forall_forall. intros i _. apply spec_packet_len. Qed.
Lemma concat_64 n ps : all_64 ps -> all_64 (concat (repeat ps n)).
Proof. intro A. induction n; cbn; [constructor|]. apply Forall_app. auto. Qed.

Lemma packets_64 ch cmd p : cmd < 256 -> all_64 (create_response_packets ch cmd p).
Proof. intro H. rewrite create_response_packets_spec by exact H. apply spec_64. Qed.

Lemma finalized_64 {A} (h : apps A) s a ka ch r : all_64 (o_packets (handle_finalized h s a ka ch r)).
Proof.
  unfold handle_finalized, handle_broadcast, handle_data, new_channel.
  repeat match goal with
  | |- context [if ?b then _ else _] => destruct b
  | |- context [let (_, _) := ?x in _] => destruct x as [? [?|]]
  end; cbn [o_packets]; try constructor; try (apply packets_64; reflexivity).
  - apply Forall_app. split; [|apply packets_64; reflexivity]. apply concat_64, packets_64. reflexivity.
  - apply concat_64, packets_64. reflexivity.
Qed.

Lemma handle_64 {A} (h : apps A) s a ka m : all_64 (o_packets (hid_handle h s a ka m)).
Proof.
  unfold hid_handle. destruct (read_le 4 m) as [[ch rest]|]; [|constructor].
  destruct (chan_lookup ch (srv_channels s)) as [cur|]; [|apply packets_64; reflexivity].
  unfold channel_handle. destruct (match cur with None => _ | Some _ => _ end) as [t|]; [|constructor].
  destruct (t_done t); [|constructor].
  match goal with |- context [match o_res ?x with _ => _ end] =>
    assert (all_64 (o_packets x)) as K; [|destruct (o_res x); exact K] end.
  destruct (negb (t_error t =? 0)); [apply packets_64; reflexivity|]. destruct (t_cancelled t); [constructor|].
  destruct (t_result t); [apply finalized_64|constructor].
Qed.

(* ---------------------------------------------------- the whole device *)
Record mac_inv (d : mac) (qr : list bytes) : Prop := mk_mac_inv {
  mi_drv : drv (mc_uc d) qr;
  mi_sub : sub (mc_seen d ++ qr) (mc_written d);
  mi_count : len (mc_written d) = len (mc_seen d) + len qr + uc_lost (mc_uc d);
  mi_notes1 : (length qr <= mc_notes d)%nat;
  mi_notes2 : N.of_nat (mc_notes d) <= len qr + uc_lost (mc_uc d);
  mi_current : match mc_current d with Some m => exists before, mc_seen d = before ++ [m] | None => True end;
  mi_written : Forall report_fits (mc_written d);
  mi_host : all_64 (mc_host d);
  mi_cbytes : mc_cbytes d = 64 * len (mc_host d) }.

Lemma sub_refl {A} (l : list A) : sub l l.
Proof. induction l; constructor; auto. Qed.
Lemma sub_app {A} (a b c d : list A) : sub a b -> sub c d -> sub (a ++ c) (b ++ d).
Proof. induction 1; cbn; intros; [assumption|constructor; auto|constructor; auto]. Qed.
Lemma sub_trans {A} (b c : list A) : sub b c -> forall a, sub a b -> sub a c.
Proof.
  induction 1 as [|x b c S IH|x b c S IH]; intros a K; auto.
  - inversion K; subst; constructor; auto.
  - constructor. auto.
Qed.
Lemma sub_in {A} (a b : list A) x : sub a b -> In x a -> In x b.
Proof. induction 1; cbn; intuition. Qed.
Lemma sub_length {A} (a b : list A) : sub a b -> (length a <= length b)%nat.
Proof. induction 1; cbn; lia. Qed.
Lemma sub_full {A} (a b : list A) : sub a b -> (length b <= length a)%nat -> a = b.
Proof.
  induction 1 as [|x a b S IH|x a b S IH]; cbn; intro L; [reflexivity|f_equal; apply IH; lia|].
  apply sub_length in S. lia.
Qed.
Lemma sub_tl {A} (l : list A) : sub (tl l) l.
Proof. destruct l; cbn; [constructor|]. constructor. apply sub_refl. Qed.

Lemma started : exists u, usb_driver_start = Ok (Some u) /\ uc_heap u = [] /\ uc_list u = ll_alloc /\
  uc_device u = true /\ uc_notify u = true /\ uc_lost u = 0.
Proof. eexists. split; [vm_compute; reflexivity|]. cbn. auto. Qed.

Lemma mac_inv_init u w : usb_driver_start = Ok (Some u) -> mac_inv (mac_init u w) [].
Proof.
  intro E. destruct started as (u' & E' & H & L & D & N & Z). rewrite E in E'.
  assert (u = u') by congruence. subst u'. unfold mac_init.
  split; cbn [mc_uc mc_notes mc_current mc_written mc_seen mc_host mc_cbytes app]; try constructor; rewrite ?Z; auto using Forall_nil.
  - exists []. rewrite H, L. split; [apply rep_empty|reflexivity].
  - cbn. lia.
  - vm_compute. discriminate.
Qed.

Lemma mac_inv_step E d qr l m : mac_inv d qr -> mac_label_ok l -> mac_step E d l = Some m ->
  match m with
  | MRunning d' => exists qr', mac_inv d' qr' /\
      (match l with
       | MReport _ r => mc_written d' = mc_written d ++ [r] /\ mc_notes d' = S (mc_notes d) /\
           mc_seen d' = mc_seen d /\ qr' = (if 16 <? len qr then tl qr else qr) ++ [r] /\
           uc_lost (mc_uc d') = uc_lost (mc_uc d) + (if 16 <? len qr then 1 else 0)
       | MNotify => mc_written d' = mc_written d /\ mc_notes d = S (mc_notes d') /\
           match qr with
           | [] => mc_seen d' = mc_seen d /\ qr' = [] /\ mc_current d' = None
           | r :: q => mc_seen d' = mc_seen d ++ [r] /\ qr' = q /\ mc_current d' = Some r
           end /\ uc_lost (mc_uc d') = uc_lost (mc_uc d)
       | _ => mc_written d' = mc_written d /\ mc_notes d' = mc_notes d /\ mc_seen d' = mc_seen d /\ qr' = qr /\
           uc_lost (mc_uc d') = uc_lost (mc_uc d)
       end)
  | MDead _ => True
  | MCorrupt _ => False
  end.
Proof.
  intros I L S. destruct I as [Dr Su Ct N1 N2 Cu Wr Ho Cb]. destruct l as [a r| |ka junk|i]; cbn [mac_step mac_label_ok] in *.
  - destruct (a =? 0) eqn:A0; [discriminate S|]. destruct (allocated (uc_heap (mc_uc d)) a) eqn:Al; [discriminate S|]. cbn [orb] in S.
    destruct (new_frame _ _ a r Dr L) as (u' & E1 & K & Lo); [now apply N.eqb_neq|exact Al|].
    rewrite E1 in S. injection S as <-. eexists. split; [|cbn; split; [reflexivity|split; [reflexivity|split; [reflexivity|split; [reflexivity|exact Lo]]]]].
    destruct (16 <? len qr) eqn:B.
    + destruct qr as [|r0 qr]; [discriminate B|]. cbn [tl] in *. pose proof (dv_max _ _ Dr) as Mx.
      split; cbn [mc_uc mc_notes mc_current mc_written mc_seen mc_host mc_cbytes]; auto.
      * rewrite app_assoc. apply sub_app; [|apply sub_refl]. eapply sub_trans; [exact Su|].
        apply sub_app; [apply sub_refl|]. constructor. apply sub_refl.
      * rewrite Lo. rewrite len_cons in *. rewrite !len_app in *. rewrite ?len_cons in *. lia.
      * rewrite app_length. cbn in *. lia.
      * rewrite Lo. rewrite !len_app in *. rewrite !len_cons in *. rewrite len_nil. lia.
      * apply Forall_app. auto.
    + split; cbn [mc_uc mc_notes mc_current mc_written mc_seen mc_host mc_cbytes]; auto.
      * rewrite app_assoc. apply sub_app; [exact Su|apply sub_refl].
      * rewrite Lo, !len_app. lia.
      * rewrite app_length. cbn in *. lia.
      * rewrite Lo, len_app, len_cons, len_nil. lia.
      * apply Forall_app. auto.
  - destruct (mc_current d) as [m0|] eqn:Cd; [discriminate S|]. destruct (mc_notes d) as [|n] eqn:Nd; [discriminate S|].
    destruct qr as [|r qr].
    + rewrite (notify_none _ Dr) in S. injection S as <-. exists [].
      split; [|cbn; auto 10 using app_nil_r].
      split; cbn [mc_uc mc_notes mc_current mc_written mc_seen mc_host mc_cbytes]; auto; rewrite ?app_nil_r in *; auto; cbn [length] in *; lia.
    + destruct (notify_some _ _ _ Dr) as (u' & E1 & K & Lo). rewrite E1 in S. injection S as <-.
      exists qr. split; [|cbn; auto 10].
      split; cbn [mc_uc mc_notes mc_current mc_written mc_seen mc_host mc_cbytes]; auto.
      * rewrite <- app_assoc. exact Su.
      * rewrite Lo, len_app. rewrite !len_cons in *. rewrite len_nil. lia.
      * cbn in N1. lia.
      * rewrite Lo. rewrite len_cons in N2. lia.
      * eauto.
  - destruct (mc_current d) as [m0|] eqn:Cd; [|discriminate S]. cbn [obind] in S.
    rewrite (send_packets _ junk (dv_device _ _ Dr) L _ 0%nat (handle_64 _ _ _ _ _)) in S.
    destruct (o_res _); injection S as <-; [|exact Logic.I].
    exists qr. split; [|cbn; auto 10].
    split; cbn [mc_uc mc_notes mc_current mc_written mc_seen mc_host mc_cbytes]; auto.
    + apply Forall_app. split; [exact Ho|apply handle_64].
    + rewrite len_app. lia.
  - destruct (local_input i); [|discriminate S]. destruct (handle E i (mc_world d)) as [w [o|]]; injection S as <-; [|exact Logic.I].
    exists qr. split; [|cbn; auto 10]. split; auto.
Qed.
