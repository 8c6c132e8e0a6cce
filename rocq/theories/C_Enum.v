(* Properties C130, C131, C132: what a host finds out about the device. *)
From Coq Require Import ZArith.
From Verif Require Import Base M_Util M_Usb M_ReqBuf M_Usbip S_Usb S_Usbip S_Enum P_Usb P_Usbip1 P_Usbip2 P_Enum.
Open Scope N_scope.

(* ---------------------------------------------------------------- C130 *)
(* A host that enumerates the device gets a token that is a FIDO authenticator and
   conforms to the standards. *)
Definition C130_full : Prop := exists t i o,
  enumerate device_transfer = Some t /\ authenticator t i o /\ conforming t.

(* The configuration's number is 0, and the report descriptor's maximum (one byte, 255)
   is -1, below the minimum. *)
Theorem C130_refuted : ~ C130_full /\ exists t, enumerate device_transfer = Some t /\
  tk_value t = 0 /\ (forall f, In f (report_fields (tk_report t)) -> fd_min f = 0%Z /\ fd_max f = (-1)%Z).
Proof.
  split.
  - intros (t & i & o & E & _ & V & _). rewrite enumerated in E. injection E as <-. now apply V.
  - exists the_token. split; [exact enumerated|]. split; [reflexivity|]. intros f H.
    split; [|exact (proj2 token_not_conforming f H)].
    assert (report_fields (tk_report the_token) = [mk_field false 0xF1D0 [0x20] 0%Z (-1)%Z 255 8 64;
      mk_field true 0xF1D0 [0x21] 0%Z (-1)%Z 255 8 64]) as E by (vm_compute; reflexivity).
    rewrite E in H. destruct H as [<-|[<-|[]]]; reflexivity.
Qed.
Print Assumptions C130_refuted.

(* Without these two: the host finds an authenticator. *)
Theorem C130_found_partial : exists t,
  enumerate device_transfer = Some t /\ authenticator t 1 2 /\
  length (report_fields (tk_report t)) = 2%nat /\ Forall any_byte_lenient (report_fields (tk_report t)).
Proof.
  exists the_token. split; [exact enumerated|]. split; [exact token_ok|].
  exact (proj2 (report_is_fido (mk_setup 0x81 6 0x2200 0 30) hid_report eq_refl eq_refl eq_refl)).
Qed.
Print Assumptions C130_found_partial.

(* Whatever setup packet asks an interface for a descriptor, an answer is a FIDO report
   descriptor. *)
Theorem C130_report_partial : forall s d,
  recipient (su_type s) = 1 -> su_request s = 6 -> handle_control_message s = Ok (Some d) ->
  fido_report d /\ length (report_fields d) = 2%nat /\ Forall any_byte_lenient (report_fields d).
Proof. exact report_is_fido. Qed.
Print Assumptions C130_report_partial.

(* These transfers are what happens on the wire: whatever state the device is in, a
   control submit for the device is answered with this payload, leaves the interrupt
   endpoints alone and the rest of the stream to be read. *)
Theorem C130_wire : forall s d seq devid dir flags start packets interval n setup dt rest,
  cn_phase (sy_conn s) = Commands d -> sy_pending s = None ->
  let m := MSubmit seq devid dir 0 flags start packets interval n setup dt in
  well_formed m -> concat (cn_stream (sy_conn s)) = message_bytes m ++ rest ->
  uncut (cn_stream (sy_conn s)) (len (head m)) (len (data m)) ->
  (forall payload, device_transfer setup n = Some payload -> exists s',
     sys_run s [SRead; SWrite] = Some s' /\
     sy_out s' = sy_out s ++ [spec_ret_submit seq n (if dir =? 1 then payload else [])] /\
     sy_in s' = sy_in s /\ sy_subs s' = sy_subs s /\ sy_delegate s' = sy_delegate s /\
     sy_pending s' = None /\ cn_phase (sy_conn s') = Commands d /\
     concat (cn_stream (sy_conn s')) = rest) /\
  (device_transfer setup n = None -> exists s',
     sys_run s [SRead] = Some s' /\
     sy_out s' = sy_out s /\ sy_pending s' = None /\ cn_phase (sy_conn s') = Commands d /\
     concat (cn_stream (sy_conn s')) = rest).
Proof.
  intros s d seq devid dir flags start packets interval n setup dt rest P N m W C U.
  pose proof (transfer_on_wire s d seq devid dir flags start packets interval n setup dt rest P N W C U) as T.
  unfold device_transfer. destruct (handle_control_message (read_setup setup)) as [[x|]|].
  - split; [|discriminate]. intros p H. injection H as <-. exact T.
  - split; [|discriminate]. intros p H. injection H as <-. exact T.
  - split; [discriminate|]. intros _. exact T.
Qed.
Print Assumptions C130_wire.

(* The endpoints the host found are those the device serves: a submit on the IN
   endpoint is queued for the device's packets, the data of one on the OUT endpoint goes
   to the authenticator, and there are no others. *)
Theorem C130_endpoints : forall t i o s s' c d h setup b,
  enumerate device_transfer = Some t -> authenticator t i o ->
  sy_pending s = None -> conn_step [usb_device] (sy_conn s) = (c, ASubmit d h setup b) ->
  sys_step s SRead = Some s' ->
  (hd_ep h = i -> sy_subs s' = sy_subs s ++ [(h, b)] /\ sy_delegate s' = sy_delegate s) /\
  (hd_ep h = o -> sy_delegate s' = sy_delegate s ++ [b] /\ sy_subs s' = sy_subs s /\ sy_in s' = sy_in s) /\
  (hd_ep h <> 0 -> hd_ep h <> i -> hd_ep h <> o ->
     sy_subs s' = sy_subs s /\ sy_delegate s' = sy_delegate s /\ sy_out s' = sy_out s /\ sy_pending s' = None).
Proof.
  intros t i o s s' c d h setup b E A P C S. rewrite enumerated in E. injection E as <-.
  destruct A as (_ & A & _). injection A as Ai Ao. subst i o.
  split; [|split]; intros.
  - eapply submit_in; eauto.
  - eapply submit_out; eauto.
  - eapply submit_other; eauto. lia.
Qed.
Print Assumptions C130_endpoints.

(* Every string a descriptor refers to can be read, and is text. *)
Theorem C130_strings : forall t i, enumerate device_transfer = Some t ->
  In i [nth 14 (tk_device t) 0; nth 15 (tk_device t) 0; nth 16 (tk_device t) 0;
        nth 6 (tk_config t) 0; nth 17 (tk_config t) 0] ->
  exists d text, device_transfer (get_desc 0x80 3 i 255) 255 = Some d /\
    nth 1 d 0 = 3 /\ utf16_text (takeN (nth 0 d 0 - 2) (dropN 2 d)) = Some text /\ text <> [].
Proof. exact strings_ok. Qed.
Print Assumptions C130_strings.

(* The first transfer of an enumeration, on the wire, cut in the middle of its header. *)
Definition enum_submit : message := MSubmit 7 2 1 0 0 0 0 0 18 (get_desc 0x80 1 0 18) [].
Definition enum_sys : sys :=
  mk_sys (mk_conn (Commands 0) [takeN 21 (message_bytes enum_submit); dropN 21 (message_bytes enum_submit) ++ [1; 2]])
    in_init [] None [] [] [].

Example C130_wire_example :
  cn_phase (sy_conn enum_sys) = Commands 0 /\ well_formed enum_submit /\
  concat (cn_stream (sy_conn enum_sys)) = message_bytes enum_submit ++ [1; 2] /\
  uncut (cn_stream (sy_conn enum_sys)) (len (head enum_submit)) (len (data enum_submit)) /\
  device_transfer (get_desc 0x80 1 0 18) 18 =
    Some [18; 1; 0x10; 1; 0; 0; 0; 64; 0; 0; 0; 0; 1; 0; 1; 2; 3; 1].
Proof.
  split; [reflexivity|]. split; [vm_compute; auto 10|]. split; [reflexivity|].
  split; [apply uncut_nothing|reflexivity].
Qed.

Example C130_report_example :
  handle_control_message (mk_setup 0x81 6 0x2200 0 30) = Ok (Some hid_report) /\
  handle_control_message (mk_setup 0x81 6 0x2105 9 3) = Panic.
Proof. split; reflexivity. Qed.

Example C130_endpoints_example : exists c s',
  let s := mk_sys (mk_conn (Commands 0) [message_bytes (MSubmit 4 2 0 2 0 0 0 0 3 (zeros 8) [7; 8; 9])])
             in_init [] None [] [] [] in
  conn_step [usb_device] (sy_conn s) = (c, ASubmit 0 (mk_header 1 4 2 0 2) (zeros 8) [7; 8; 9]) /\
  sys_step s SRead = Some s' /\ sy_delegate s' = [[7; 8; 9]].
Proof. eexists. eexists. cbv zeta. split; [vm_compute; reflexivity|]. split; [vm_compute; reflexivity|]. reflexivity. Qed.

(* A report descriptor that this host rejects, and one with the maximum written as FIDO's
   own example does. *)
Example C130_report_examples :
  report [6; 208; 241; 9; 1; 161; 1; 9; 32; 192; 192] = None /\
  report [6; 208; 241; 9; 1; 161; 1] = None /\
  report [6; 208; 241; 9; 1; 161; 1; 9; 32; 21; 0; 38; 255; 0; 117; 8; 149; 64; 129; 2; 192] =
    Some ([(1, 0xF1D0, 1)], [mk_field false 0xF1D0 [0x20] 0%Z 255%Z 255 8 64]).
Proof. repeat split; vm_compute; reflexivity. Qed.

(* ---------------------------------------------------------------- C131 *)
(* A control transfer that asks for n bytes and for which the device has x returns the
   first n bytes of x, and says how many they are. *)
Definition C131_full : Prop :=
  forall s d seq devid flags start packets interval n setup rest x,
  cn_phase (sy_conn s) = Commands d -> sy_pending s = None ->
  let m := MSubmit seq devid 1 0 flags start packets interval n setup [] in
  well_formed m -> concat (cn_stream (sy_conn s)) = message_bytes m ++ rest ->
  handle_control_message (read_setup setup) = Ok (Some x) ->
  exists s', sys_run s [SRead; SWrite] = Some s' /\
    sy_out s' = sy_out s ++ [spec_ret_submit seq (N.min n (len x)) (takeN n x)].

(* The reply always has n bytes: what is missing is made up of zeros. *)
Theorem C131_padded : forall s d seq devid flags start packets interval n setup rest x,
  cn_phase (sy_conn s) = Commands d -> sy_pending s = None ->
  let m := MSubmit seq devid 1 0 flags start packets interval n setup [] in
  well_formed m -> concat (cn_stream (sy_conn s)) = message_bytes m ++ rest ->
  handle_control_message (read_setup setup) = Ok (Some x) ->
  exists s', sys_run s [SRead; SWrite] = Some s' /\
    sy_out s' = sy_out s ++ [spec_ret_submit seq n (takeN n x ++ zeros (N.to_nat (n - len x)))].
Proof.
  intros s d seq devid flags start packets interval n setup rest x P N m W C H.
  pose proof (transfer_on_wire s d seq devid 1 flags start packets interval n setup [] rest P N W C
    (uncut_nothing _ _)) as T. rewrite H in T. destruct T as (s' & R & O & _). exists s'. auto.
Qed.
Print Assumptions C131_padded.

Theorem C131_prefix_partial : forall s d seq devid flags start packets interval n setup rest x,
  cn_phase (sy_conn s) = Commands d -> sy_pending s = None ->
  let m := MSubmit seq devid 1 0 flags start packets interval n setup [] in
  well_formed m -> concat (cn_stream (sy_conn s)) = message_bytes m ++ rest ->
  handle_control_message (read_setup setup) = Ok (Some x) -> n <= len x ->
  exists s', sys_run s [SRead; SWrite] = Some s' /\
    sy_out s' = sy_out s ++ [spec_ret_submit seq (N.min n (len x)) (takeN n x)].
Proof.
  intros s d seq devid flags start packets interval n setup rest x P N m W C H L.
  destruct (C131_padded s d seq devid flags start packets interval n setup rest x P N W C H)
    as (s' & R & O).
  exists s'. split; auto. rewrite O. rewrite N.min_l by assumption.
  replace (n - len x) with 0 by lia. cbn [N.to_nat zeros repeat]. now rewrite app_nil_r.
Qed.
Print Assumptions C131_prefix_partial.

(* Asking for 255 bytes of the product name, as hosts do, gives 255 bytes. *)
Definition name_submit : message := MSubmit 7 2 1 0 0 0 0 0 255 (get_desc 0x80 3 2 255) [].
Theorem C131_refuted : ~ C131_full.
Proof.
  intro F.
  specialize (F (mk_sys (mk_conn (Commands 0) [message_bytes name_submit]) in_init [] None [] [] [])
    0%nat 7 2 0 0 0 0 255 (get_desc 0x80 3 2 255) []).
  destruct (handle_control_message (read_setup (get_desc 0x80 3 2 255))) as [[x|]|] eqn:E;
    try (vm_compute in E; discriminate).
  specialize (F x eq_refl eq_refl ltac:(vm_compute; auto 10) eq_refl eq_refl).
  destruct F as (s' & R & O). vm_compute in E. injection E as <-.
  vm_compute in R. injection R as <-. vm_compute in O. discriminate.
Qed.
Print Assumptions C131_refuted.

Example C131_example :
  handle_control_message (read_setup (get_desc 0x80 1 0 18)) = Ok (Some (to_le device_descriptor)) /\
  8 <= len (to_le device_descriptor) /\ well_formed enum_submit.
Proof. split; [reflexivity|]. split; [vm_compute; discriminate|vm_compute; auto 10]. Qed.

(* ---------------------------------------------------------------- C132 *)
(* The description of the device in the reply to an import says what the device's
   descriptors say: idVendor, idProduct, bcdDevice, class, subclass, protocol, the
   configuration's number, how many configurations and interfaces there are. *)
Definition C132_full : Prop := forall c c' i r t,
  conn_step [usb_device] c = (c', AWrite r) -> cn_phase c' = Commands i ->
  enumerate device_transfer = Some t ->
  exists path busid bus dev speed,
    describes (dropN 8 r) path busid
      [bus; dev; speed; word (tk_device t) 8; word (tk_device t) 10; word (tk_device t) 12;
       nth 4 (tk_device t) 0; nth 5 (tk_device t) 0; nth 6 (tk_device t) 0;
       nth 5 (tk_config t) 0; nth 17 (tk_device t) 0; nth 4 (tk_config t) 0].

Definition import_conn : conn :=
  mk_conn Control [message_bytes (MImport 0x0111 0 (pad [50; 45; 50] 32))].

(* The release number: 0 in the reply, 1 in the descriptor. *)
Theorem C132_refuted : ~ C132_full.
Proof.
  intro F.
  destruct (conn_step [usb_device] import_conn) as [c' a] eqn:E.
  assert (exists r, a = AWrite r /\ cn_phase c' = Commands 0 /\ dropN 8 r = summary_bytes (dv_summary usb_device))
    as (r & -> & P & D) by (vm_compute in E; injection E as <- <-; eexists; repeat split; vm_compute; reflexivity).
  destruct (F _ _ _ _ _ E P enumerated) as (path & busid & bus & dev & speed & _ & _ & _ & L).
  rewrite D in L. vm_compute in L. discriminate.
Qed.
Print Assumptions C132_refuted.

Theorem C132_agrees_partial : forall c c' i r t,
  conn_step [usb_device] c = (c', AWrite r) -> cn_phase c' = Commands i ->
  enumerate device_transfer = Some t ->
  exists path busid bus dev speed bcd,
    describes (dropN 8 r) path busid
      [bus; dev; speed; word (tk_device t) 8; word (tk_device t) 10; bcd;
       nth 4 (tk_device t) 0; nth 5 (tk_device t) 0; nth 6 (tk_device t) 0;
       nth 5 (tk_config t) 0; nth 17 (tk_device t) 0; nth 4 (tk_config t) 0] /\
    speed = 2 /\ bcd = 0 /\ word (tk_device t) 12 = 1.
Proof. exact import_agrees. Qed.
Print Assumptions C132_agrees_partial.

Example C132_example : exists c' r,
  conn_step [usb_device] import_conn = (c', AWrite r) /\ cn_phase c' = Commands 0.
Proof. eexists. eexists. split; vm_compute; reflexivity. Qed.
