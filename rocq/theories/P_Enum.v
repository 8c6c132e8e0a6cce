(* Proofs about enumeration (C130), short transfers (C131) and the import reply (C132). *)
From Coq Require Import ZArith.
From Verif Require Import Base M_Util M_Usb M_ReqBuf M_Usbip S_Usb S_Usbip S_Enum P_Usb P_Usbip1 P_Usbip2.
Open Scope N_scope.

(* A control transfer as seen by a host: the payload of the reply. *)
Definition device_transfer (setup : bytes) (n : N) : option bytes :=
  match handle_control_message (read_setup setup) with
  | Ok (Some d) => Some (spec_transfer n d)
  | Ok None => Some (zeros (N.to_nat n))
  | Panic => None
  end.

Lemma report_answer s d : recipient (su_type s) = 1 -> su_request s = 6 ->
  handle_control_message s = Ok (Some d) -> d = hid_report.
Proof.
  intros R Q H. unfold handle_control_message, handle_interface_request in H. rewrite R, Q in H.
  cbn [N.eqb Pos.eqb] in H. destruct (descriptor_type_and_index (su_value s)) as [t i].
  destruct (t =? d_hid_report); [|discriminate]. now injection H as <-.
Qed.

Lemma report_is_fido s d : recipient (su_type s) = 1 -> su_request s = 6 ->
  handle_control_message s = Ok (Some d) ->
  fido_report d /\ length (report_fields d) = 2%nat /\ Forall any_byte_lenient (report_fields d).
Proof.
  intros R Q H. rewrite (report_answer s d R Q H). split; [|split].
  - eexists. eexists. split; [vm_compute; reflexivity|]. repeat split; reflexivity.
  - reflexivity.
  - change (Forall any_byte_lenient (report_fields hid_report)).
    assert (report_fields hid_report = [mk_field false 0xF1D0 [0x20] 0%Z (-1)%Z 255 8 64;
      mk_field true 0xF1D0 [0x21] 0%Z (-1)%Z 255 8 64]) as -> by (vm_compute; reflexivity).
    repeat constructor.
Qed.

Definition the_token : token :=
  mk_token (to_le device_descriptor)
    (match get_descriptor 2 0 with Ok d => d | Panic => [] end) 0 0
    [mk_endpoint 1 true true 64; mk_endpoint 2 false true 64] hid_report.

Lemma enumerated : enumerate device_transfer = Some the_token.
Proof. vm_compute. reflexivity. Qed.

Lemma token_ok : authenticator the_token 1 2.
Proof.
  split; [|split; [reflexivity|repeat split; discriminate]].
  eexists. eexists. split; [vm_compute; reflexivity|]. repeat split; reflexivity.
Qed.

Lemma token_not_conforming : tk_value the_token = 0 /\
  forall f, In f (report_fields (tk_report the_token)) -> fd_max f = (-1)%Z.
Proof.
  split; [reflexivity|]. intros f H.
  assert (report_fields (tk_report the_token) = [mk_field false 0xF1D0 [0x20] 0%Z (-1)%Z 255 8 64;
      mk_field true 0xF1D0 [0x21] 0%Z (-1)%Z 255 8 64]) as E by (vm_compute; reflexivity).
  rewrite E in H. destruct H as [<-|[<-|[]]]; reflexivity.
Qed.

(* ------------------------------------------------- on the wire *)
Lemma buffer_len (dir n : N) (dt : bytes) : (if dir =? 0 then len dt = n else dt = []) ->
  len (if dir =? 0 then dt else zeros (N.to_nat n)) = n.
Proof. destruct (dir =? 0); auto. intros _. unfold len, zeros. rewrite repeat_length. lia. Qed.

Lemma transfer_on_wire s d seq devid dir flags start packets interval n setup dt rest :
  cn_phase (sy_conn s) = Commands d -> sy_pending s = None ->
  let m := MSubmit seq devid dir 0 flags start packets interval n setup dt in
  well_formed m -> concat (cn_stream (sy_conn s)) = message_bytes m ++ rest ->
  uncut (cn_stream (sy_conn s)) (len (head m)) (len (data m)) ->
  match handle_control_message (read_setup setup) with
  | Ok r => exists s', sys_run s [SRead; SWrite] = Some s' /\
      sy_out s' = sy_out s ++ [spec_ret_submit seq n
        (if dir =? 1 then match r with Some x => spec_transfer n x | None => zeros (N.to_nat n) end
         else [])] /\
      sy_in s' = sy_in s /\ sy_subs s' = sy_subs s /\ sy_delegate s' = sy_delegate s /\
      sy_pending s' = None /\ cn_phase (sy_conn s') = Commands d /\
      concat (cn_stream (sy_conn s')) = rest
  | Panic => exists s', sys_run s [SRead] = Some s' /\
      sy_out s' = sy_out s /\ sy_pending s' = None /\ cn_phase (sy_conn s') = Commands d /\
      concat (cn_stream (sy_conn s')) = rest
  end.
Proof.
  intros P N m W C U. subst m.
  assert (sy_conn s = mk_conn (Commands d) (cn_stream (sy_conn s))) as Ec
    by (destruct (sy_conn s) as [p c]; cbn in *; now subst p).
  destruct (conn_step_message [usb_device] (Commands d)
    (MSubmit seq devid dir 0 flags start packets interval n setup dt) _ rest (Commands d)
    (ASubmit d (mk_header 1 seq devid dir 0) setup
            (if dir =? 0 then dt else zeros (N.to_nat n))) eq_refl
    ltac:(discriminate) W C U) as (cs' & E & _ & R).
  destruct W as (W1 & W2 & W3 & W4 & W5 & W6 & W7).
  destruct (handle_control_message (read_setup setup)) as [r|] eqn:Hc.
  - eexists. split.
    { cbn [sys_run sys_step]. rewrite N, Ec, E. cbn [hd_ep N.eqb]. rewrite Hc.
      cbn [obind sy_pending sy_conn sy_in sy_subs sy_delegate sy_out sy_log]. reflexivity. }
    cbn [sy_pending sy_conn sy_in sy_subs sy_delegate sy_out sy_log cn_phase cn_stream].
    split; [|repeat split; auto]. f_equal. f_equal.
    rewrite return_submit_spec; cbn [hd_command hd_seq hd_dir]; auto.
    + rewrite buffer_len by assumption. f_equal.
      destruct (N.eqb_spec dir 1) as [->|]; auto. cbn [N.eqb].
      destruct r; auto. rewrite <- overlay_zeros.
      replace (len (zeros (N.to_nat n))) with n; [reflexivity|].
      unfold len, zeros. rewrite repeat_length. lia.
    + rewrite buffer_len by assumption. exact W5.
  - eexists. split.
    { cbn [sys_run sys_step]. rewrite N, Ec, E. cbn [hd_ep N.eqb]. rewrite Hc. cbn [obind]. reflexivity. }
    cbn [sy_pending sy_conn sy_out cn_phase cn_stream]. auto.
Qed.

(* submits on the endpoints found *)
Lemma submit_in s s' c d h setup b : sy_pending s = None ->
  conn_step [usb_device] (sy_conn s) = (c, ASubmit d h setup b) -> hd_ep h = 1 ->
  sys_step s SRead = Some s' ->
  sy_subs s' = sy_subs s ++ [(h, b)] /\ sy_delegate s' = sy_delegate s.
Proof.
  intros N E Ep H. cbn [sys_step] in H. rewrite N, E, Ep in H. cbn [N.eqb Pos.eqb] in H.
  destruct (in_step (sy_in s) (ISubmit (hd_seq h))); [|discriminate]. cbn [obind] in H.
  injection H as <-. auto.
Qed.

Lemma submit_out s s' c d h setup b : sy_pending s = None ->
  conn_step [usb_device] (sy_conn s) = (c, ASubmit d h setup b) -> hd_ep h = 2 ->
  sys_step s SRead = Some s' ->
  sy_delegate s' = sy_delegate s ++ [b] /\ sy_subs s' = sy_subs s /\ sy_in s' = sy_in s.
Proof.
  intros N E Ep H. cbn [sys_step] in H. rewrite N, E, Ep in H. cbn [N.eqb Pos.eqb] in H.
  injection H as <-. auto.
Qed.

(* an IN submit can be made in every state *)
Lemma submit_other s s' c d h setup b : sy_pending s = None ->
  conn_step [usb_device] (sy_conn s) = (c, ASubmit d h setup b) ->
  2 < hd_ep h -> sys_step s SRead = Some s' ->
  sy_subs s' = sy_subs s /\ sy_delegate s' = sy_delegate s /\ sy_out s' = sy_out s /\
  sy_pending s' = None.
Proof.
  intros N E Ep H. cbn [sys_step] in H. rewrite N, E in H.
  destruct (N.eqb_spec (hd_ep h) 0); [lia|]. destruct (N.eqb_spec (hd_ep h) 1); [lia|].
  destruct (N.eqb_spec (hd_ep h) 2); [lia|]. injection H as <-. auto.
Qed.

(* ------------------------------------------------- strings *)
Lemma strings_ok t i : enumerate device_transfer = Some t ->
  In i [nth 14 (tk_device t) 0; nth 15 (tk_device t) 0; nth 16 (tk_device t) 0;
        nth 6 (tk_config t) 0; nth 17 (tk_config t) 0] ->
  exists d text, device_transfer (get_desc 0x80 3 i 255) 255 = Some d /\
    nth 1 d 0 = 3 /\ utf16_text (takeN (nth 0 d 0 - 2) (dropN 2 d)) = Some text /\ text <> [].
Proof.
  rewrite enumerated. intro H. injection H as <-. intro H.
  assert (In i [1; 2; 3; 4; 5]) as J by exact H. clear H.
  repeat destruct J as [<-|J]; try destruct J;
    (eexists; eexists; split; [vm_compute; reflexivity|]; split; [reflexivity|];
     split; [vm_compute; reflexivity|discriminate]).
Qed.

(* ------------------------------------------------- short transfers *)
Lemma spec_transfer_short n d : n <= len d -> spec_transfer n d = takeN n d.
Proof.
  intro H. unfold spec_transfer. replace (n - len d) with 0 by lia. apply app_nil_r.
Qed.

(* ------------------------------------------------- the import reply *)
Lemma import_summary c c' i r : conn_step [usb_device] c = (c', AWrite r) ->
  cn_phase c' = Commands i -> r = op_rep_import usb_device.
Proof.
  unfold conn_step. destruct (cn_phase c).
  - destruct (read_full 8 (cn_stream c)) as [[h s1]|]; [|discriminate].
    destruct (be_dec (takeN 2 (dropN 2 h)) =? 0x8005); [now injection 1 as <- <-|].
    destruct (be_dec (takeN 2 (dropN 2 h)) =? 0x8003); [|discriminate].
    destruct (util_read 32 s1) as [[x s2]|]; [|discriminate].
    destruct (cstring x) as [b|]; [|discriminate].
    cbn [get_device]. destruct (bytes_eqb (dv_busid usb_device) b); now injection 1 as <- <-.
  - destruct (read_full 20 (cn_stream c)) as [[h s1]|]; [|discriminate].
    destruct (hd_command (parse_header h) =? 1).
    { destruct (read_submit (parse_header h) s1) as [[[x y] z]|]; discriminate. }
    destruct (hd_command (parse_header h) =? 2); [|discriminate].
    destruct (read_full 28 s1) as [[u s2]|]; discriminate.
  - discriminate.
Qed.

Lemma import_agrees c c' i r t : conn_step [usb_device] c = (c', AWrite r) ->
  cn_phase c' = Commands i -> enumerate device_transfer = Some t ->
  exists path busid bus dev speed bcd,
    describes (dropN 8 r) path busid
      [bus; dev; speed; word (tk_device t) 8; word (tk_device t) 10; bcd;
       nth 4 (tk_device t) 0; nth 5 (tk_device t) 0; nth 6 (tk_device t) 0;
       nth 5 (tk_config t) 0; nth 17 (tk_device t) 0; nth 4 (tk_config t) 0] /\
    speed = 2 /\ bcd = 0 /\ word (tk_device t) 12 = 1.
Proof.
  intros E P T. rewrite (import_summary _ _ _ _ E P). rewrite enumerated in T. injection T as <-.
  do 6 eexists. split; [|auto].
  - split; [vm_compute; reflexivity|]. split; [vm_compute; reflexivity|].
    split; [vm_compute; reflexivity|]. vm_compute. reflexivity.
Qed.

Lemma uncut_nothing cs off : uncut cs off 0.
Proof. unfold uncut. apply Forall_forall. intros b _. lia. Qed.
