(* Proofs about descriptors and setup packets (C18, C19). *)
From Verif Require Import Base M_Util M_Usb S_Usb.

Lemma forall_byte (P : N -> bool) :
  forallb P (map N.of_nat (seq 0 256)) = true -> forall t, t < 256 -> P t = true.
Proof.
  intros H t L. rewrite forallb_forall in H. apply H.
  apply in_map_iff. exists (N.to_nat t). split; [lia|]. apply in_seq. lia.
Qed.

Ltac all_bytes t H :=
  revert t H; apply forall_byte; vm_compute; reflexivity.

Lemma direction_field t : t < 256 -> direction t = t / 128.
Proof. intro H. apply N.eqb_eq. all_bytes t H. Qed.
Lemma class_field t : t < 256 -> request_class t = t / 16 mod 4.
Proof. intro H. apply N.eqb_eq. all_bytes t H. Qed.
Lemma recipient_field t : t < 256 -> recipient t = t mod 16.
Proof. intro H. apply N.eqb_eq. all_bytes t H. Qed.

Lemma small_cases (n : nat) (v : N) : v < N.of_nat n ->
  In v (map N.of_nat (seq 0 n)).
Proof. intro. apply in_map_iff. exists (N.to_nat v). split; [lia|]. apply in_seq. lia. Qed.

Lemma set_direction_ok t d : t < 256 -> d < 2 ->
  set_direction t d = d * 128 + t mod 128.
Proof.
  intros H D. apply (small_cases 2) in D. cbn in D.
  repeat (destruct D as [<-|D]; [apply N.eqb_eq; all_bytes t H|]). easy.
Qed.

Lemma set_class_ok t c : t < 256 -> c < 4 ->
  set_request_class t c = t / 64 * 64 + c * 16 + t mod 16.
Proof.
  intros H D. apply (small_cases 4) in D. cbn in D.
  repeat (destruct D as [<-|D]; [apply N.eqb_eq; all_bytes t H|]). easy.
Qed.

Lemma set_recipient_ok t r : t < 256 -> r < 16 ->
  set_recipient t r = t / 16 * 16 + r.
Proof.
  intros H D. apply (small_cases 16) in D. cbn in D.
  repeat (destruct D as [<-|D]; [apply N.eqb_eq; all_bytes t H|]). easy.
Qed.

Lemma get_descriptor_ok typ index d : get_descriptor typ index = Ok d -> described typ d.
Proof.
  unfold get_descriptor.
  destruct (N.eqb_spec typ d_device) as [->|];
    [intro H; injection H as <-; split; [apply wfbb_iff; vm_compute; reflexivity|]; vm_compute; auto|].
  destruct (N.eqb_spec typ d_configuration) as [->|].
  - intro H; injection H as <-. split; [apply wfbb_iff; vm_compute; reflexivity|].
    split; [reflexivity|]. cbn [d_configuration N.eqb].
    replace (d_configuration =? 2) with true by reflexivity. split; [vm_compute; reflexivity|].
    eexists; eexists. repeat split; try (vm_compute; reflexivity).
  - destruct (N.eqb_spec typ d_string) as [->|]; [|discriminate].
    assert (index < 6 \/ 6 <= index) as [L|L] by lia.
    + apply (small_cases 6) in L. cbn in L.
      repeat (destruct L as [<-|L];
        [intro H; vm_compute in H; injection H as <-;
         split; [apply wfbb_iff; vm_compute; reflexivity|]; vm_compute; auto|]). easy.
    + assert (string_descriptor index = Panic) as ->; [|discriminate].
      destruct index as [|p]; [lia|]. do 3 (destruct p; try reflexivity; try lia).
Qed.

Lemma control_descriptor s d :
  recipient (su_type s) = 0 -> su_request s = 6 ->
  handle_control_message s = Ok (Some d) -> described (su_value s / 256) d.
Proof.
  intros R Q. unfold handle_control_message, handle_device_request. rewrite R, Q. cbn [N.eqb Pos.eqb].
  unfold descriptor_type_and_index. rewrite N.shiftr_div_pow2. change (2 ^ 8) with 256.
  destruct (get_descriptor (su_value s / 256) (N.land (su_value s) 0xFF)) eqn:E; [|discriminate].
  cbn [rbind]. intro H. injection H as <-. exact (get_descriptor_ok _ _ _ E).
Qed.

Lemma report_announced s1 s2 d1 d2 :
  recipient (su_type s1) = 0 -> su_request s1 = 6 -> su_value s1 / 256 = 2 ->
  handle_control_message s1 = Ok (Some d1) ->
  recipient (su_type s2) = 1 -> su_request s2 = 6 ->
  handle_control_message s2 = Ok (Some d2) ->
  announced_report_length d1 = Some (len d2).
Proof.
  intros R Q V H1 R2 Q2 H2.
  unfold handle_control_message, handle_device_request in H1. rewrite R, Q in H1. cbn [N.eqb] in H1.
  unfold descriptor_type_and_index in H1. rewrite N.shiftr_div_pow2 in H1.
  change (2 ^ 8) with 256 in H1. rewrite V in H1.
  unfold handle_control_message, handle_interface_request in H2. rewrite R2, Q2 in H2.
  cbn [N.eqb Pos.eqb] in H2. destruct (descriptor_type_and_index (su_value s2)) as [t i].
  destruct (t =? d_hid_report); [|discriminate]. injection H2 as <-.
  vm_compute in H1. injection H1 as <-. vm_compute. reflexivity.
Qed.

(* which control requests are answered at all *)
Definition control_answered (s : setup) : bool :=
  match handle_control_message s with Ok _ => true | Panic => false end.
