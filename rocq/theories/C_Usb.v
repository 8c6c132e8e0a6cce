(* Properties C15..C19, C66: the IN endpoint's request buffer and the USB descriptors. *)
From Verif Require Import Base M_Util M_ReqBuf M_Usb S_ReqBuf S_Usb P_ReqBuf P_Usb.

(* A history used in the examples: three transfers, two packets, an unlink, a timeout. *)
Definition demo_history : list in_label :=
  [ISubmit 10; ISubmit 20; IRespond 0 [1; 2]; IUnlink 10; IRun 0; IRespond 0 [3]; ISubmit 30;
   ISubmit 40; ITimeout 3; IRun 0].

(* ---------------------------------------------------------------- C15 *)
Theorem C15_exactly_once : forall ls s,
  in_run in_init ls = Some s -> NoDup (submitted_ids ls) ->
  forall k id, In (k, id) (submissions (in_trace s)) ->
  (waits k s + flies k s + completions k (in_trace s) + unlinks id (in_trace s) = 1)%nat.
Proof. exact exactly_once. Qed.
Print Assumptions C15_exactly_once.

(* Every submit is recorded under its own key, in order, and nothing else completes. *)
Theorem C15_only_submitted : forall ls s,
  in_run in_init ls = Some s -> NoDup (submitted_ids ls) ->
  forall k, completions k (in_trace s) <> 0%nat -> exists id, In (k, id) (submissions (in_trace s)).
Proof. exact only_submitted. Qed.
Print Assumptions C15_only_submitted.

(* When no timer and no callback is left, every transfer was completed or unlinked;
   and from every state the timers and callbacks alone lead there. *)
Theorem C15_completed : forall ls s,
  in_run in_init ls = Some s -> NoDup (submitted_ids ls) ->
  in_timers s = [] -> in_flight s = [] ->
  forall k id, In (k, id) (submissions (in_trace s)) ->
  (completions k (in_trace s) + unlinks id (in_trace s) = 1)%nat.
Proof. exact quiescent. Qed.
Print Assumptions C15_completed.

Theorem C15_settles : forall s, exists ls s',
  in_run s ls = Some s' /\ in_timers s' = [] /\ in_flight s' = [] /\
  submitted_ids ls = [] /\ produced (in_trace s') = produced (in_trace s) /\
  submissions (in_trace s') = submissions (in_trace s).
Proof. exact settle. Qed.
Print Assumptions C15_settles.

Example C15_example : exists s, in_run in_init demo_history = Some s /\
  NoDup (submitted_ids demo_history) /\
  submissions (in_trace s) = [(0%nat, 10); (1%nat, 20); (2%nat, 30); (3%nat, 40)] /\
  map (fun k => completions k (in_trace s)) [0; 1; 2; 3]%nat = [0; 1; 1; 1]%nat /\
  unlinks 10 (in_trace s) = 1%nat.
Proof.
  eexists. split; [vm_compute; reflexivity|]. split.
  - cbn. repeat constructor; cbn; intuition discriminate.
  - vm_compute. auto.
Qed.

(* Distinct ids are needed: a repeated id loses the first transfer's callback. *)
Theorem C15_repeated_id_loses_a_callback : exists ls s,
  in_run in_init ls = Some s /\ in_timers s = [] /\ in_flight s = [] /\
  In (0%nat, 7) (submissions (in_trace s)) /\
  ~ (completions 0 (in_trace s) = 1)%nat /\ unlinks 7 (in_trace s) = 0%nat.
Proof.
  exists [ISubmit 7; ISubmit 7; IRespond 0 [1]; IRun 0; ITimeout 0; ITimeout 0].
  eexists. split; [vm_compute; reflexivity|]. vm_compute. intuition discriminate.
Qed.
Print Assumptions C15_repeated_id_loses_a_callback.

(* ---------------------------------------------------------------- C16 *)
Theorem C16_fifo : forall ls s,
  in_run in_init ls = Some s -> serialised in_init ls = true ->
  produced (in_trace s) = delivered (in_trace s) ++ flying_data s ++ rb_responses (in_buf s) /\
  (rb_responses (in_buf s) <> [] -> rb_waiting (in_buf s) = []) /\
  (length (flying_data s) <= 1)%nat.
Proof. exact fifo. Qed.
Print Assumptions C16_fifo.

Example C16_example : exists s,
  in_run in_init [ISubmit 1; IRespond 0 [1]; ISubmit 2; IRun 0; IRespond 0 [2]; IRun 0;
                  IRespond 0 [3]; IRespond 0 [4]; ISubmit 3] = Some s /\
  serialised in_init [ISubmit 1; IRespond 0 [1]; ISubmit 2; IRun 0; IRespond 0 [2]; IRun 0;
                  IRespond 0 [3]; IRespond 0 [4]; ISubmit 3] = true /\
  produced (in_trace s) = [[1]; [2]; [3]; [4]] /\ delivered (in_trace s) = [[1]; [2]; [3]] /\
  rb_responses (in_buf s) = [[4]].
Proof. eexists. split; [vm_compute; reflexivity|]. vm_compute. auto. Qed.

(* The order depends on CTAPHID's responsesLock: two overlapping Responds swap. *)
Theorem C16_needs_the_lock : exists ls s,
  in_run in_init ls = Some s /\ NoDup (submitted_ids ls) /\
  produced (in_trace s) = [[1]; [2]] /\ delivered (in_trace s) = [[2]; [1]].
Proof.
  exists [ISubmit 1; ISubmit 2; IRespond 0 [1]; IRespond 0 [2]; IRun 1; IRun 0].
  eexists. split; [vm_compute; reflexivity|]. split.
  - cbn. repeat constructor; cbn; intuition discriminate.
  - vm_compute. auto.
Qed.
Print Assumptions C16_needs_the_lock.

(* ---------------------------------------------------------------- C17 *)
Theorem C17_cancelled : forall ls1 ls2 id s1 s,
  NoDup (submitted_ids (ls1 ++ ls2)) ->
  in_run in_init ls1 = Some s1 -> snd (rb_cancel (in_buf s1) id) = true ->
  in_run s1 (IUnlink id :: ls2) = Some s ->
  exists k, In (k, id) (submissions (in_trace s1)) /\ waits k s1 = 1%nat /\
    completions k (in_trace s) = 0%nat.
Proof. exact cancel_true. Qed.
Print Assumptions C17_cancelled.

Theorem C17_not_cancelled : forall s id,
  snd (rb_cancel (in_buf s) id) = false ->
  (forall k, ~ In (id, k) (rb_waiting (in_buf s))) /\
  in_step s (IUnlink id) = Some (mk_in (in_buf s) (in_flight s) (in_timers s) (in_next s)
                                   (in_trace s ++ [EvUnlink id false])).
Proof. exact cancel_false. Qed.
Print Assumptions C17_not_cancelled.

Example C17_example : exists s1 s,
  in_run in_init [ISubmit 5; ISubmit 6] = Some s1 /\
  snd (rb_cancel (in_buf s1) 5) = true /\ snd (rb_cancel (in_buf s1) 9) = false /\
  in_run s1 [IUnlink 5; IRespond 0 [1]; IRun 0; ITimeout 0] = Some s /\
  completions 0 (in_trace s) = 0%nat /\ completions 1 (in_trace s) = 1%nat.
Proof.
  eexists. eexists. split; [vm_compute; reflexivity|]. split; [reflexivity|]. split; [reflexivity|].
  split; [vm_compute; reflexivity|]. vm_compute. auto.
Qed.

(* ---------------------------------------------------------------- C18 *)
Theorem C18_descriptors : forall s d,
  recipient (su_type s) = 0 -> su_request s = 6 ->
  handle_control_message s = Ok (Some d) -> described (su_value s / 256) d.
Proof. exact control_descriptor. Qed.
Print Assumptions C18_descriptors.

Theorem C18_report_length : forall s1 s2 d1 d2,
  recipient (su_type s1) = 0 -> su_request s1 = 6 -> su_value s1 / 256 = 2 ->
  handle_control_message s1 = Ok (Some d1) ->
  recipient (su_type s2) = 1 -> su_request s2 = 6 ->
  handle_control_message s2 = Ok (Some d2) ->
  announced_report_length d1 = Some (len d2).
Proof. exact report_announced. Qed.
Print Assumptions C18_report_length.

Example C18_example :
  (exists d, handle_control_message (mk_setup 0x80 6 0x0200 0 9) = Ok (Some d) /\
     announced_report_length d = Some 30 /\ described 2 d) /\
  (exists d, handle_control_message (mk_setup 0x80 6 0x0302 0 255) = Ok (Some d) /\ len d = 26) /\
  (exists d, handle_control_message (mk_setup 0x81 6 0x2200 0 255) = Ok (Some d) /\ len d = 30).
Proof.
  split; [|split; eexists; split; vm_compute; reflexivity].
  eexists. split; [vm_compute; reflexivity|]. split; [vm_compute; reflexivity|].
  apply (control_descriptor (mk_setup 0x80 6 0x0200 0 9)); vm_compute; reflexivity.
Qed.

(* ---------------------------------------------------------------- C19 *)
(* A request type byte is direction * 128 + top * 64 + class * 16 + recipient; each
   setter replaces its own field and nothing else. *)
Theorem C19_setters : forall t d c r,
  t < 256 -> d < 2 -> c < 4 -> r < 16 ->
  let fields x := (direction x, request_class x, recipient x, x / 64 mod 2) in
  let '(d0, c0, r0, u0) := fields t in
  fields (set_direction t d) = (d, c0, r0, u0) /\
  fields (set_request_class t c) = (d0, c, r0, u0) /\
  fields (set_recipient t r) = (d0, c0, r, u0).
Proof.
  intros t d c r Ht Hd Hc Hr. cbv beta iota zeta.
  assert (set_direction t d < 256) by (rewrite set_direction_ok by assumption; lia).
  assert (set_request_class t c < 256) by (rewrite set_class_ok by assumption; lia).
  assert (set_recipient t r < 256) by (rewrite set_recipient_ok by assumption; lia).
  rewrite !direction_field, !class_field, !recipient_field by assumption.
  rewrite set_direction_ok, set_class_ok, set_recipient_ok by assumption.
  split; [|split]; repeat (f_equal; try lia).
Qed.
Print Assumptions C19_setters.

Theorem C19_fields : forall t, t < 256 ->
  direction t = t / 128 /\ request_class t = t / 16 mod 4 /\ recipient t = t mod 16.
Proof.
  intros t H. split; [now apply direction_field|]. split; [now apply class_field|now apply recipient_field].
Qed.
Print Assumptions C19_fields.

Example C19_example :
  set_direction (set_request_class (set_recipient 0x6A 1) 2) 1 = 0xE1 /\
  direction 0xE1 = 1 /\ request_class 0xE1 = 2 /\ recipient 0xE1 = 1.
Proof. vm_compute. auto. Qed.

(* ---------------------------------------------------------------- C66 *)
(* USB 2.0, table 9-2: bit 7 direction, bits 6..5 type, bits 4..0 recipient. *)
Definition C66_full : Prop := forall t d c r, d < 2 -> c < 4 -> r < 32 -> t = d * 128 + c * 32 + r ->
  direction t = d /\ request_class t = c /\ recipient t = r.

(* SET_REPORT, 0x21: a class request to an interface, is seen as a vendor request. *)
Theorem C66_class_refuted : ~ C66_full /\ request_class 0x21 = 2.
Proof.
  split; [|reflexivity]. intro H. destruct (H 0x21 0 1 1) as (_ & X & _); try reflexivity. discriminate X.
Qed.
Print Assumptions C66_class_refuted.

(* Direction and recipient are right for every recipient that USB 2.0 defines, and a
   standard request to one of them is seen as standard. *)
Theorem C66_fields_partial : forall t d c r, d < 2 -> c < 4 -> r < 16 -> t = d * 128 + c * 32 + r ->
  direction t = d /\ recipient t = r /\ (c = 0 -> request_class t = 0).
Proof.
  intros t d c r Hd Hc Hr ->.
  destruct (C19_fields (d * 128 + c * 32 + r)) as (A & B & D); [lia|]. rewrite A, B, D.
  split; [lia|]. split; [lia|]. intros ->. lia.
Qed.
Print Assumptions C66_fields_partial.
(* 0x81: a standard request to an interface; 0xA1: a class request to it. *)
Example C66_example : 0x81 = 1 * 128 + 0 * 32 + 1 /\ 0xA1 = 1 * 128 + 1 * 32 + 1 /\
  request_class 0x81 = 0 /\ request_class 0xA1 = 2.
Proof. vm_compute. auto. Qed.
