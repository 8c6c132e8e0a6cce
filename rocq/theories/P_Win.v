(* Proofs about the bundled Windows client talking to the server (C138-C140). *)
From Coq Require Import ZArith String.
From Verif Require Import Base M_Util M_Usb M_ReqBuf M_Usbip M_Win S_Usb S_Usbip S_Enum S_Win
  P_Usb P_Usbip1 P_Usbip2 P_Enum.
Open Scope N_scope.

(* ------------------------------------------------- the server's side *)
(* waiting for a command *)
Definition ready (d : nat) (s : sys) : Prop :=
  cn_phase (sy_conn s) = Commands d /\ sy_pending s = None /\ concat (cn_stream (sy_conn s)) = [].

Definition swapped (seq : N) : N := be_dec (le 4 seq).

Lemma swapped_ok seq : be 4 (swapped seq) = le 4 seq.
Proof. unfold swapped. exact (be_be_dec (le 4 seq) (le_wf 4 seq)). Qed.
Lemma swapped_u32 seq : swapped seq < 4294967296.
Proof. exact (be_dec_bound (le 4 seq) (le_wf 4 seq)). Qed.

Definition dscr_setup (typ size : N) : bytes := [0x80; 6; 0; typ mod 256; 0; 0] ++ le 2 size.

Lemma dscr_request_message seq typ devid size :
  dscr_request seq typ devid size =
  message_bytes (MSubmit (swapped seq) devid 1 0 0 0 0 0 size (dscr_setup typ size) []).
Proof.
  unfold message_bytes. cbn [head data]. rewrite swapped_ok, app_nil_r. unfold dscr_request, dscr_setup.
  change (le 4 0) with (be 4 0). reflexivity.
Qed.

Lemma len_dscr_request seq typ devid size : len (dscr_request seq typ devid size) = 48.
Proof. unfold dscr_request. rewrite !len_app, !P_Usbip1.len_be, !le_len. reflexivity. Qed.

(* what the descriptor request gets as an answer *)
Lemma serve_dscr s d seq typ devid size x :
  ready d s -> devid < 4294967296 -> size < 4294967296 ->
  handle_control_message (read_setup (dscr_setup typ size)) = Ok (Some x) ->
  exists s', go_serve s [dscr_request seq typ devid size] =
    (s', spec_ret_submit (swapped seq) size (spec_transfer size x), false) /\ ready d s'.
Proof.
  intros (P & Q & C) D S H.
  set (m := MSubmit (swapped seq) devid 1 0 0 0 0 0 size (dscr_setup typ size) []).
  set (s0 := feed s [dscr_request seq typ devid size]).
  assert (concat (cn_stream (sy_conn s0)) = message_bytes m ++ []) as C0.
  { unfold s0, feed. cbn [sy_conn cn_stream]. rewrite concat_app, C. cbn [concat app].
    rewrite !app_nil_r. apply dscr_request_message. }
  pose proof (transfer_on_wire s0 d (swapped seq) devid 1 0 0 0 0 size (dscr_setup typ size) [] []
    P Q) as T. cbv zeta in T. fold m in T. rewrite H in T.
  destruct T as (s' & R & O & _ & _ & _ & Q' & P' & C').
  { repeat split; try apply swapped_u32; auto; try reflexivity. }
  { exact C0. }
  { apply uncut_nothing. }
  exists s'. split; [|repeat split; auto].
  unfold go_serve. fold s0. rewrite C0, app_nil_r. unfold m. rewrite <- dscr_request_message.
  assert (length (dscr_request seq typ devid size) = 48%nat) as ->.
  { pose proof (len_dscr_request seq typ devid size). unfold len in *. lia. }
  assert (go_on 48 s0 = s') as E.
  { change (go_on 48 s0) with (if len (concat (cn_stream (sy_conn s0))) =? 0 then s0 else
      if closed_phase (cn_phase (sy_conn s0)) then s0 else
      match sys_step s0 SRead with
      | None => s0
      | Some s1 => go_on 47 (match sys_step s1 SWrite with Some s2 => s2 | None => s1 end)
      end).
    assert (len (concat (cn_stream (sy_conn s0))) = 48) as L.
    { rewrite C0, app_nil_r. unfold m. rewrite <- dscr_request_message. apply len_dscr_request. }
    rewrite L. cbn [N.eqb]. replace (cn_phase (sy_conn s0)) with (Commands d) by (symmetry; exact P).
    cbn [closed_phase]. cbn [sys_run] in R. destruct (sys_step s0 SRead) as [s1|]; [|discriminate].
    cbn [obind] in R. destruct (sys_step s1 SWrite) as [s2|]; [|discriminate]. cbn [obind] in R.
    injection R as ->.
    change (go_on 47 s') with (if len (concat (cn_stream (sy_conn s'))) =? 0 then s' else
      if closed_phase (cn_phase (sy_conn s')) then s' else
      match sys_step s' SRead with
      | None => s'
      | Some s1 => go_on 46 (match sys_step s1 SWrite with Some s2 => s2 | None => s1 end)
      end).
    rewrite C'. reflexivity. }
  rewrite E, P'. cbn [closed_phase]. f_equal. f_equal. rewrite O.
  replace (sy_out s0) with (sy_out s) by reflexivity. rewrite skipn_app, skipn_all, Nat.sub_diag.
  cbn [skipn app concat]. apply app_nil_r.
Qed.

(* ------------------------------------------------- the client's side *)
Lemma talk_recv {A S} (serve : S -> list bytes -> S * bytes * bool) n (k : option bytes -> prog A) sent s got :
  talk serve (Recv n k) sent s got =
  if n =? 0 then talk serve (k (Some [])) sent s got else
    let '(s', out, closed) := serve s sent in
    let got' := got ++ out in
    if n <=? len got' then talk serve (k (Some (takeN n got'))) [] s' (dropN n got')
    else if closed then talk serve (k None) [] s' []
    else None.
Proof. reflexivity. Qed.

Lemma talk_send {A S} (serve : S -> list bytes -> S * bytes * bool) b (k : prog A) sent s got :
  talk serve (Send b k) sent s got = talk serve k (sent ++ [b]) s got.
Proof. reflexivity. Qed.

Lemma go_serve_idle s d : ready d s -> exists s', go_serve s [] = (s', [], false) /\ ready d s'.
Proof.
  intros (P & Q & C). exists (feed s []).
  assert (concat (cn_stream (sy_conn (feed s []))) = []) as C'
    by (unfold feed; cbn [sy_conn cn_stream]; now rewrite app_nil_r).
  split; [|repeat split; auto].
  unfold go_serve. rewrite C'. cbn [length go_on].
  replace (sy_out (feed s [])) with (sy_out s) by reflexivity. rewrite skipn_all.
  cbn [feed sy_conn cn_phase]. rewrite P. reflexivity.
Qed.

Lemma len_spec_transfer n x : len (spec_transfer n x) = n.
Proof. unfold spec_transfer. rewrite len_app, takeN_len, len_zeros. lia. Qed.

Lemma fetch_go {A} (over : N -> N -> A) s d seq typ devid size cap x k :
  ready d s -> devid < 4294967296 -> 0 < size -> size < 4294967296 -> size <= cap ->
  handle_control_message (read_setup (dscr_setup typ size)) = Ok (Some x) ->
  exists s', ready d s' /\
    talk go_serve (fetch_descriptor over seq typ devid size cap k) [] s [] =
    talk go_serve (k (Some (spec_transfer size x))) [] s' [].
Proof.
  intros R D S0 S Cp H. destruct (serve_dscr s d seq typ devid size x R D S H) as (s1 & E & R1).
  destruct (go_serve_idle s1 d R1) as (s2 & E2 & R2). exists s2. split; auto.
  unfold fetch_descriptor. rewrite talk_send, talk_recv. change (48 =? 0) with false. cbv iota. cbn [app]. rewrite E. cbn [app].
  set (rep := spec_ret_submit (swapped seq) size (spec_transfer size x)).
  assert (rep = (be 4 3 ++ be 4 (swapped seq) ++ zeros 12 ++ be 4 0 ++ be 4 size ++ zeros 20) ++
    spec_transfer size x) as Er.
  { unfold rep, spec_ret_submit. now rewrite <- !app_assoc. }
  set (hdr := be 4 3 ++ be 4 (swapped seq) ++ zeros 12 ++ be 4 0 ++ be 4 size ++ zeros 20) in *.
  assert (len hdr = 48) as Lh by (unfold hdr; rewrite !len_app, !P_Usbip1.len_be, !len_zeros; reflexivity).
  assert (takeN 4 (dropN 20 hdr) = be 4 0) as F1.
  { unfold hdr. rewrite !app_assoc. rewrite <- (app_assoc _ (be 4 size)).
    rewrite <- (app_assoc _ (be 4 0)). apply slice_mid; [|reflexivity].
    rewrite !len_app, !P_Usbip1.len_be, !len_zeros. reflexivity. }
  assert (takeN 4 (dropN 24 hdr) = be 4 size) as F2.
  { unfold hdr. rewrite !app_assoc. rewrite <- (app_assoc _ (be 4 size)). apply slice_mid.
    - rewrite !len_app, !P_Usbip1.len_be, !len_zeros. reflexivity.
    - apply P_Usbip1.len_be. }
  assert (len rep = 48 + size) as Lr by (rewrite Er, len_app, Lh, len_spec_transfer; reflexivity).
  replace (48 <=? len rep) with true by (symmetry; apply N.leb_le; lia).
  rewrite Er, takeN_exact, dropN_exact by assumption.
  rewrite F1, F2. change (le_dec (be 4 0)) with 0. change (negb (0 =? 0)) with false. cbv iota.
  rewrite (be_dec_be_small 4 size S). rewrite N.ltb_irrefl.
  replace (cap <? size) with false by (symmetry; apply N.ltb_ge; lia).
  rewrite talk_recv. replace (size =? 0) with false by (symmetry; apply N.eqb_neq; lia).
  rewrite E2. rewrite app_nil_r. cbv zeta. rewrite len_spec_transfer, N.leb_refl.
  rewrite takeN_all, dropN_all by (rewrite len_spec_transfer; lia). reflexivity.
Qed.

(* ------------------------------------------------- the whole attach *)
Lemma build_go s d seq devid : ready d s -> devid < 4294967296 ->
  talk go_serve (build_pluginfo seq devid) [] s [] =
  Some (Plugged devid (tk_device the_token) (tk_config the_token)).
Proof.
  intros R D. unfold build_pluginfo, fetch_conf_length.
  destruct (fetch_go Overrun s d seq 2 devid 9 9 (tk_config the_token)
    (fun r => match r with
      | Some buf => (fun r => match r with
         | None => Ret (Failed (-1))
         | Some conf_len =>
           fetch_descriptor Overrun ((seq + 1) mod 4294967296) 1 devid 18 18 (fun r =>
             match r with
             | None => Ret (Failed (-1))
             | Some dev =>
               fetch_conf Overrun ((seq + 2) mod 4294967296) devid conf_len
                 (sizeof_pluginfo + conf_len - 9 - offset_dscr_conf) (fun r =>
                 match r with
                 | None => Ret (Failed (-1))
                 | Some conf => Ret (Plugged devid dev conf)
                 end)
             end)
         end) (Some (le_dec (takeN 2 (dropN 2 buf)) mod 65536))
      | None => Ret (Failed (-1))
      end)) as (s1 & R1 & ->); auto; try reflexivity; try lia.
  cbv beta. change (le_dec (takeN 2 (dropN 2 (spec_transfer 9 (tk_config the_token)))) mod 65536) with 41.
  destruct (fetch_go Overrun s1 d ((seq + 1) mod 4294967296) 1 devid 18 18 (tk_device the_token)
    (fun r => match r with
             | None => Ret (Failed (-1))
             | Some dev =>
               fetch_conf Overrun ((seq + 2) mod 4294967296) devid 41
                 (sizeof_pluginfo + 41 - 9 - offset_dscr_conf) (fun r =>
                 match r with
                 | None => Ret (Failed (-1))
                 | Some conf => Ret (Plugged devid dev conf)
                 end)
             end)) as (s2 & R2 & ->); auto; try reflexivity; try lia.
  cbv beta. change (spec_transfer 18 (tk_device the_token)) with (tk_device the_token).
  unfold fetch_conf, fetch_conf_length.
  destruct (fetch_go Overrun s2 d ((seq + 2) mod 4294967296) 2 devid 9 9 (tk_config the_token)
    (fun r => match r with
      | None => Ret (Failed (-1))
      | Some buf => (fun r => match r with
        | None => Ret (Failed (-1))
        | Some alen => if 41 <? alen then Ret (Failed (-1))
                       else fetch_descriptor Overrun (((seq + 2) mod 4294967296 + 1) mod 4294967296) 2 devid alen
                         (sizeof_pluginfo + 41 - 9 - offset_dscr_conf) (fun r =>
                         match r with
                         | None => Ret (Failed (-1))
                         | Some conf => Ret (Plugged devid (tk_device the_token) conf)
                         end)
        end) (Some (le_dec (takeN 2 (dropN 2 buf)) mod 65536))
      end)) as (s3 & R3 & ->); auto; try reflexivity; try lia.
  cbv beta. change (le_dec (takeN 2 (dropN 2 (spec_transfer 9 (tk_config the_token)))) mod 65536) with 41.
  change (41 <? 41) with false. cbv iota.
  destruct (fetch_go Overrun s3 d (((seq + 2) mod 4294967296 + 1) mod 4294967296) 2 devid 41
    (sizeof_pluginfo + 41 - 9 - offset_dscr_conf) (tk_config the_token)
    (fun r => match r with
                         | None => Ret (Failed (-1))
                         | Some conf => Ret (Plugged devid (tk_device the_token) conf)
                         end)) as (s4 & R4 & ->); auto; try reflexivity; try lia.
  vm_compute. discriminate.
Qed.

(* the answer to the import *)
Definition import_message (busid : bytes) : message := MImport 0x0111 0 (pad busid 32).

Lemma pad_named busid : ~ In 0 busid -> len busid < 32 -> named (pad busid 32) busid.
Proof.
  intros Z L. unfold pad. exists (zeros (31 - length busid)). split; auto.
  unfold len in L. rewrite firstn_app, firstn_all2 by lia. f_equal.
  replace (zeros 32) with (zeros (32 - length busid) ++ zeros (length busid)).
  2: { unfold zeros. rewrite <- repeat_app. f_equal. lia. }
  rewrite firstn_app. unfold zeros at 1 2. rewrite repeat_length, Nat.sub_diag.
  rewrite firstn_all2 by (rewrite repeat_length; lia). rewrite firstn_O, app_nil_r.
  replace (32 - length busid)%nat with (S (31 - length busid)) by lia. reflexivity.
Qed.

Lemma len_pad b n : len (pad b n) = N.of_nat n.
Proof. unfold pad, len. rewrite firstn_length, app_length. unfold zeros. rewrite repeat_length. lia. Qed.

Definition the_busid : bytes := [50; 45; 50].

Lemma import_go busid : ~ In 0 busid -> len busid < 32 ->
  exists s', go_serve (sys_init []) [op_common 0x8003 0; pad busid 32] =
    (s', if bytes_eqb the_busid busid then op_rep_import usb_device
         else op_rep_import_error 1, false) /\
    (busid = the_busid -> ready 0 s').
Proof.
  intros Z L. set (s0 := feed (sys_init []) [op_common 0x8003 0; pad busid 32]).
  assert (cn_stream (sy_conn s0) = [op_common 0x8003 0; pad busid 32]) as Cs by reflexivity.
  assert (concat (cn_stream (sy_conn s0)) = message_bytes (import_message busid) ++ []) as C0.
  { rewrite Cs. unfold message_bytes, import_message. cbn [head data concat]. now rewrite !app_nil_r. }
  assert (len (concat (cn_stream (sy_conn s0))) = 40) as L0.
  { rewrite C0, app_nil_r. unfold message_bytes. rewrite len_app. cbn [import_message data head].
    rewrite len_pad. reflexivity. }
  assert (length (concat (cn_stream (sy_conn s0))) = 40%nat) as L0' by (unfold len in L0; lia).
  set (r := if bytes_eqb the_busid busid then op_rep_import usb_device else op_rep_import_error 1).
  set (ph := if bytes_eqb the_busid busid then Commands 0 else Control).
  destruct (conn_step_message [usb_device] Control (import_message busid) (cn_stream (sy_conn s0)) []
    ph (AWrite r)) as (cs & E & _ & C).
  { cbn [spec_phase_action import_message]. rewrite (cstring_named _ busid) by now apply pad_named.
    cbn [get_device]. change (dv_busid usb_device) with the_busid. unfold r, ph.
    destruct (bytes_eqb the_busid busid); reflexivity. }
  { unfold ph. destruct (bytes_eqb _ _); discriminate. }
  { unfold import_message. cbn [well_formed]. rewrite len_pad. repeat split. }
  { exact C0. }
  { rewrite Cs. unfold import_message. cbn [head data]. rewrite len_pad.
    unfold uncut. cbn [boundaries]. rewrite len_pad.
    apply Forall_cons; [left; discriminate|]. apply Forall_cons; [right; discriminate|constructor]. }
  exists (mk_sys (mk_conn ph cs) in_init [] None [] [r] [AWrite r]).
  assert (go_on 40 s0 = mk_sys (mk_conn ph cs) in_init [] None [] [r] [AWrite r]) as G.
  { change (go_on 40 s0) with (if len (concat (cn_stream (sy_conn s0))) =? 0 then s0 else
      if closed_phase (cn_phase (sy_conn s0)) then s0 else
      match sys_step s0 SRead with
      | None => s0
      | Some s1 => go_on 39 (match sys_step s1 SWrite with Some s2 => s2 | None => s1 end)
      end).
    rewrite L0. change (40 =? 0) with false. cbv iota.
    replace (sys_step s0 SRead) with (Some (mk_sys (mk_conn ph cs) in_init [] (Some r) [] [] [AWrite r])).
    2: { unfold sys_step. change (sy_pending s0) with (@None bytes). cbv iota.
         replace (sy_conn s0) with (mk_conn Control (cn_stream (sy_conn s0))) by reflexivity.
         rewrite E. reflexivity. }
    change (cn_phase (sy_conn s0)) with Control. cbn [closed_phase].
    cbn [sys_step sy_pending sy_conn sy_in sy_subs sy_delegate sy_out sy_log app].
    cbn [go_on sy_conn cn_stream]. rewrite C. reflexivity. }
  split.
  - unfold go_serve. fold s0. rewrite L0', G. cbn [sy_out sy_conn cn_phase length sys_init skipn].
    cbn [concat]. rewrite app_nil_r. f_equal. unfold ph. destruct (bytes_eqb _ _); reflexivity.
  - intros ->. unfold ph, ready. cbn [sy_conn cn_phase sy_pending cn_stream]. rewrite C. auto.
Qed.

Lemma attach_right seq :
  attach_go the_busid seq = Some (Plugged 0x20002 (tk_device the_token) (tk_config the_token)).
Proof.
  unfold attach_go, query_import. change (32 <=? len the_busid) with false. cbv iota.
  rewrite !talk_send, talk_recv. change (8 =? 0) with false. cbv iota. cbn [app].
  destruct (import_go the_busid) as (s' & E & R); [intros [H|[H|[H|[]]]]; discriminate|reflexivity|].
  rewrite E. rewrite bytes_eqb_refl. specialize (R eq_refl).
  set (rep := op_rep_import usb_device). cbv zeta.
  change (8 <=? len rep) with true. cbv iota. change (takeN 8 rep) with (op_common 3 0).
  change (check_op_common (op_common 3 0) 3) with (0%Z, 0). cbv iota.
  destruct (go_serve_idle s' 0 R) as (s2 & E2 & R2).
  rewrite talk_recv. change (312 =? 0) with false. cbv iota. rewrite E2, app_nil_r. cbv zeta.
  change (312 <=? len (dropN 8 rep)) with true. cbv iota.
  set (u := takeN 312 (dropN 8 rep)).
  change (strncmp 32 (takeN 32 (dropN 256 u)) the_busid) with true. cbn [negb].
  change (N.lor (N.shiftl (be_dec (takeN 4 (dropN 288 u))) 16 mod 4294967296)
            (be_dec (takeN 4 (dropN 292 u)))) with 0x20002.
  change (dropN 312 (dropN 8 rep)) with (@nil N).
  now apply build_go with (d := 0%nat).
Qed.

Lemma attach_wrong busid seq : ~ In 0 busid -> len busid < 32 -> busid <> the_busid ->
  attach_go busid seq = Some (Failed (-6)).
Proof.
  intros Z L N. unfold attach_go, query_import.
  replace (32 <=? len busid) with false by (symmetry; apply N.leb_gt; exact L).
  rewrite !talk_send, talk_recv. change (8 =? 0) with false. cbv iota. cbn [app].
  destruct (import_go busid Z L) as (s' & E & _). rewrite E.
  replace (bytes_eqb the_busid busid) with false
    by (symmetry; apply bytes_eqb_neq; congruence).
  reflexivity.
Qed.

Lemma attach_long busid seq : 32 <= len busid -> attach_go busid seq = Some Aborted.
Proof.
  intro L. unfold attach_go, query_import. apply N.leb_le in L. rewrite L. reflexivity.
Qed.

(* ------------------------------------------------- any server *)
Lemma modest_tl e tr : modest (e :: tr) -> modest tr.
Proof. intros M b req rep a E. apply (M (e :: b) req rep a). now rewrite E. Qed.

Lemma events_recv {A S} (serve : S -> list bytes -> S * bytes * bool) n (k : option bytes -> prog A) sent s got :
  events serve (Recv n k) sent s got =
  if n =? 0 then events serve (k (Some [])) sent s got else
    let '(s', out, closed) := serve s sent in
    let got' := got ++ out in
    if n <=? len got' then Got (takeN n got') :: events serve (k (Some (takeN n got'))) [] s' (dropN n got')
    else if closed then events serve (k None) [] s' []
    else [].
Proof. reflexivity. Qed.
Lemma events_send {A S} (serve : S -> list bytes -> S * bytes * bool) b (k : prog A) sent s got :
  events serve (Send b k) sent s got = Sent b :: events serve k (sent ++ [b]) s got.
Proof. reflexivity. Qed.

Definition overruns (r : option attach_result) : Prop := exists cap n, r = Some (Overrun cap n).

(* a Recv hands over to its continuation *)
Lemma recv_goes {S} (serve : S -> list bytes -> S * bytes * bool) n k sent s got :
  overruns (talk serve (Recv n k) sent s got) -> modest (events serve (Recv n k) sent s got) ->
  exists r sent' s' got', overruns (talk serve (k r) sent' s' got') /\
    modest (events serve (k r) sent' s' got') /\ (forall b, r = Some b -> len b = n).
Proof.
  rewrite talk_recv, events_recv. destruct (N.eqb_spec n 0) as [->|Z].
  { intros O M. exists (Some []), sent, s, got. split; [|split]; auto. now injection 1 as <-. }
  destruct (serve s sent) as [[s' out] closed]. cbv zeta.
  destruct (N.leb_spec n (len (got ++ out))).
  - intros O M. eexists _, _, _, _. split; [exact O|]. split; [exact (modest_tl _ _ M)|].
    injection 1 as <-. rewrite takeN_len. lia.
  - destruct closed; [|intros (c & m & H1); discriminate].
    intros O M. eexists _, _, _, _. split; [exact O|]. split; [exact M|]. discriminate.
Qed.

Lemma dscr_request_fields seq typ devid size : size < 4294967296 ->
  len (dscr_request seq typ devid size) = 48 /\ u32_at 0 (dscr_request seq typ devid size) = 1 /\
  u32_at 24 (dscr_request seq typ devid size) = size.
Proof.
  intro S. split; [apply len_dscr_request|]. split; [reflexivity|].
  unfold u32_at, dscr_request. change (le 4 0) with (be 4 0).
  rewrite (app_assoc (be 4 1)), (app_assoc (_ ++ _)), (app_assoc (_ ++ _)), (app_assoc (_ ++ _)),
    (app_assoc (_ ++ _)).
  rewrite slice_mid; [|rewrite !len_app, !P_Usbip1.len_be, !le_len; reflexivity|apply P_Usbip1.len_be].
  exact (be_dec_be_small 4 size S).
Qed.

Lemma fetch_goes {S} (serve : S -> list bytes -> S * bytes * bool) seq typ devid size cap k sent s got :
  size < 4294967296 -> size <= cap ->
  overruns (talk serve (fetch_descriptor Overrun seq typ devid size cap k) sent s got) ->
  modest (events serve (fetch_descriptor Overrun seq typ devid size cap k) sent s got) ->
  exists r sent' s' got', overruns (talk serve (k r) sent' s' got') /\
    modest (events serve (k r) sent' s' got') /\ (forall b, r = Some b -> len b <= cap).
Proof.
  intros S4 C. unfold fetch_descriptor. rewrite talk_send, events_send, talk_recv, events_recv.
  change (48 =? 0) with false. cbv iota.
  destruct (serve s (sent ++ [dscr_request seq typ devid size])) as [[s' out] closed]. cbv zeta.
  destruct (N.leb_spec 48 (len (got ++ out))) as [L|L].
  - set (h := takeN 48 (got ++ out)).
    assert (len h = 48) as Lh by (unfold h; rewrite takeN_len; lia).
    destruct (dscr_request_fields seq typ devid size S4) as (D1 & D2 & D3).
    destruct (negb (le_dec (takeN 4 (dropN 20 h)) =? 0)).
    { intros O M. eexists _, _, _, _. split; [exact O|]. split; [exact (modest_tl _ _ (modest_tl _ _ M))|].
      discriminate. }
    destruct (be_dec (takeN 4 (dropN 24 h)) <? size).
    { intros O M. eexists _, _, _, _. split; [exact O|]. split; [exact (modest_tl _ _ (modest_tl _ _ M))|].
      discriminate. }
    destruct (N.ltb_spec cap (be_dec (takeN 4 (dropN 24 h)))) as [B|B].
    { intros _ M. specialize (M [] _ h _ eq_refl D1 D2 Lh). unfold u32_at in M at 1. rewrite D3 in M. lia. }
    intros O M. destruct (recv_goes _ _ _ _ _ _ O (modest_tl _ _ (modest_tl _ _ M)))
      as (r & a & b & c & X & Y & Z).
    exists r, a, b, c. split; [|split]; auto. intros x E. rewrite (Z x E). exact B.
  - destruct closed; [|intros (c & m & H1); discriminate].
    intros O M. eexists _, _, _, _. split; [exact O|]. split; [exact (modest_tl _ _ M)|]. discriminate.
Qed.

Lemma not_over {S} (serve : S -> list bytes -> S * bytes * bool) a sent s got :
  (forall c n, a <> Overrun c n) -> ~ overruns (talk serve (Ret a) sent s got).
Proof. intros H (c & n & E). injection E as E. exact (H c n E). Qed.

Lemma conf_length_goes {S} (serve : S -> list bytes -> S * bytes * bool) seq devid k sent s got :
  overruns (talk serve (fetch_conf_length Overrun seq devid k) sent s got) ->
  modest (events serve (fetch_conf_length Overrun seq devid k) sent s got) ->
  exists r sent' s' got', overruns (talk serve (k r) sent' s' got') /\
    modest (events serve (k r) sent' s' got') /\ (forall n, r = Some n -> n < 65536).
Proof.
  intros O M. unfold fetch_conf_length in *.
  destruct (fetch_goes serve seq 2 devid 9 9 _ sent s got ltac:(lia) ltac:(lia) O M)
    as ([buf|] & a & b & c & X & Y & _); eexists _, _, _, _; (split; [exact X|split; [exact Y|]]).
  - injection 1 as <-. apply N.mod_lt. discriminate.
  - discriminate.
Qed.

Lemma build_safe {S} (serve : S -> list bytes -> S * bytes * bool) seq devid sent s got :
  modest (events serve (build_pluginfo seq devid) sent s got) ->
  ~ overruns (talk serve (build_pluginfo seq devid) sent s got).
Proof.
  intros M O. unfold build_pluginfo in *.
  destruct (conf_length_goes _ _ _ _ _ _ _ O M) as ([n|] & a1 & b1 & c1 & O1 & M1 & B1).
  2: { revert O1. now apply not_over. }
  specialize (B1 n eq_refl). cbv beta iota zeta in O1, M1.
  destruct (fetch_goes _ _ 1 devid 18 18 _ _ _ _ ltac:(lia) ltac:(lia) O1 M1) as ([dev|] & a2 & b2 & c2 & O2 & M2 & _).
  2: { revert O2. now apply not_over. }
  cbv beta iota zeta in O2, M2. unfold fetch_conf in O2, M2.
  destruct (conf_length_goes _ _ _ _ _ _ _ O2 M2) as ([m|] & a3 & b3 & c3 & O3 & M3 & B3).
  2: { revert O3. now apply not_over. }
  cbv beta iota zeta in O3, M3. destruct (N.ltb_spec n m) as [L|L].
  { revert O3. now apply not_over. }
  destruct (fetch_goes _ _ 2 devid m (sizeof_pluginfo + n - 9 - offset_dscr_conf) _ _ _ _ ltac:(lia)
    ltac:(unfold sizeof_pluginfo, offset_dscr_conf; lia) O3 M3) as ([conf|] & a4 & b4 & c4 & O4 & M4 & _);
    revert O4; now apply not_over.
Qed.

Lemma import_safe {S} (serve : S -> list bytes -> S * bytes * bool) busid seq s :
  modest (events serve (query_import busid seq) [] s []) ->
  ~ overruns (talk serve (query_import busid seq) [] s []).
Proof.
  intros M O. unfold query_import in *. rewrite talk_send in O. rewrite events_send in M.
  apply modest_tl in M. destruct (32 <=? len busid).
  { revert O. now apply not_over. }
  rewrite talk_send in O. rewrite events_send in M. apply modest_tl in M.
  destruct (recv_goes _ _ _ _ _ _ O M) as ([h|] & a1 & b1 & c1 & O1 & M1 & _).
  2: { revert O1. now apply not_over. }
  cbv beta iota in O1, M1. destruct (check_op_common h 3) as [code status].
  assert (forall p, (exists x, p = Ret (Failed x)) -> ~ overruns (talk serve p a1 b1 c1)) as No.
  { intros p (x & ->). apply not_over. discriminate. }
  destruct code as [|q|q].
  2: { revert O1. apply No. eauto. }
  2: { revert O1. apply No. destruct q as [q|q|]; eauto. destruct q as [q|q|]; eauto. destruct q; eauto. }
  destruct (recv_goes _ _ _ _ _ _ O1 M1) as ([u|] & a2 & b2 & c2 & O2 & M2 & _).
  2: { revert O2. now apply not_over. }
  cbv beta iota zeta in O2, M2. destruct (negb _).
  { revert O2. now apply not_over. }
  exact (build_safe _ _ _ _ _ _ M2 O2).
Qed.

(* ------------------------------------------------- the list *)
Lemma interfaces_got r is : forall acc k rest,
  Forall (fun i => len i = 4) is ->
  talk (answering r) (list_interfaces (length is) acc k) [] true (concat is ++ rest) =
  talk (answering r) (k (Some (acc ++ is))) [] true rest.
Proof.
  induction is as [|i is IH]; intros acc k rest F.
  - cbn [length list_interfaces concat app]. now rewrite app_nil_r.
  - inversion F as [|x l F1 F2]; subst. cbn [length list_interfaces]. rewrite talk_recv.
    change (sizeof_interface =? 0) with false. cbv iota. unfold answering at 1. cbv zeta.
    cbn [concat]. rewrite app_nil_r, <- app_assoc.
    replace (sizeof_interface <=? len (i ++ concat is ++ rest)) with true
      by (symmetry; apply N.leb_le; rewrite len_app; unfold sizeof_interface; lia).
    rewrite takeN_exact, dropN_exact by assumption. cbv beta iota.
    rewrite IH by assumption. now rewrite <- app_assoc.
Qed.

Lemma last_byte (u : bytes) n : len u = 312 -> dropN 311 u = [n] -> nth 311 u 0 = n.
Proof.
  intros L D. rewrite <- (takeN_dropN 311 u), D. rewrite app_nth2.
  - assert (length (takeN 311 u) = 311%nat) as ->; [|reflexivity].
    pose proof (takeN_len u 311) as T. rewrite L in T. unfold len in T.
    change (N.min 311 312) with 311 in T. lia.
  - pose proof (takeN_len u 311) as T. rewrite L in T. unfold len in T.
    change (N.min 311 312) with 311 in T. lia.
Qed.

Definition listed_of (e : exported) : listed := mk_listed (ex_description e) (ex_interfaces e).

Lemma devices_got r l : forall acc, Forall exported_ok l ->
  talk (answering r) (list_devices (length l) acc) [] true
    (concat (map (fun e => ex_description e ++ concat (ex_interfaces e)) l)) =
  Some (Listed (acc ++ map listed_of l)).
Proof.
  induction l as [|e l IH]; intros acc F.
  - cbn [length list_devices map concat]. now rewrite app_nil_r.
  - inversion F as [|x y (F1 & F2 & F3) F4]; subst. cbn [length list_devices]. rewrite talk_recv.
    change (sizeof_udev =? 0) with false. cbv iota. unfold answering at 1. cbv zeta.
    cbn [concat map]. rewrite app_nil_r, <- app_assoc.
    replace (sizeof_udev <=? _) with true
      by (symmetry; apply N.leb_le; rewrite len_app; unfold sizeof_udev; lia).
    rewrite takeN_exact, dropN_exact by assumption. cbv beta iota.
    rewrite (last_byte _ _ F1 F2). unfold len. rewrite Nat2N.id.
    rewrite interfaces_got by assumption. cbv beta iota. cbn [app]. rewrite IH by assumption.
    now rewrite <- app_assoc.
Qed.

Lemma list_got l : Forall exported_ok l -> len l < 4294967296 ->
  talk (answering (devlist_reply l)) get_exported_devices [] false [] =
  Some (Listed (map listed_of l)).
Proof.
  intros F L. unfold get_exported_devices. rewrite talk_send, talk_recv.
  change (8 =? 0) with false. cbv iota. unfold answering at 1. cbv zeta. cbn [app].
  set (body := concat (map (fun e => ex_description e ++ concat (ex_interfaces e)) l)).
  assert (devlist_reply l = op_common 5 0 ++ be 4 (len l) ++ body) as E.
  { unfold devlist_reply, op_common. now rewrite <- !app_assoc. }
  rewrite E. replace (8 <=? _) with true
    by (symmetry; apply N.leb_le; rewrite len_app; change (len (op_common 5 0)) with 8; lia).
  rewrite takeN_exact, dropN_exact by reflexivity.
  change (check_op_common (op_common 5 0) 5) with (0%Z, 0). cbv iota. rewrite talk_recv.
  change (4 =? 0) with false. cbv iota. unfold answering at 1. cbv zeta. rewrite app_nil_r.
  replace (4 <=? _) with true
    by (symmetry; apply N.leb_le; rewrite len_app, P_Usbip1.len_be; lia).
  rewrite takeN_exact, dropN_exact by apply P_Usbip1.len_be. cbv beta iota.
  rewrite (be_dec_be_small 4 _ L). unfold len. rewrite Nat2N.id.
  rewrite devices_got by assumption. reflexivity.
Qed.

(* ------------------------------------------------- what the client checks *)
Lemma strncmp_named b : forall n a, ~ In 0 b -> (length b < n)%nat -> length a = n -> strncmp n a b = true ->
  named a b.
Proof.
  induction b as [|y b IH]; intros n a Z L La H.
  - destruct n as [|n]; [lia|]. destruct a as [|x a]; [discriminate|]. cbn [strncmp nth] in H.
    destruct (N.eqb_spec x 0) as [->|]; cbn [negb] in H; [|discriminate]. exists a. split; [reflexivity|intros []].
  - destruct n as [|n]; [lia|]. destruct a as [|x a]; [discriminate|]. cbn [strncmp nth tl length] in *.
    destruct (N.eqb_spec x y) as [->|]; cbn [negb] in H; [|discriminate].
    destruct (N.eqb_spec y 0) as [->|]; [exfalso; apply Z; now left|].
    destruct (IH n a) as (j & -> & _); auto; try lia; [intro I; apply Z; now right|].
    exists j. split; [reflexivity|exact Z].
Qed.

Theorem attach_checked {T} (serve : T -> list bytes -> T * bytes * bool) s busid seq devid dev conf :
  ~ In 0 busid -> talk serve (query_import busid seq) [] s [] = Some (Plugged devid dev conf) ->
  exists h u rest, events serve (query_import busid seq) [] s [] =
      Sent (be 2 0x0111 ++ be 2 0x8003 ++ be 4 0) :: Sent (pad busid 32) :: Got h :: Got u :: rest /\
    be_dec (takeN 2 h) = 0x0111 /\ be_dec (takeN 2 (dropN 2 h)) = 3 /\ be_dec (takeN 4 (dropN 4 h)) = 0 /\
    named (takeN 32 (dropN 256 u)) busid.
Proof.
  intros Z. unfold query_import. cbn [talk events].
  destruct (32 <=? len busid) eqn:L; cbn [talk events]; [discriminate|]. apply N.leb_gt in L.
  change (8 =? 0) with false. cbv iota. destruct (serve s _) as [[s1 out] closed].
  destruct (8 <=? _); [|destruct closed; discriminate]. cbn [app].
  set (h := takeN 8 out). set (got := dropN 8 out). clearbody h got.
  unfold check_op_common at 1. unfold check_op_common.
  destruct (N.eqb_spec (be_dec (takeN 2 h)) 273) as [E1|]; cbn [negb]; [|discriminate].
  destruct (N.eqb_spec (be_dec (takeN 2 (dropN 2 h))) 3) as [E2|]; cbn [negb]; [|discriminate].
  destruct (N.eqb_spec (be_dec (takeN 4 (dropN 4 h))) 0) as [E3|]; cbn [negb]; [|repeat match goal with |- context [if ?b then _ else _] => destruct b end; discriminate].
  cbn [talk events]. change (312 =? 0) with false. cbv iota. destruct (serve s1 _) as [[s2 out2] closed2].
  destruct (N.leb_spec 312 (len (got ++ out2))) as [L2|]; [|destruct closed2; discriminate].
  destruct (strncmp 32 _ busid) eqn:S; cbn [negb]; [|discriminate]. intros _.
  eexists h, _, _. split; [reflexivity|]. repeat (split; [assumption|]).
  apply strncmp_named in S; auto.
  - unfold len in L. lia.
  - assert (len (takeN 32 (dropN 256 (takeN 312 (got ++ out2)))) = 32) as K by (rewrite takeN_len, dropN_len, takeN_len; lia).
    unfold len in K. lia.
Qed.

Theorem list_checked {T} (serve : T -> list bytes -> T * bytes * bool) s l :
  talk serve get_exported_devices [] s [] = Some (Listed l) ->
  exists h n rest, events serve get_exported_devices [] s [] =
      Sent (be 2 0x0111 ++ be 2 0x8005 ++ be 4 0) :: Got h :: Got n :: rest /\
    be_dec (takeN 2 h) = 0x0111 /\ be_dec (takeN 2 (dropN 2 h)) = 5 /\ be_dec (takeN 4 (dropN 4 h)) = 0.
Proof.
  unfold get_exported_devices. cbn [talk events].
  change (8 =? 0) with false. cbv iota. destruct (serve s _) as [[s1 out] closed].
  destruct (8 <=? _); [|destruct closed; discriminate]. cbn [app].
  set (h := takeN 8 out). set (got := dropN 8 out). clearbody h got.
  unfold check_op_common.
  destruct (N.eqb_spec (be_dec (takeN 2 h)) 273) as [E1|]; cbn [negb]; [|discriminate].
  destruct (N.eqb_spec (be_dec (takeN 2 (dropN 2 h))) 5) as [E2|]; cbn [negb]; [|discriminate].
  destruct (N.eqb_spec (be_dec (takeN 4 (dropN 4 h))) 0) as [E3|]; cbn [negb]; [|discriminate].
  cbn [talk events]. change (4 =? 0) with false. cbv iota. destruct (serve s1 _) as [[s2 out2] closed2].
  destruct (4 <=? _); [|destruct closed2; discriminate]. intros _.
  eexists h, _, _. split; [reflexivity|]. repeat split; assumption.
Qed.
