(* Proofs about the driver of the Windows client. *)
From Verif Require Import Base M_Util M_WinFwd M_WinDrv S_Usbip S_WinFwd S_WinDrv.
Open Scope N_scope.

(* ------------------------------------------------- blocks and messages *)
Definition junk_message (devid q : N) (junk : bytes) (u : urb) : message :=
  match u with
  | ResetPort => MSubmit q devid 0 0 1 0 0 0 0 (request8 35 3 4 (nth 43 junk 0) 0 0) []
  | _ => spec_message devid q u
  end.

Lemma handle_ep_addr h : handle_ep h = pipe_addr h.
Proof. unfold handle_ep, pipe_addr. change 127 with (N.ones 7). now rewrite N.land_ones. Qed.
Lemma handle_interval_is h : handle_interval h = pipe_interval h.
Proof.
  unfold handle_interval, pipe_interval. change 255 with (N.ones 8). rewrite N.land_ones, N.shiftr_div_pow2. reflexivity.
Qed.
Lemma handle_type_is h : handle_type h = pipe_type h.
Proof.
  unfold handle_type, pipe_type. change 255 with (N.ones 8). rewrite N.land_ones, N.shiftr_div_pow2. reflexivity.
Qed.

Lemma flags_own f : transflag f = spec_flags (N.testbit f 1) f.
Proof. unfold transflag, spec_flags. destruct (N.testbit f 1), (N.testbit f 2); reflexivity. Qed.
Lemma flags_short f : transflag (N.lor f 2) = spec_flags true f.
Proof.
  unfold transflag, spec_flags. rewrite !N.lor_spec. change (N.testbit 2 1) with true. change (N.testbit 2 2) with false.
  rewrite orb_true_r, orb_false_r. destruct (N.testbit f 2); reflexivity.
Qed.

Lemma le2_split lo hi : lo < 256 -> hi < 256 -> le 2 (256 * hi + lo) = [lo; hi].
Proof.
  intros A B. cbn [le].
  replace ((256 * hi + lo) / 256) with hi by (rewrite N.mul_comm, N.div_add_l, (N.div_small lo) by lia; lia).
  rewrite (N.mod_small hi) by lia.
  replace ((256 * hi + lo) mod 256) with lo; [reflexivity|].
  rewrite N.mul_comm, N.add_comm, N.mod_add, N.mod_small by lia. reflexivity.
Qed.
Lemma le2_low v : v < 256 -> le 2 v = [v; 0].
Proof. intro H. replace v with (256 * 0 + v) at 1 by lia. now apply le2_split. Qed.

Lemma request8_len a b c d i n : len (request8 a b c d i n) = 8.
Proof. unfold request8. rewrite !len_app, !le_len. reflexivity. Qed.

Definition submit_parts (m : message) : bytes * bytes :=
  match m with
  | MSubmit seq devid dir ep flags start packets interval n setup d =>
    (le 4 1 ++ le 4 seq ++ le 4 devid ++ le 4 dir ++ le 4 ep ++
     le 4 flags ++ le 4 n ++ le 4 start ++ le 4 packets ++ le 4 interval ++ setup, d)
  | _ => ([], [])
  end.

Lemma header_is junk q devid u : known u ->
  urb_header junk q devid u = Some (fst (submit_parts (junk_message devid q junk u))) /\
  snd (submit_parts (junk_message devid q junk u)) = (if carries u then buffer u else []) /\
  (exists a b c d e f g h i j, junk_message devid q junk u = MSubmit q a b c d e f g h i j).
Proof.
  intros (L & K). destruct u as [h fl buf|[|] typ index lang buf|recip index buf|vendor recip fl rq value index buf
    |value|number alt|h fl setup buf|h fl setup buf|];
    unfold urb_header, junk_message, spec_message, submit_header, setup_packet, moves_in, carries, submit_parts, request8;
    cbn [buffer fst snd].
  - rewrite <- handle_type_is. split; [|split; [|repeat eexists]].
    + replace ((handle_type h =? 2) || (handle_type h =? 3)) with true
        by (destruct K as [->| ->]; reflexivity).
      rewrite handle_ep_addr, handle_interval_is, flags_own. reflexivity.
    + change (pipe_in h) with (handle_in h). destruct (handle_in h); reflexivity.
  - destruct K as (K1 & K2 & _). split; [|split; [|repeat eexists]]; [|reflexivity].
    rewrite (le2_split index typ) by assumption. reflexivity.
  - destruct K as (K1 & K2 & K3). split; [|split; [|repeat eexists]]; [|reflexivity].
    rewrite (le2_split index typ) by assumption.
    destruct K3 as [K3|[->|[->|[->| ->]]]]; [discriminate|reflexivity..].
  - split; [|split; [|repeat eexists]]; reflexivity.
  - split; [|split; [|repeat eexists]].
    + assert (vendor && (recip =? 3) = false) as ->.
      { destruct K as [->|K]; [reflexivity|]. apply N.eqb_neq in K. rewrite K. apply andb_false_r. }
      rewrite flags_short. destruct (N.testbit fl 0), vendor; reflexivity.
    + destruct (N.testbit fl 0); reflexivity.
  - split; [|split; [|repeat eexists]]; [|reflexivity]. rewrite (le2_low value) by assumption. reflexivity.
  - split; [|split; [|repeat eexists]]; [|reflexivity]. rewrite (le2_low alt) by assumption. reflexivity.
  - destruct K as (K1 & K2). rewrite K2. split; [|split; [|repeat eexists]].
    + rewrite handle_ep_addr, handle_interval_is, flags_short. reflexivity.
    + destruct (N.testbit fl 0); cbn [negb andb]; auto. destruct buf; reflexivity.
  - destruct K as (K1 & K2). rewrite K2. split; [|split; [|repeat eexists]].
    + rewrite handle_ep_addr, handle_interval_is, flags_short. reflexivity.
    + change (pipe_in h) with (handle_in h). destruct (handle_in h); reflexivity.
  - split; [|split; [|repeat eexists]]; reflexivity.
Qed.

Lemma host_parts q devid junk u : known u ->
  host_bytes (junk_message devid q junk u) = fst (submit_parts (junk_message devid q junk u)) ++
    snd (submit_parts (junk_message devid q junk u)).
Proof.
  intro K. destruct (header_is junk q devid u K) as (_ & _ & (a & b & c & d & e & f & g & h & i & j & ->)).
  unfold host_bytes, submit_parts. cbn [fst snd]. now rewrite <- !app_assoc.
Qed.

Lemma message_good q devid junk u : known u -> q < 4294967296 -> devid < 4294967296 ->
  driver_request (junk_message devid q junk u).
Proof.
  intros (L & K) Q D.
  assert (forall x, u32 (handle_ep x)) as E.
  { intro x. rewrite handle_ep_addr. unfold pipe_addr, u32. pose proof (N.mod_lt x 128). lia. }
  assert (len (buffer u) < 4294967296) as L' by lia.
  destruct u as [h fl buf|toi typ index lang buf|recip index buf|vendor recip fl rq value index buf
    |value|number alt|h fl setup buf|h fl setup buf|];
    unfold junk_message, spec_message, driver_request, well_formed; cbn [buffer] in *;
    (split; [|reflexivity]).
  1: destruct (moves_in _); repeat split; auto; reflexivity.
  1,2: repeat split; auto; apply request8_len.
  1: destruct (moves_in _); repeat split; auto; try reflexivity; try apply request8_len.
  1,2,5: repeat split; auto; try reflexivity; apply request8_len.
  1,2: destruct K as (K & _); destruct (moves_in _); repeat split; auto; reflexivity.
Qed.

Lemma message_len q devid junk u : known u -> len (host_bytes (junk_message devid q junk u)) <= 48 + len (buffer u) /\
  len (fst (submit_parts (junk_message devid q junk u))) = 48.
Proof.
  intro K. rewrite (host_parts q devid junk u K), len_app.
  destruct (header_is junk q devid u K) as (_ & S & (a & b & c & d & e & f & g & h & i & j & E)).
  assert (len i = 8) as I.
  { destruct K as (_ & K). destruct u; unfold junk_message, spec_message in E; injection E as; subst; auto;
      try apply request8_len; try reflexivity; try (destruct K; assumption). }
  rewrite S, E. unfold submit_parts. cbn [fst]. rewrite !len_app, !le_len, I.
  split; [|reflexivity]. destruct (carries u); [|change (len (@nil N)) with 0]; lia.
Qed.

(* ------------------------------------------------- storing *)
Lemma store_known junk q devid u : known u ->
  exists b rest, store junk 48 q devid u = Some (b, rest) /\ len b = 48 /\
    host_bytes (junk_message devid q junk u) = b ++ (if rest then buffer u else []) /\
    (rest = true -> carries u = true /\ buffer u <> []).
Proof.
  intro K. destruct (header_is junk q devid u K) as (E & S & _). pose proof (message_len q devid junk u K) as (_ & L).
  unfold store. change (48 <? 48) with false. cbv iota. rewrite E. cbn [obind]. rewrite (host_parts q devid junk u K), S.
  destruct (carries u) eqn:C.
  - change (48 - 48) with 0. destruct (N.leb_spec (len (buffer u)) 0) as [Z|Z].
    + assert (buffer u = []) as B by (apply len_0_nil; revert Z; apply N.le_0_r). rewrite B, app_nil_r.
      eexists _, false. split; [destruct (counted u); reflexivity|]. rewrite app_nil_r. split; [exact L|]. split; [reflexivity|discriminate].
    + eexists _, true. split; [reflexivity|]. split; [exact L|]. split; [reflexivity|]. intros _. split; auto.
      intros B. rewrite B in Z. discriminate Z.
  - eexists _, false. split; [reflexivity|]. split; [exact L|]. split; [reflexivity|discriminate].
Qed.

(* ------------------------------------------------- what the driver holds *)
Definition entry_of (r : urbr) : entry :=
  match ur_what r with Some u => Block (ur_id r) u | None => Unlink (ur_id r) (ur_target r) end.
Definition taken (d : drv) : list urbr := map fst (dr_taken d).
Definition entries (d : drv) : list entry := map entry_of (taken d ++ dr_pending d).

Definition msg_of (devid : N) (x : urbr * bytes) : message :=
  match ur_what (fst x) with
  | Some u => junk_message devid (ur_seq (fst x)) (snd x) u
  | None => MUnlink (ur_seq (fst x)) devid 0 0 (ur_target (fst x)) (pad (dropN 24 (snd x)) 24)
  end.
Definition messages (d : drv) : list message := map (msg_of (dr_devid d)) (dr_taken d).

Definition entry_good (e : entry) : Prop :=
  match e with Block _ u => known u | Unlink _ t => t < 4294967296 end.

Definition tail (s : slot) : bytes :=
  match s with Holds r => match ur_what r with Some u => buffer u | None => [] end | _ => [] end.

(* numbers from 1 on *)
Definition count_to (n : nat) : list N := map N.of_nat (seq 1 n).

Definition slot_ok (d : drv) : Prop :=
  match dr_partial d with
  | Nobody => True
  | Holds r => exists before junk u, dr_taken d = before ++ [(r, junk)] /\ ur_what r = Some u /\
      carries u = true /\ buffer u <> []
  | Dangling => False
  end.

Definition drv_ok (d : drv) : Prop :=
  dr_devid d < 4294967296 /\
  map ur_seq (taken d) = count_to (length (taken d)) /\ dr_seq d = N.of_nat (length (taken d)) /\
  Forall (fun r => ur_seq r = 0) (dr_pending d) /\
  Forall entry_good (entries d) /\
  concat (map host_bytes (messages d)) = concat (dr_out d) ++ tail (dr_partial d) /\
  slot_ok d /\
  (forall n j b, dr_read d = Some (n, j, b) -> n = 48 /\ b = true /\ dr_partial d = Nobody /\ dr_pending d = []).

Lemma count_to_snoc n : count_to n ++ [N.of_nat (S n)] = count_to (S n).
Proof. unfold count_to. rewrite (seq_S n 1), map_app. reflexivity. Qed.

Lemma pad_len b n : len (pad b n) = N.of_nat n.
Proof. unfold pad, len. rewrite firstn_length, app_length. unfold zeros. rewrite repeat_length. lia. Qed.

Lemma message_of_good devid r junk : devid < 4294967296 -> ur_seq r < 4294967296 -> entry_good (entry_of r) ->
  driver_request (msg_of devid (r, junk)).
Proof.
  intros D Q G. unfold msg_of, entry_of in *. cbn [fst snd]. destruct (ur_what r) as [u|]; cbn [entry_good] in G.
  - now apply message_good.
  - repeat split; try assumption; apply pad_len.
Qed.

(* storing the request r, to which q is given *)
Lemma store_urbr_ok d junk q r : entry_good (entry_of r) ->
  exists b rest, store_urbr d junk 48 (numbered r q) = Some (b, rest) /\ len b = 48 /\
    host_bytes (msg_of (dr_devid d) (numbered r q, junk)) =
      b ++ (if rest then match ur_what r with Some u => buffer u | None => [] end else []) /\
    (rest = true -> exists u, ur_what r = Some u /\ carries u = true /\ buffer u <> []).
Proof.
  intro G. unfold store_urbr, msg_of, entry_of in *. cbn [fst snd numbered ur_what ur_seq ur_target].
  destruct (ur_what r) as [u|]; cbn [entry_good] in G.
  - destruct (store_known junk q (dr_devid d) u G) as (b & rest & E & L & H & C). exists b, rest. rewrite E.
    repeat (split; [assumption || reflexivity|]). intro R. destruct (C R). eauto.
  - unfold store_unlink. change (48 <? 48) with false. cbv iota. cbn [obind].
    eexists _, false. split; [reflexivity|]. split; [rewrite !len_app, !le_len, pad_len; reflexivity|].
    split; [|discriminate]. unfold host_bytes. now rewrite app_nil_r.
Qed.

Lemma entry_numbered r q : entry_of (numbered r q) = entry_of r.
Proof. reflexivity. Qed.

Lemma stored_ok d junk r pending b rest : drv_ok d -> dr_partial d = Nobody ->
  dr_pending d = r :: pending \/ dr_pending d = [] /\ pending = [] /\ ur_seq r = 0 ->
  entry_good (entry_of r) -> N.of_nat (length (taken d)) + 1 < 4294967296 ->
  let q := u32mod (dr_seq d + 1) in
  store_urbr d junk 48 (numbered r q) = Some (b, rest) ->
  let d' := stored d q pending (numbered r q) junk b rest in
  drv_ok d' /\ entries d' = map entry_of (taken d) ++ entry_of r :: map entry_of pending /\
  taken d' = taken d ++ [numbered r q] /\ q = N.of_nat (length (taken d)) + 1.
Proof.
  intros (H1 & H2 & H3 & H4 & H5 & H6 & H7 & H8) P Hp G W q E d'.
  destruct (store_urbr_ok d junk q r G) as (b' & rest' & E' & L & Hh & Hr). rewrite E in E'. injection E' as <- <-.
  assert (q = N.of_nat (length (taken d)) + 1) as Q by (unfold q, u32mod; rewrite H3; apply N.mod_small; exact W).
  assert (taken d' = taken d ++ [numbered r q]) as T by (unfold taken, d', stored; cbn [dr_taken]; rewrite map_app; reflexivity).
  assert (entries d' = map entry_of (taken d) ++ entry_of r :: map entry_of pending) as En.
  { unfold entries. rewrite T. unfold d', stored. cbn [dr_pending]. rewrite !map_app, <- app_assoc. reflexivity. }
  assert (entries d = map entry_of (taken d) ++ map entry_of (dr_pending d)) as En0 by apply map_app.
  split; [|auto]. unfold drv_ok. rewrite En, T. unfold d', stored.
  cbn [dr_devid dr_seq dr_pending dr_partial dr_out dr_read].
  split; [exact H1|]. split; [rewrite map_app, H2, app_length, Nat.add_comm; cbn [map length numbered ur_seq]; rewrite <- count_to_snoc, Q; f_equal; f_equal; lia|].
  split; [rewrite app_length; cbn [length]; lia|].
  assert (Forall (fun r => ur_seq r = 0) pending /\ Forall entry_good (map entry_of pending)) as (F1 & F2).
  { rewrite En0 in H5. apply Forall_app in H5. destruct H5 as (_ & H5). destruct Hp as [Hp|(Hp & -> & _)].
    - rewrite Hp in H4, H5. inversion H4. inversion H5. auto.
    - split; constructor. }
  split; [exact F1|]. split.
  { rewrite En0 in H5. apply Forall_app in H5. destruct H5 as (H5 & _). apply Forall_app. split; auto. }
  split.
  { unfold messages. cbn [dr_devid dr_taken]. rewrite !map_app, !concat_app. unfold messages in H6. rewrite H6, P. cbn [tail map concat].
    rewrite !app_nil_r, Hh, <- app_assoc. do 2 f_equal. destruct rest; reflexivity. }
  split.
  { unfold slot_ok. cbn [dr_partial dr_taken]. destruct rest; auto. destruct (Hr eq_refl) as (u & U & C). exists (dr_taken d), junk, u. auto. }
  discriminate.
Qed.

Definition gives (d d' : drv) (b : option bytes) : Prop :=
  match b with
  | Some b => dr_read d <> None /\ dr_read d' = None /\ dr_out d' = dr_out d ++ [b] /\ len b = 48
  | None => dr_read d' = dr_read d /\ dr_out d' = dr_out d
  end.

(* a request comes *)
Lemma submit_ok d r : drv_ok d -> entry_good (entry_of r) -> ur_seq r = 0 -> N.of_nat (length (taken d)) + 1 < 4294967296 ->
  exists d' b, submit_urbr d r = (d', b, true) /\ drv_ok d' /\ entries d' = entries d ++ [entry_of r] /\ gives d d' b /\
    dr_devid d' = dr_devid d /\ dr_done d' = dr_done d /\ (length (taken d') <= S (length (taken d)))%nat /\
    (exists l, taken d' = taken d ++ l) /\
    ((dr_pending d' = dr_pending d ++ [r] /\ dr_sent d' = dr_sent d /\ dr_partial d' = dr_partial d /\ taken d' = taken d) \/
     exists q, taken d' = taken d ++ [numbered r q] /\ dr_pending d' = dr_pending d /\
      ((dr_sent d' = dr_sent d ++ [numbered r q] /\ dr_partial d' = Nobody /\ dr_partial d = Nobody) \/
       (dr_sent d' = dr_sent d /\ dr_partial d' = Holds (numbered r q) /\ dr_partial d = Nobody))).
Proof.
  intros H G Z W. pose proof H as (H1 & H2 & H3 & H4 & H5 & H6 & H7 & H8). unfold submit_urbr.
  destruct (dr_read d) as [[[n j] b]|] eqn:R.
  - destruct (H8 _ _ _ eq_refl) as (-> & -> & P & Pe). rewrite P.
    destruct (store_urbr_ok d j (u32mod (dr_seq d + 1)) r G) as (b & rest & E & L & _). rewrite E.
    destruct (stored_ok d j r [] b rest H P (or_intror (conj Pe (conj eq_refl Z))) G W E) as (K & En & T & _).
    rewrite Pe. eexists _, (Some b). split; [reflexivity|]. split; [exact K|].
    split; [rewrite En; unfold entries; rewrite Pe, app_nil_r; reflexivity|].
    split; [split; [congruence|]; repeat split; auto|]. split; [reflexivity|]. split; [reflexivity|].
    rewrite T. split; [rewrite app_length; cbn [length]; lia|]. split; [eauto|]. right.
    eexists. split; [reflexivity|]. split; [reflexivity|]. destruct rest; [right|left]; repeat split.
  - exists (mk_drv (dr_devid d) (dr_seq d) (dr_pending d ++ [r]) (dr_sent d) (dr_partial d) None
       (dr_done d) (dr_taken d) (dr_out d)), None.
    split; [destruct (dr_partial d); reflexivity|].
    assert (forall x, entries (mk_drv (dr_devid d) (dr_seq d) (dr_pending d ++ [r]) (dr_sent d) (dr_partial d) x
       (dr_done d) (dr_taken d) (dr_out d)) = entries d ++ [entry_of r]) as En.
    { intro x. unfold entries, taken. cbn [dr_pending dr_taken]. rewrite !map_app, app_assoc. reflexivity. }
    split.
    { unfold drv_ok. rewrite En. cbn [dr_devid dr_seq dr_pending dr_partial dr_out dr_read].
      repeat (split; [first [assumption|apply Forall_app; split; auto]|]). discriminate. }
    split; [apply En|]. split; [split; [exact (eq_sym R)|reflexivity]|]. split; [reflexivity|]. split; [reflexivity|].
    unfold taken. cbn [dr_taken]. split; [lia|]. split; [exists []; now rewrite app_nil_r|]. left. repeat split.
Qed.

(* the forwarder reads *)
Lemma read_ok d n junk : drv_ok d -> dr_read d = None -> N.of_nat (length (taken d)) + 1 < 4294967296 ->
  n = match dr_partial d with Holds r => match ur_what r with Some u => len (buffer u) | None => 0 end | _ => 48 end ->
  exists d' rr, read_drv d n junk = Ok (d', rr) /\ drv_ok d' /\ entries d' = entries d /\ dr_devid d' = dr_devid d /\
    dr_done d' = dr_done d /\ (length (taken d') <= S (length (taken d)))%nat /\
    match rr with
    | Gave b => dr_read d' = None /\ dr_out d' = dr_out d ++ [b] /\ 0 < len b /\ len b = n
    | Waits => dr_read d' <> None /\ dr_out d' = dr_out d
    | Fails => False
    end /\
    (exists l, taken d' = taken d ++ l) /\
    incl (dr_pending d') (dr_pending d) /\
    (incl (dr_sent d ++ in_slot (dr_partial d)) (taken d) -> incl (dr_sent d' ++ in_slot (dr_partial d')) (taken d')).
Proof.
  intros H R W E. pose proof H as (H1 & H2 & H3 & H4 & H5 & H6 & H7 & H8). unfold read_drv. rewrite R.
  destruct (dr_partial d) as [|r|] eqn:P.
  - subst n. destruct (dr_pending d) as [|r pending] eqn:Pe.
    + eexists _, Waits. split; [reflexivity|].
      assert (forall x y, entries (mk_drv (dr_devid d) (dr_seq d) [] (dr_sent d) y x (dr_done d) (dr_taken d) (dr_out d)) = entries d) as En
        by (intros; unfold entries; cbn [dr_pending]; now rewrite Pe).
      split.
      { unfold drv_ok. rewrite En. cbn [dr_devid dr_seq dr_pending dr_partial dr_out dr_read].
        repeat (split; [first [assumption|exact I]|]). intros a b c [=-> -> ->]. auto. }
      split; [apply En|]. split; [reflexivity|]. split; [reflexivity|]. unfold taken. cbn [dr_taken]. split; [lia|].
      split; [split; [discriminate|reflexivity]|]. split; [exists []; now rewrite app_nil_r|].
      split; [apply incl_refl|]. cbn [dr_sent dr_partial]. auto.
    + assert (entry_good (entry_of r)) as G.
      { unfold entries in H5. rewrite Pe, map_app in H5. apply Forall_app in H5. destruct H5 as (_ & H5). now inversion H5. }
      destruct (store_urbr_ok d junk (u32mod (dr_seq d + 1)) r G) as (b & rest & S & L & _). rewrite S.
      destruct (stored_ok d junk r pending b rest H P (or_introl Pe) G W S) as (K & En & T & _).
      eexists _, (Gave b). split; [reflexivity|]. split; [exact K|].
      split; [rewrite En; unfold entries; rewrite Pe, map_app; reflexivity|].
      split; [reflexivity|]. split; [reflexivity|]. rewrite T. split; [rewrite app_length; cbn [length]; lia|].
      split; [repeat split; [rewrite L; lia|exact L]|]. split; [eauto|]. split; [apply incl_tl, incl_refl|].
      cbn [in_slot]. rewrite app_nil_r. intro I. unfold stored. cbn [dr_sent dr_partial].
      destruct rest; cbn [in_slot]; rewrite ?app_nil_r; apply incl_app; try (apply incl_appl; assumption); apply incl_appr, incl_refl.
  - unfold slot_ok in H7. rewrite P in H7. destruct H7 as (before & j & u & T & U & C & B). rewrite U in E |- *. cbn [obind]. unfold store_rest. rewrite C, E, N.ltb_irrefl.
    eexists _, (Gave (buffer u)). split; [reflexivity|].
    assert (forall a b c x, entries (mk_drv (dr_devid d) (dr_seq d) (dr_pending d) a b c (dr_done d) (dr_taken d) x) = entries d) as En
      by reflexivity.
    split.
    { unfold drv_ok. rewrite En. cbn [dr_devid dr_seq dr_pending dr_partial dr_out dr_read].
      repeat (split; [first [assumption|exact I]|]). split; [|split; [exact I|discriminate]].
      change (messages _) with (messages d). rewrite H6, concat_app. cbn [concat tail]. rewrite U, !app_nil_r. reflexivity. }
    split; [apply En|]. split; [reflexivity|]. split; [reflexivity|]. unfold taken. cbn [dr_taken]. split; [lia|].
    split; [repeat split; destruct (buffer u); [congruence|unfold len; cbn [length]; lia]|].
    split; [exists []; now rewrite app_nil_r|]. split; [apply incl_refl|]. cbn [dr_sent dr_partial in_slot]. rewrite !app_nil_r. auto.
  - unfold slot_ok in H7. rewrite P in H7. contradiction.
Qed.

(* ------------------------------------------------- entries and cancels *)
Fixpoint uok (c : list nat) (pre es : list entry) : Prop :=
  match es with
  | [] => True
  | e :: r => match e with Unlink i t => In i c /\ t = number_of 1 i pre | Block _ _ => True end /\ uok c (pre ++ [e]) r
  end.

Lemma uok_unlinks c es : uok c [] es -> unlinks_ok c es.
Proof.
  assert (forall es pre, uok c pre es -> forall before i t after, es = before ++ Unlink i t :: after ->
    In i c /\ t = number_of 1 i (pre ++ before)) as H.
  { induction es0 as [|e es0 IH]; intros pre U before i t after E; [now destruct before|].
    destruct U as (U1 & U2). destruct before as [|b before]; cbn [app] in E; injection E as -> E.
    - now rewrite app_nil_r.
    - specialize (IH _ U2 before i t after E). now rewrite <- app_assoc in IH. }
  intros U before i t after E. exact (H es [] U before i t after E).
Qed.

Definition lacks (i : nat) (es : list entry) : Prop := forall u, ~ In (Block i u) es.

Lemma number_lacks i es : lacks i es -> forall q, number_of q i es = 0.
Proof.
  induction es as [|[j u|j t] es IH]; intros L q; cbn [number_of]; [reflexivity| |].
  - destruct (Nat.eqb_spec j i) as [->|_]; [destruct (L u); now left|]. apply IH. intros v I. apply (L v). now right.
  - apply IH. intros v I. apply (L v). now right.
Qed.

Lemma number_app_lacks i b : lacks i b -> forall a q, number_of q i (a ++ b) = number_of q i a.
Proof.
  intros L. induction a as [|[j u|j t] a IH]; intro q; cbn [number_of app]; [now apply number_lacks|rewrite IH; reflexivity|apply IH].
Qed.

Lemma number_at i u b : forall a q, lacks i a -> number_of q i (a ++ Block i u :: b) = q + N.of_nat (length a).
Proof.
  induction a as [|e a IH]; intros q L; cbn [number_of app length]; [rewrite Nat.eqb_refl; lia|].
  assert (lacks i a) as La by (intros v I; apply (L v); now right).
  specialize (IH (q + 1) La). destruct e as [j v|j t].
  - destruct (Nat.eqb_spec j i) as [->|_]; [destruct (L v); now left|]. rewrite IH. lia.
  - rewrite IH. lia.
Qed.

Lemma uok_more c c' es : incl c c' -> forall pre, uok c pre es -> uok c' pre es.
Proof.
  intro I. induction es as [|e es IH]; intros pre; cbn [uok]; [trivial|]. intros (A & B). split; [|now apply IH].
  destruct e; [trivial|]. destruct A. auto.
Qed.

Lemma uok_app c es1 : forall pre es2, uok c pre (es1 ++ es2) <-> uok c pre es1 /\ uok c (pre ++ es1) es2.
Proof.
  induction es1 as [|e es1 IH]; intros pre es2; cbn [uok app]; [rewrite app_nil_r; tauto|].
  rewrite IH, <- app_assoc. cbn [app]. tauto.
Qed.

Lemma lacks_one i e : (forall u, e <> Block i u) -> lacks i [e].
Proof. intros H u [E|[]]. exact (H u E). Qed.

Lemma uok_filter c f es : (forall i, In i c -> lacks i es) -> forall pre pre',
  (forall i, In i c -> number_of 1 i pre = number_of 1 i pre') -> uok c pre es -> uok c pre' (filter f es).
Proof.
  induction es as [|e es IH]; intros L pre pre' P; cbn [uok filter]; [trivial|]. intros (A & B).
  assert (forall i, In i c -> lacks i es) as L' by (intros i I u J; apply (L i I u); now right).
  assert (forall i, In i c -> forall x, number_of 1 i (x ++ [e]) = number_of 1 i x) as N1.
  { intros i I x. apply number_app_lacks. apply lacks_one. intros u ->. apply (L i I u). now left. }
  destruct (f e); cbn [uok].
  - split.
    + destruct e as [|i t]; [trivial|]. destruct A as (A1 & A2). split; [exact A1|]. now rewrite <- P.
    + apply (IH L' (pre ++ [e])); [|exact B]. intros i I. rewrite !(N1 i I). now apply P.
  - apply (IH L' (pre ++ [e])); [|exact B]. intros i I. rewrite (N1 i I). now apply P.
Qed.

Lemma subseq_refl {A} (l : list A) : subseq l l.
Proof. induction l; [apply sub_nil|now apply sub_keep]. Qed.
Lemma subseq_app {A} (a b c d : list A) : subseq a b -> subseq c d -> subseq (a ++ c) (b ++ d).
Proof. induction 1; intro; cbn [app]; [assumption|apply sub_skip; auto|apply sub_keep; auto]. Qed.
Lemma subseq_incl {A} (a b : list A) : subseq a b -> incl a b.
Proof. induction 1; intros y I; [exact I|right; auto|destruct I as [->|I]; [now left|right; auto]]. Qed.
Lemma subseq_trans {A} (b c : list A) : subseq b c -> forall a, subseq a b -> subseq a c.
Proof.
  induction 1; intros a H1; [exact H1|apply sub_skip; auto|]. inversion H1; subst; [apply sub_skip; auto|apply sub_keep; auto].
Qed.
Lemma subseq_map {A B} (f : A -> B) a b : subseq a b -> subseq (map f a) (map f b).
Proof. induction 1; cbn [map]; [apply sub_nil|now apply sub_skip|now apply sub_keep]. Qed.
Lemma subseq_filter {A} f (a : list A) : subseq (filter f a) a.
Proof. induction a as [|x a IH]; cbn [filter]; [constructor|]. destruct (f x); [now apply sub_keep|now apply sub_skip]. Qed.
Lemma subseq_NoDup {A} (a b : list A) : subseq a b -> NoDup b -> NoDup a.
Proof.
  induction 1 as [|x l m H IH|x l m H IH]; intro N; [exact N|inversion N; auto|]. inversion N as [|y z N1 N2]. subst.
  constructor; [intro I; apply N1, (subseq_incl _ _ H), I|auto].
Qed.
Lemma subseq_flat {A B} (f : A -> list B) (a b : list A) : subseq a b -> subseq (flat_map f a) (flat_map f b).
Proof.
  induction 1 as [|x l m H IH|x l m H IH]; cbn [flat_map]; [constructor| |].
  - change (flat_map f l) with ([] ++ flat_map f l). apply subseq_app; [|exact IH]. induction (f x); constructor; assumption.
  - apply subseq_app; [apply subseq_refl|exact IH].
Qed.

Lemma blocks_app a b : blocks (a ++ b) = blocks a ++ blocks b.
Proof. apply flat_map_app. Qed.
Lemma blocks_in es i u : In (i, u) (blocks es) <-> In (Block i u) es.
Proof.
  unfold blocks. rewrite in_flat_map. split.
  - intros ([j v|j t] & I & J); cbn [In] in J; [destruct J as [[=-> ->]|[]]; exact I|contradiction].
  - intro I. exists (Block i u). split; [exact I|now left].
Qed.

(* ------------------------------------------------- what was asked of the driver *)
Definition hist (d : drv) (subs : list (nat * urb)) (cs : list nat) : Prop :=
  subseq (blocks (entries d)) subs /\
  (forall x, In x subs -> In x (blocks (entries d)) \/ In (fst x) cs) /\
  uok cs [] (entries d) /\
  (forall i, In i cs -> lacks i (map entry_of (dr_pending d))) /\
  incl cs (map fst subs) /\
  incl (dr_sent d ++ in_slot (dr_partial d)) (taken d).

Lemma hist_read d d' subs cs : hist d subs cs -> entries d' = entries d -> incl (dr_pending d') (dr_pending d) ->
  incl (dr_sent d' ++ in_slot (dr_partial d')) (taken d') -> hist d' subs cs.
Proof.
  intros (H1 & H2 & H3 & H4 & H5 & H6) E I S. unfold hist. rewrite E. split; [exact H1|]. split; [exact H2|]. split; [exact H3|].
  split; [|split; [exact H5|exact S]]. intros i J u K. apply (H4 i J u). apply in_map_iff in K. destruct K as (r & K1 & K2).
  apply in_map_iff. exists r. auto.
Qed.

Lemma submit_hist d d' id u subs cs b : hist d subs cs -> drv_ok d -> known u -> NoDup (map fst (subs ++ [(id, u)])) ->
  N.of_nat (length (taken d)) + 1 < 4294967296 -> submit_block d id u = (d', b) ->
  hist d' (subs ++ [(id, u)]) cs /\ drv_ok d' /\ entries d' = entries d ++ [Block id u] /\ gives d d' b /\ dr_devid d' = dr_devid d /\
  dr_done d' = dr_done d /\ (length (taken d') <= S (length (taken d)))%nat /\ (exists l, taken d' = taken d ++ l).
Proof.
  intros (H1 & H2 & H3 & H4 & H5 & H6) K Ku N W E. unfold submit_block in E.
  destruct (submit_ok d (mk_urbr id 0 (Some u) 0) K Ku eq_refl W) as (d1 & b1 & E1 & K1 & En & Gv & D1 & D2 & Ln & Ex & Cs).
  rewrite E1 in E. injection E as <- <-. change (entry_of _) with (Block id u) in En.
  assert (~ In id (map fst subs)) as New.
  { rewrite map_app in N. cbn [map fst] in N. apply NoDup_remove_2 in N. now rewrite app_nil_r in N. }
  split; [|repeat (split; [assumption|]); assumption]. unfold hist. rewrite En, !blocks_app. cbn [blocks flat_map app].
  split; [apply subseq_app; [exact H1|apply subseq_refl]|]. split.
  { intros x I. apply in_app_or in I. destruct I as [I|I]; [|left; apply in_or_app; now right].
    destruct (H2 x I) as [J|J]; [left; apply in_or_app; now left|now right]. }
  split; [apply uok_app; split; [exact H3|cbn [uok]; auto]|]. split.
  { intros i I v J.
    destruct Cs as [(P & _)|(q & _ & P & _)]; rewrite P in J; [|exact (H4 i I v J)].
    rewrite map_app in J. apply in_app_or in J. destruct J as [J|[J|[]]]; [exact (H4 i I v J)|].
    cbn in J. injection J as -> _. apply New, H5, I. }
  split; [rewrite map_app; apply incl_appl, H5|].
  destruct Cs as [(_ & S & P & T)|(q & T & _ & [(S & P & P0)|(S & P & P0)])]; rewrite S, P, T.
  - exact H6.
  - cbn [in_slot]. rewrite app_nil_r. apply incl_app; [apply incl_appl; intros x I; apply H6, in_or_app; now left|apply incl_appr, incl_refl].
  - cbn [in_slot]. apply incl_app; [apply incl_appl; intros x I; apply H6, in_or_app; now left|apply incl_appr, incl_refl].
Qed.

Lemma nodup_lacks es i u a b : NoDup (map fst (blocks es)) -> es = a ++ Block i u :: b -> lacks i a /\ lacks i b.
Proof.
  intros N ->. rewrite blocks_app in N. cbn [blocks flat_map app] in N. fold (blocks b) in N. rewrite map_app in N. cbn [map fst] in N.
  apply NoDup_remove_2 in N. split; intros v I; apply N, in_or_app; [left|right]; apply in_map_iff; exists (i, v); (split; [reflexivity|now apply blocks_in]).
Qed.

Definition keeps (id : nat) (e : entry) : bool := match e with Block i _ => negb (Nat.eqb i id) | Unlink _ _ => true end.

Lemma keep_entries id l : map entry_of (filter (fun x => negb (is_block id x)) l) = filter (keeps id) (map entry_of l).
Proof.
  induction l as [|r l IH]; cbn [filter map]; [reflexivity|]. rewrite <- IH. unfold is_block, keeps, entry_of at 2.
  destruct (ur_what r); [destruct (Nat.eqb (ur_id r) id)|]; cbn [negb map]; reflexivity.
Qed.

Lemma is_block_entry id r : is_block id r = true -> exists u, ur_what r = Some u /\ entry_of r = Block id u.
Proof.
  unfold is_block, entry_of. destruct (ur_what r) as [u|]; [|discriminate]. intro E. apply Nat.eqb_eq in E. subst id. eauto.
Qed.

Lemma count_nth n k : (k < n)%nat -> nth k (count_to n) 0 = N.of_nat k + 1.
Proof.
  intro H. unfold count_to. rewrite (nth_indep _ 0 (N.of_nat 0)) by (rewrite map_length, seq_length; exact H).
  rewrite map_nth, seq_nth by exact H. lia.
Qed.

Lemma taken_number d t1 r t2 : drv_ok d -> taken d = t1 ++ r :: t2 -> ur_seq r = N.of_nat (length t1) + 1.
Proof.
  intros (_ & H2 & _) E. assert (nth (length t1) (map ur_seq (taken d)) 0 = ur_seq r) as X.
  { rewrite E, map_app. cbn [map]. rewrite app_nth2; rewrite map_length; [|lia]. now rewrite Nat.sub_diag. }
  rewrite H2, count_nth in X; [lia|]. rewrite E, app_length. cbn [length]. lia.
Qed.

Definition shed (d : drv) (id : nat) : drv :=
  mk_drv (dr_devid d) (dr_seq d) (filter (fun x => negb (is_block id x)) (dr_pending d))
    (filter (fun x => negb (is_block id x)) (dr_sent d)) (dr_partial d) (dr_read d) (dr_done d) (dr_taken d) (dr_out d).

Lemma shed_entries d id : entries (shed d id) = map entry_of (taken d) ++ filter (keeps id) (map entry_of (dr_pending d)).
Proof. unfold entries. rewrite map_app. unfold shed at 2. cbn [dr_pending]. rewrite keep_entries. reflexivity. Qed.

Lemma shed_ok d id : drv_ok d -> drv_ok (shed d id).
Proof.
  intros (H1 & H2 & H3 & H4 & H5 & H6 & H7 & H8). unfold drv_ok. rewrite shed_entries.
  assert (forall A (P : A -> Prop) f l, Forall P l -> Forall P (filter f l)) as F.
  { intros A P f l. rewrite !Forall_forall. intros X x I. apply filter_In in I. now apply X. }
  unfold entries in H5. rewrite map_app in H5. apply Forall_app in H5. destruct H5 as (H5 & H5').
  split; [exact H1|]. split; [exact H2|]. split; [exact H3|]. split; [now apply F|].
  split; [apply Forall_app; split; auto|]. split; [exact H6|]. split; [exact H7|].
  intros n j b E. destruct (H8 n j b E) as (A & B & C & D). unfold shed. cbn [dr_partial dr_pending]. rewrite D. auto.
Qed.

Lemma cancel_hist d id subs cs d' b : hist d subs cs -> drv_ok d -> NoDup (map fst subs) ->
  (forall r, dr_partial d = Holds r -> ur_id r <> id) ->
  N.of_nat (length (taken d)) + 1 < 4294967296 -> cancel_block d id = Some (d', b) ->
  hist d' subs (cs ++ [id]) /\ drv_ok d' /\ gives d d' b /\ dr_devid d' = dr_devid d /\
  (length (taken d') <= S (length (taken d)))%nat /\ (exists l, taken d' = taken d ++ l) /\
  exists r u, ur_what r = Some u /\ ur_id r = id /\ In r (dr_pending d ++ dr_sent d) /\
    entries d' = entries (shed d id) ++ [Unlink id (ur_seq r)] /\
    dr_done d' = dr_done d ++ [(id, given_up Cancelled u)].
Proof.
  intros (H1 & H2 & H3 & H4 & H5 & H6) K N P W E. unfold cancel_block in E.
  destruct (find _ _) as [r|] eqn:F; [|discriminate].
  assert ((match dr_partial d with Holds x => if is_block id x then Nobody else Holds x | s => s end) = dr_partial d) as Sl.
  { destruct (dr_partial d) as [|x|]; try reflexivity. unfold is_block. destruct (ur_what x); [|reflexivity].
    destruct (Nat.eqb_spec (ur_id x) id) as [Q|_]; [now destruct (P x eq_refl)|reflexivity]. }
  rewrite Sl in E. change (mk_drv (dr_devid d) (dr_seq d) _ _ _ _ _ _ _) with (shed d id) in E.
  apply find_some in F. destruct F as (Fi & Fb). destruct (is_block_entry _ _ Fb) as (u & U & Eu).
  assert (NoDup (map fst (blocks (entries d)))) as Nb by (apply (subseq_NoDup _ _ (subseq_map fst _ _ H1) N)).
  assert (In r (dr_pending d ++ dr_sent d)) as Ir.
  { rewrite app_assoc in Fi. apply in_app_or in Fi. destruct Fi as [Fi|Fi]; [exact Fi|].
    destruct (dr_partial d) as [|x|]; cbn [in_slot] in Fi; try contradiction. destruct Fi as [->|[]].
    destruct (P r eq_refl). unfold entry_of in Eu. rewrite U in Eu. now injection Eu. }
  set (r2 := mk_urbr id 0 None (ur_seq r)) in *.
  assert (lacks id (filter (keeps id) (map entry_of (dr_pending d)))) as La.
  { intros v I. apply filter_In in I. destruct I as (_ & I). cbn [keeps] in I. now rewrite Nat.eqb_refl in I. }
  assert (ur_seq r = number_of 1 id (entries (shed d id)) /\ ur_seq r < 4294967296 /\ In (Block id u) (entries d)) as (Nu & Bn & Be).
  { rewrite shed_entries. rewrite number_app_lacks by exact La. apply in_app_or in Ir. destruct Ir as [Ir|Ir].
    - assert (ur_seq r = 0) as Z by (destruct K as (_ & _ & _ & K & _); rewrite Forall_forall in K; now apply K).
      rewrite Z. split; [|split; [lia|unfold entries; rewrite map_app; apply in_or_app; right; rewrite <- Eu; now apply in_map]]. symmetry. apply number_lacks.
      destruct (in_split _ _ Ir) as (p1 & p2 & Sp).
      assert (entries d = (map entry_of (taken d) ++ map entry_of p1) ++ Block id u :: map entry_of p2) as Es.
      { unfold entries. rewrite Sp, !map_app. cbn [map]. rewrite Eu, <- app_assoc. reflexivity. }
      destruct (nodup_lacks _ _ _ _ _ Nb Es) as (A & _). intros v I. apply (A v), in_or_app. now left.
    - assert (In r (taken d)) as It by (apply H6, in_or_app; now left).
      destruct (in_split _ _ It) as (t1 & t2 & Sp). rewrite (taken_number d t1 r t2 K Sp).
      assert (entries d = map entry_of t1 ++ Block id u :: (map entry_of t2 ++ map entry_of (dr_pending d))) as Es.
      { unfold entries. rewrite Sp, !map_app. cbn [map app]. rewrite Eu, <- app_assoc. reflexivity. }
      destruct (nodup_lacks _ _ _ _ _ Nb Es) as (A & _).
      split; [rewrite Sp, map_app; cbn [map]; rewrite Eu, (number_at id u _ _ 1 A), map_length; lia|].
      split; [apply (f_equal (@length _)) in Sp; rewrite app_length in Sp; cbn [length] in Sp; lia|].
      unfold entries. rewrite Sp, !map_app. cbn [map]. rewrite Eu. apply in_or_app. left. apply in_or_app. right. now left. }
  assert (N.of_nat (length (taken (shed d id))) + 1 < 4294967296) as W' by exact W.
  destruct (submit_ok (shed d id) r2 (shed_ok d id K) Bn eq_refl W') as (d1 & b1 & E1 & K1 & En & Gv & D1 & D2 & Ln & Ex & Cs).
  rewrite E1, U in E. injection E as <- <-. change (entry_of r2) with (Unlink id (ur_seq r)) in En.
  set (d2 := finish d1 id _).
  change (drv_ok d1) with (drv_ok d2) in K1. change (entries d1) with (entries d2) in En.
  change (taken d1) with (taken d2) in Ln, Ex, Cs.
  split.
  2:{ split; [exact K1|]. split; [exact Gv|]. split; [exact D1|]. split; [exact Ln|]. split; [exact Ex|].
      exists r, u. split; [exact U|]. split; [unfold entry_of in Eu; rewrite U in Eu; now injection Eu|]. split; [exact Ir|].
      split; [exact En|]. unfold d2, finish. cbn [dr_done]. rewrite D2. reflexivity. }
  unfold hist. rewrite En, shed_entries. rewrite !blocks_app. cbn [blocks flat_map app]. rewrite app_nil_r.
  unfold entries in H1, H2, H3. rewrite map_app in H1, H2, H3. rewrite blocks_app in H1, H2.
  split.
  { apply (subseq_trans _ _ H1). apply subseq_app; [apply subseq_refl|]. apply subseq_flat, subseq_filter. }
  split.
  { intros x I. destruct (H2 x I) as [J|J]; [|right; apply in_or_app; now left].
    destruct (Nat.eq_dec (fst x) id) as [Q|Q]; [right; apply in_or_app; right; now left|]. left.
    apply in_app_or in J. apply in_or_app. destruct J as [J|J]; [now left|right]. destruct x as [i v]. cbn [fst] in Q. apply blocks_in in J. apply blocks_in.
    apply filter_In. split; [exact J|]. cbn [keeps]. apply Nat.eqb_neq in Q. now rewrite Q. }
  split.
  { apply uok_app. apply uok_app in H3. destruct H3 as (H3 & H3'). split.
    - apply (uok_more cs); [apply incl_appl, incl_refl|]. apply uok_app. split; [exact H3|].
      apply (uok_filter cs (keeps id) _ H4 (map entry_of (taken d))); auto.
    - cbn [uok app]. split; [|trivial]. split; [apply in_or_app; right; now left|]. rewrite shed_entries in Nu. exact Nu. }
  split.
  { intros i I.
    assert (lacks i (filter (keeps id) (map entry_of (dr_pending d)))) as L.
    { apply in_app_or in I. destruct I as [I|[<-|[]]]; [|exact La]. intros v J. apply filter_In in J. destruct J as (J & _). exact (H4 i I v J). }
    change (dr_pending d2) with (dr_pending d1).
    destruct Cs as [(P1 & _)|(q & _ & P1 & _)]; rewrite P1; unfold shed; cbn [dr_pending]; rewrite ?map_app, keep_entries.
    - intros v J. apply in_app_or in J. destruct J as [J|[J|[]]]; [exact (L v J)|discriminate J].
    - exact L. }
  split.
  { apply incl_app; [exact H5|]. intros i [<-|[]]. apply in_map_iff. exists (id, u). split; [reflexivity|].
    apply (subseq_incl _ _ H1). rewrite <- blocks_app, <- map_app. now apply blocks_in. }
  assert (incl (dr_sent (shed d id)) (taken d)) as Is.
  { intros x I. unfold shed in I. cbn [dr_sent] in I. apply filter_In in I. apply H6, in_or_app. now left. }
  change (dr_sent d2) with (dr_sent d1). change (dr_partial d2) with (dr_partial d1).
  destruct Cs as [(_ & S & P1 & T)|(q & T & _ & [(S & P1 & P0)|(S & P1 & P0)])]; rewrite S, P1, T; change (taken (shed d id)) with (taken d).
  - apply incl_app; [exact Is|]. intros x I. apply H6, in_or_app. now right.
  - cbn [in_slot]. rewrite app_nil_r. apply incl_app; [now apply incl_appl|apply incl_appr, incl_refl].
  - cbn [in_slot]. apply incl_app; [now apply incl_appl|apply incl_appr, incl_refl].
Qed.
