(* The handlers decode the documents of S_CtapReq to the values the platform put in. *)
From Verif Require Import Base M_Utf8 M_Cbor S_Cbor P_Cbor P_Cbor2 M_Crypto M_Cose S_Cose P_Cose M_Str M_State S_State
  M_Client M_Ctap S_Ctap S_CtapReq.

Lemma Head_lt mt n h : Head mt n h -> n < 256 ^ 8.
Proof.
  change (256 ^ 8) with 18446744073709551616.
  destruct 1 as [H|H1 H2|H1 H2|H1 H2|H1 H2];
    try change (256 ^ 2) with 65536 in *; try change (256 ^ 4) with 4294967296 in *;
    try change (256 ^ 8) with 18446744073709551616 in *; lia.
Qed.

Lemma canonical_cgood v : forall b, canonical v b -> cgood v.
Proof.
  induction v using cbor_ind'; intros q Hc; cbn [cgood].
  - inversion Hc; subst. eapply Head_lt; eauto.
  - inversion Hc; subst. eapply Head_lt; eauto.
  - inversion Hc; subst. split; auto. eapply Head_lt; eauto.
  - inversion Hc; subst. split; auto. eapply Head_lt; eauto.
  - inversion Hc as [| | | |l0 bs h Hh Hf| | | |]; subst. split; [eapply Head_lt; eauto|].
    clear Hc Hh. revert bs Hf. induction H as [|v l Hv Hl IH]; intros bs Hf; cbn; auto.
    inversion Hf; subst. split; [eapply Hv; eauto|eapply IH; eauto].
  - inversion Hc as [| | | | |l0 ks vs h Hh Hk Hv Hs| | |]; subst. split; [eapply Head_lt; eauto|].
    assert (Ek : map ekey l = ks).
    { clear Hc Hh Hs Hv H. revert ks Hk. induction l as [|[a b0] l IH]; intros ks Hk; cbn in *.
      - inversion Hk; auto.
      - inversion Hk; subst. unfold ekey at 1. cbn [fst]. f_equal; [symmetry; now apply canonical_cenc|auto]. }
    rewrite Ek. split; auto. clear Hc Hh Hs Ek. revert ks vs Hk Hv.
    induction H as [|v l Hvv Hl IH]; intros ks vs Hk Hv; cbn in *; auto.
    inversion Hk; subst. inversion Hv; subst. destruct Hvv as [K1 K2].
    split; [eapply K1; eauto|]. split; [eapply K2; eauto|]. eapply IH; eauto.
  - inversion Hc.
  - inversion Hc; subst; auto.
  - inversion Hc.
Qed.

Lemma request_parse v b rest :
  canonical v b -> clim v -> (cdepth v <= max_nested)%nat -> parse_top (b ++ rest) = POk v rest.
Proof.
  intros Hc Hl Hd. apply canonical_parse; auto. apply cgood_cok; auto. eapply canonical_cgood; eauto.
Qed.

(* The parts. *)
Lemma dec_rp_doc id name : utf8_text id -> utf8_text name ->
  dec_rp (rp_doc id name) = Some {| rp_id := id; rp_name := name |}.
Proof.
  intros. unfold dec_rp, rp_doc. rewrite dec_entries_map by reflexivity. cbn [obind]. lookups.
  rewrite !dec_text_text by assumption. reflexivity.
Qed.

Lemma dec_user_doc id name display : utf8_text name -> utf8_text display ->
  dec_user (user_doc id name display) = Some {| us_id := Some id; us_display := display; us_name := name |}.
Proof.
  intros. unfold dec_user, user_doc. rewrite dec_entries_map by reflexivity. cbn [obind]. lookups.
  rewrite !dec_text_text by assumption. reflexivity.
Qed.

Lemma dec_descriptor_doc id :
  dec_descriptor (descriptor_doc id) =
  Some {| de_type := text_public_key; de_id := Some id; de_transports := None |}.
Proof. reflexivity. Qed.

Lemma int_doc_int z : int_doc z = CInt z.
Proof. reflexivity. Qed.

Lemma dec_param_doc p : utf8_text (fst p) -> (-2147483648 <= snd p < 2147483648)%Z ->
  dec_param (param_doc p) = Some {| cp_type := fst p; cp_alg := snd p |}.
Proof.
  intros. unfold dec_param, param_doc. rewrite dec_entries_map by reflexivity. cbn [obind]. lookups.
  rewrite dec_text_text by assumption. cbn [obind]. rewrite int_doc_int. unfold dec_int32.
  rewrite dec_z_int by assumption. reflexivity.
Qed.

Lemma mapo_map {A B D} (f : B -> option D) (g : A -> B) (h : A -> D) l :
  (forall a, In a l -> f (g a) = Some (h a)) -> mapo f (map g l) = Some (map h l).
Proof.
  induction l as [|a l IH]; intro H; cbn; auto.
  rewrite (H a) by (now left). cbn [obind]. rewrite IH; [reflexivity|]. intros; apply H; now right.
Qed.

Lemma dec_descriptors l :
  dec_list dec_descriptor (CArr (map descriptor_doc l)) =
  Some (Some (map (fun id => {| de_type := text_public_key; de_id := Some id; de_transports := None |}) l)).
Proof.
  unfold dec_list, dec_nullable. cbn [untag obind is_null].
  rewrite (mapo_map _ _ _ _ (fun a _ => dec_descriptor_doc a)). reflexivity.
Qed.

Lemma dec_params l : Forall (fun p => utf8_text (fst p)) l ->
  Forall (fun p => (-2147483648 <= snd p < 2147483648)%Z) l ->
  dec_list dec_param (CArr (map param_doc l)) =
  Some (Some (map (fun p => {| cp_type := fst p; cp_alg := snd p |}) l)).
Proof.
  intros H1 H2. rewrite Forall_forall in *. unfold dec_list, dec_nullable. cbn [untag obind is_null].
  rewrite (mapo_map _ _ (fun p => {| cp_type := fst p; cp_alg := snd p |})); [reflexivity|].
  intros a Ha. apply dec_param_doc; auto.
Qed.

Lemma dec_ptr_map {A} (f : cbor -> option A) l a : f (CMap l) = Some a -> dec_ptr f (CMap l) = Some (Some a).
Proof. intro H. unfold dec_ptr, dec_nullable. cbn [untag obind is_null]. rewrite H. reflexivity. Qed.

Lemma clim_map {A} (f : A -> cbor) l : (forall a, clim (f a)) -> fold_right (fun v P => clim v /\ P) True (map f l).
Proof. intro H. induction l; cbn; auto. Qed.

Lemma depth_map {A} (f : A -> cbor) l n : (forall a, cdepth (f a) = n) ->
  (fold_right (fun v n => Nat.max (cdepth v) n) O (map f l) <= n)%nat.
Proof. intro H. induction l; cbn; [lia|]. rewrite H. lia. Qed.

Lemma clim_int z : clim (int_doc z).
Proof. unfold int_doc. destruct (z <? 0)%Z; exact I. Qed.

Lemma clim_param p : clim (param_doc p).
Proof. cbn. split; [unfold max_elems; vm_compute; discriminate|]. repeat split; auto using clim_int. Qed.
Lemma clim_descriptor p : clim (descriptor_doc p).
Proof. cbn. split; [unfold max_elems; vm_compute; discriminate|]. repeat split; auto. Qed.
Lemma depth_param p : cdepth (param_doc p) = 1%nat.
Proof. cbn. rewrite int_doc_int, depth_int. reflexivity. Qed.
Lemma depth_descriptor p : cdepth (descriptor_doc p) = 1%nat.
Proof. reflexivity. Qed.

(* A limit of the CBOR library: 131072 elements. *)
Definition fits {A} (l : list A) : Prop := len l <= 131072.
Definition fits_opt {A} (o : option (list A)) : Prop := match o with Some l => fits l | None => True end.

Lemma len_map {A B} (f : A -> B) l : len (map f l) = len l.
Proof. unfold len. now rewrite map_length. Qed.

Lemma small_len {A} (l : list A) n : len l = n -> n <=? 131072 = true -> len l <= max_elems.
Proof. intros -> H. now apply N.leb_le. Qed.

Lemma goods_params l : fold_right (fun v P => cgood v /\ P) True (map param_doc l) ->
  Forall (fun p => utf8_text (fst p)) l.
Proof.
  induction l as [|p l IH]; cbn [map fold_right]; intro H; constructor.
  - destruct H as [H _]. cbn in H. tauto.
  - apply IH. tauto.
Qed.

Ltac lim := repeat match goal with
  | |- _ /\ _ => split
  | |- True => exact I
  | |- clim (CArr (map _ _)) => cbn [clim]; split
  | |- clim (CMap _) => cbn [clim fold_right fst snd]; split
  | |- clim (CUint _) => exact I
  | |- clim (CNint _) => exact I
  | |- clim (CBytes _) => exact I
  | |- clim (CText _) => exact I
  | |- clim (CSimple _) => exact I
  | |- clim (if ?b then _ else _) => destruct b
  | |- clim yes => exact I
  | |- clim no => exact I
  | |- len (map _ _) <= _ => rewrite len_map; assumption
  | |- len _ <= max_elems => eapply small_len; reflexivity
  | |- fold_right _ True (map param_doc _) => apply clim_map, clim_param
  | |- fold_right _ True (map descriptor_doc _) => apply clim_map, clim_descriptor
  end.

Lemma mc_clim h ri rn ui un ud ps ex au : fits ps -> fits_opt ex ->
  clim (mc_request h ri rn ui un ud ps ex au).
Proof.
  intros Hp He. unfold mc_request, rp_doc, user_doc. destruct ex as [l|], au as [p|]; cbn [opt app]; lim; cbn [fst snd fold_right]; lim.
Qed.

Ltac dep := repeat match goal with
  | |- context [fold_right ?f O (map param_doc ?l)] =>
    let H := fresh in pose proof (depth_map param_doc l 1 depth_param : (fold_right f O (map param_doc l) <= 1)%nat) as H;
    let n := fresh in set (n := fold_right f O (map param_doc l)) in *; clearbody n
  | |- context [fold_right ?f O (map descriptor_doc ?l)] =>
    let H := fresh in pose proof (depth_map descriptor_doc l 1 depth_descriptor : (fold_right f O (map descriptor_doc l) <= 1)%nat) as H;
    let n := fresh in set (n := fold_right f O (map descriptor_doc l)) in *; clearbody n
  end.

Lemma mc_depth h ri rn ui un ud ps ex au : (cdepth (mc_request h ri rn ui un ud ps ex au) <= max_nested)%nat.
Proof.
  unfold mc_request, rp_doc, user_doc. destruct ex as [l|], au as [p|]; cbn [opt app cdepth fold_right fst snd]; dep;
   cbn [Nat.max]; unfold max_nested; lia.
Qed.

Lemma ga_clim ri h al up au : fits_opt al -> clim (ga_request ri h al up au).
Proof.
  intro H. unfold ga_request. destruct al as [l|], up as [b|], au as [p|]; cbn [opt app]; lim; cbn [fst snd fold_right]; lim.
Qed.
Lemma ga_depth ri h al up au : (cdepth (ga_request ri h al up au) <= max_nested)%nat.
Proof.
  unfold ga_request. destruct al as [l|], up as [[]|], au as [p|]; cbn [opt app cdepth fold_right fst snd yes no]; dep;
   cbn [Nat.max]; unfold max_nested; lia.
Qed.
Lemma cp_clim sub k au nw h : clim (cp_request sub k au nw h).
Proof.
  unfold cp_request, agreement_key. destruct k, au, nw, h; cbn [opt app]; lim; cbn [fst snd fold_right]; lim.
Qed.
Lemma cp_depth sub k au nw h : (cdepth (cp_request sub k au nw h) <= max_nested)%nat.
Proof. unfold cp_request, agreement_key. destruct k, au, nw, h; cbn; unfold max_nested; lia. Qed.

(* ------------------------------------------------------------------ *)

Definition dec_mc_fields h ri rn ui un ud ps (ex : option (list bytes)) au : mc_args :=
  {| mc_hash := Some h; mc_rp := Some {| rp_id := ri; rp_name := rn |};
     mc_user := Some {| us_id := Some ui; us_display := ud; us_name := un |};
     mc_params := Some (map (fun p : bytes * Z => {| cp_type := fst p; cp_alg := snd p |}) ps);
     mc_exclude := option_map (map (fun id => {| de_type := text_public_key; de_id := Some id; de_transports := None |})) ex;
     mc_options := None; mc_auth := au; mc_protocol := match au with Some _ => 1 | None => 0 end |}.

Lemma mc_decoded h ri rn ui un ud ps ex au b rest :
  canonical (mc_request h ri rn ui un ud ps ex au) b -> fits ps -> fits_opt ex ->
  Forall (fun p => (-2147483648 <= snd p < 2147483648)%Z) ps ->
  unmarshal dec_mc (b ++ rest) = Some (dec_mc_fields h ri rn ui un ud ps ex au).
Proof.
  intros Hc Hp He Hz. unfold unmarshal.
  rewrite (request_parse _ _ _ Hc); auto using mc_clim, mc_depth.
  pose proof (canonical_cgood _ _ Hc) as G. unfold mc_request in G.
  cbn [cgood app fold_right fst snd] in G.
  destruct G as (_ & G & _). destruct G as (_ & _ & _ & Gr & _ & Gu & _ & Gp & _).
  unfold rp_doc in Gr. unfold user_doc in Gu. cbn [cgood fold_right fst snd] in Gr, Gu, Gp.
  destruct Gp as [_ Gp]. apply goods_params in Gp.
  assert (dec_rp (rp_doc ri rn) = Some {| rp_id := ri; rp_name := rn |}) as R by (apply dec_rp_doc; tauto).
  assert (dec_user (user_doc ui un ud) = Some {| us_id := Some ui; us_display := ud; us_name := un |}) as U
    by (apply dec_user_doc; tauto).
  unfold mc_request, dec_mc.
  destruct ex as [l|], au as [p|]; cbn [opt app]; rewrite dec_entries_map by reflexivity; cbn [obind]; lookups;
    rewrite dec_bytes_bytes; cbn [obind]; unfold rp_doc, user_doc in *;
    rewrite (dec_ptr_map _ _ _ R); cbn [obind]; rewrite (dec_ptr_map _ _ _ U); cbn [obind];
    rewrite dec_params by assumption; cbn [obind]; rewrite ?dec_descriptors; reflexivity.
Qed.

Lemma ga_decoded ri h al up au b rest :
  canonical (ga_request ri h al up au) b -> fits_opt al ->
  unmarshal dec_ga (b ++ rest) = Some
    {| ga_rp := ri; ga_hash := Some h;
       ga_allow := option_map (map (fun id => {| de_type := text_public_key; de_id := Some id; de_transports := None |})) al;
       ga_options := {| op_rk := false; op_uv := false; op_up := up |};
       ga_auth := au; ga_protocol := match au with Some _ => 1 | None => 0 end |}.
Proof.
  intros Hc Hp. unfold unmarshal.
  rewrite (request_parse _ _ _ Hc); auto using ga_clim, ga_depth.
  pose proof (canonical_cgood _ _ Hc) as G. unfold ga_request in G.
  cbn [cgood app fold_right fst snd] in G.
  destruct G as (_ & G & _). destruct G as (_ & [Gr _] & _).
  unfold ga_request, dec_ga.
  destruct al as [l|], up as [[]|], au as [p|]; cbn [opt app]; rewrite dec_entries_map by reflexivity; cbn [obind]; lookups;
    rewrite dec_text_text by assumption; cbn [obind]; rewrite dec_bytes_bytes; cbn [obind];
    rewrite ?dec_descriptors; reflexivity.
Qed.

Lemma cp_decoded sub k au nw h b rest :
  canonical (cp_request sub k au nw h) b -> sub < 4294967296 ->
  unmarshal dec_cp (b ++ rest) = Some
    {| pn_protocol := 1; pn_sub := sub;
       pn_key := option_map (fun k => {| e2_kty := 2; e2_alg := -25; e2_crv := 1; e2_x := Some (fst k);
                                         e2_y := Some (snd k); e2_d := None |}) k;
       pn_auth := au; pn_new := nw; pn_hash := h |}.
Proof.
  intros Hc Hs. unfold unmarshal.
  rewrite (request_parse _ _ _ Hc); auto using cp_clim, cp_depth.
  unfold cp_request, dec_cp.
  assert (S : dec_uint32 (CUint sub) = Some sub).
  { unfold dec_uint32, dec_uint. replace (CUint sub) with (CInt (Z.of_N sub)).
    - rewrite dec_z_int by lia. cbn [obind]. now rewrite N2Z.id.
    - unfold CInt. destruct (Z.ltb_spec (Z.of_N sub) 0); [lia|]. now rewrite N2Z.id. }
  destruct k as [[x y]|], au, nw, h; cbn [opt app]; rewrite dec_entries_map by reflexivity; cbn [obind]; lookups;
    rewrite S; reflexivity.
Qed.
