(* Requests with transports, extensions and options are decoded to the values the platform put in. *)
From Verif Require Import Base M_Utf8 M_Cbor S_Cbor P_Cbor P_Cbor2 M_Crypto M_Cose S_Cose P_Cose M_Str M_State S_State
  M_Client M_Ctap S_Ctap S_CtapReq P_CtapReq.
From Coq Require Import Lia.

Definition read_descriptor (d : bytes * bytes * option (list bytes)) : descriptor :=
  {| de_type := snd (fst d); de_id := Some (fst (fst d)); de_transports := snd d |}.

Lemma good_texts l : fold_right (fun v P => cgood v /\ P) True (map CText l) -> Forall utf8_text l.
Proof.
  induction l as [|t l IH]; cbn [map fold_right]; intro H; constructor; [|apply IH; tauto].
  destruct H as [H _]. cbn [cgood] in H. tauto.
Qed.

Lemma dec_texts l : Forall utf8_text l -> dec_list dec_text (CArr (map CText l)) = Some (Some l).
Proof.
  intro H. unfold dec_list, dec_nullable. cbn [untag obind is_null].
  rewrite (mapo_map _ _ (fun a => a)); [now rewrite map_id|].
  intros a A. rewrite Forall_forall in H. apply dec_text_text. auto.
Qed.

Lemma dec_descriptor_full d : cgood (descriptor_full d) -> dec_descriptor (descriptor_full d) = Some (read_descriptor d).
Proof.
  destruct d as [[i t] [l|]]; unfold descriptor_full, read_descriptor; cbn [fst snd opt app]; intro G;
    cbn [cgood fold_right fst snd] in G; destruct G as (_ & G & _); unfold dec_descriptor;
    rewrite dec_entries_map by reflexivity; cbn [obind]; lookups.
  - destruct G as (_ & _ & _ & [T _] & _ & [_ L] & _). apply good_texts in L.
    rewrite dec_text_text by assumption. cbn [obind]. rewrite dec_bytes_bytes. cbn [obind].
    now rewrite dec_texts by assumption.
  - destruct G as (_ & _ & _ & [T _] & _). rewrite dec_text_text by assumption. cbn [obind]. rewrite dec_bytes_bytes. reflexivity.
Qed.

Lemma dec_descriptors_full l : cgood (CArr (map descriptor_full l)) ->
  dec_list dec_descriptor (CArr (map descriptor_full l)) = Some (Some (map read_descriptor l)).
Proof.
  intros [_ G]. unfold dec_list, dec_nullable. cbn [untag obind is_null].
  rewrite (mapo_map _ _ read_descriptor); [reflexivity|].
  induction l as [|d l IH]; intros a A; [contradiction|]. cbn [map fold_right] in G. destruct G as [D G].
  destruct A as [<-|A]; [now apply dec_descriptor_full|now apply IH].
Qed.

Lemma dec_options_doc rk up uv :
  dec_options (options_doc rk up uv) = Some {| op_rk := on rk; op_uv := on uv; op_up := up |} /\
  dec_get_options (options_doc rk up uv) = Some {| op_rk := false; op_uv := on uv; op_up := up |}.
Proof. destruct rk as [[]|], up as [[]|], uv as [[]|]; split; reflexivity. Qed.

Lemma any_good v : cgood v -> simple_keys v -> any_ok v = true.
Proof.
  induction v using cbor_ind'; cbn [cgood simple_keys any_ok]; intros G K; try reflexivity; try tauto.
  - apply utf8_text_valid. tauto.
  - destruct G as [_ G]. induction H as [|v l V L IH]; [reflexivity|]. cbn [forallb fold_right] in *.
    rewrite V, IH by tauto. reflexivity.
  - destruct G as (_ & G & _). induction H as [|[k v] l [V W] L IH]; [reflexivity|]. cbn [forallb fold_right fst snd] in *.
    destruct G as (G1 & G2 & G3). destruct K as (K1 & K2 & K3). rewrite IH by assumption. rewrite W by assumption.
    rewrite !andb_true_r. destruct k; cbn in K1; try contradiction; try reflexivity. apply V; [exact G1|exact I].
Qed.

Lemma dec_ext_good exts : cgood (CMap (map (fun p => (CText (fst p), snd p)) exts)) ->
  Forall (fun p => simple_keys (snd p)) exts -> dec_ext (CMap (map (fun p => (CText (fst p), snd p)) exts)) = Some tt.
Proof.
  cbn [cgood]. intros (_ & G & _) K. unfold dec_ext, dec_nullable. cbn [untag obind is_null].
  replace (forallb _ _) with true; [reflexivity|]. symmetry. apply forallb_forall. intros p P.
  apply in_map_iff in P as (e & <- & I). cbn [fst snd].
  assert (cgood (CText (fst e)) /\ cgood (snd e)) as [T V].
  { clear K. induction exts as [|a exts IH]; [contradiction|]. cbn [map fold_right fst snd] in G.
    destruct I as [->|I]; [tauto|]. apply IH; tauto. }
  rewrite dec_text_text by (cbn [cgood] in T; tauto). apply any_good; [exact V|].
  rewrite Forall_forall in K. auto.
Qed.

Lemma mc_full_decoded h ri rn ui un ud ps ex exts rk up uv au b rest :
  let v := mc_request_full h ri rn ui un ud ps ex exts rk up uv au in
  canonical v b -> clim v -> (cdepth v <= max_nested)%nat ->
  Forall (fun p => (-2147483648 <= snd p < 2147483648)%Z) ps -> Forall (fun p => simple_keys (snd p)) exts ->
  unmarshal dec_mc (b ++ rest) = Some
    {| mc_hash := Some h; mc_rp := Some {| rp_id := ri; rp_name := rn |};
       mc_user := Some {| us_id := Some ui; us_display := ud; us_name := un |};
       mc_params := Some (map (fun p => {| cp_type := fst p; cp_alg := snd p |}) ps);
       mc_exclude := option_map (map read_descriptor) ex;
       mc_options := Some {| op_rk := on rk; op_uv := on uv; op_up := up |};
       mc_auth := au; mc_protocol := match au with Some _ => 1 | None => 0 end |}.
Proof.
  intros v Hc Hl Hd Hz Hk. unfold unmarshal. rewrite (request_parse _ _ _ Hc Hl Hd).
  pose proof (canonical_cgood _ _ Hc) as G. subst v. unfold mc_request_full in *. clear Hc Hl Hd.
  assert (X : cgood (rp_doc ri rn) /\ cgood (user_doc ui un ud) /\ cgood (CArr (map param_doc ps)) /\
    (forall l, ex = Some l -> cgood (CArr (map descriptor_full l))) /\
    cgood (CMap (map (fun p => (CText (fst p), snd p)) exts))).
  { remember (rp_doc ri rn) as d1. remember (user_doc ui un ud) as d2. remember (CArr (map param_doc ps)) as d3.
    remember (CMap (map (fun p => (CText (fst p), snd p)) exts)) as d5. remember (options_doc rk up uv) as d6.
    destruct ex as [l|].
    - destruct au; cbn [opt app cgood fold_right fst snd] in G; refine (conj _ (conj _ (conj _ (conj _ _)))); try tauto; intros l' E; injection E as <-; cbn [cgood]; tauto.
    - destruct au; cbn [opt app cgood fold_right fst snd] in G; refine (conj _ (conj _ (conj _ (conj _ _)))); try tauto; intros l' E; discriminate E. }
  clear G. destruct X as (Gr & Gu & Gp & Gd & Ge).
  unfold rp_doc in Gr. unfold user_doc in Gu. cbn [cgood fold_right fst snd] in Gr, Gu, Gp.
  destruct Gp as [_ Gp]. apply goods_params in Gp.
  assert (dec_rp (rp_doc ri rn) = Some {| rp_id := ri; rp_name := rn |}) as R by (apply dec_rp_doc; tauto).
  assert (dec_user (user_doc ui un ud) = Some {| us_id := Some ui; us_display := ud; us_name := un |}) as U
    by (apply dec_user_doc; tauto).
  pose proof (proj1 (dec_options_doc rk up uv)) as O.
  pose proof (dec_ext_good exts Ge Hk) as X.
  unfold dec_mc.
  destruct ex as [l|], au as [p|]; cbn [opt app]; rewrite dec_entries_map by reflexivity; cbn [obind]; lookups;
    rewrite dec_bytes_bytes; cbn [obind]; unfold rp_doc, user_doc, options_doc in *;
    rewrite (dec_ptr_map _ _ _ R); cbn [obind]; rewrite (dec_ptr_map _ _ _ U); cbn [obind];
    rewrite dec_params by assumption; cbn [obind]; rewrite ?dec_descriptors_full by auto; cbn [obind];
    (rewrite X; cbn [obind]) || (change (dec_list dec_descriptor CNull) with (Some (@None (list descriptor))); cbn [obind]; rewrite X; cbn [obind]);
    rewrite (dec_ptr_map _ _ _ O); reflexivity.
Qed.

Lemma ga_full_decoded ri h al ext rk up uv au b rest :
  let v := ga_request_full ri h al ext rk up uv au in
  canonical v b -> clim v -> (cdepth v <= max_nested)%nat ->
  unmarshal dec_ga (b ++ rest) = Some
    {| ga_rp := ri; ga_hash := Some h; ga_allow := option_map (map read_descriptor) al;
       ga_options := {| op_rk := false; op_uv := on uv; op_up := up |};
       ga_auth := au; ga_protocol := match au with Some _ => 1 | None => 0 end |}.
Proof.
  intros v Hc Hl Hd. unfold unmarshal. rewrite (request_parse _ _ _ Hc Hl Hd).
  pose proof (canonical_cgood _ _ Hc) as G. subst v. unfold ga_request_full in *. clear Hc Hl Hd.
  assert (X : utf8_text ri /\ (forall l, al = Some l -> cgood (CArr (map descriptor_full l)))).
  { remember (options_doc rk up uv) as d6. destruct al as [l|].
    - destruct au; cbn [opt app cgood fold_right fst snd] in G; split; try tauto; intros l' E; injection E as <-; cbn [cgood]; tauto.
    - destruct au; cbn [opt app cgood fold_right fst snd] in G; split; try tauto; intros l' E; discriminate E. }
  destruct X as [T Gd]. pose proof (proj2 (dec_options_doc rk up uv)) as O.
  unfold dec_ga.
  destruct al as [l|], au as [p|]; cbn [opt app]; rewrite dec_entries_map by reflexivity; cbn [obind]; lookups;
    rewrite dec_text_text by assumption; cbn [obind]; rewrite dec_bytes_bytes; cbn [obind];
    rewrite ?dec_descriptors_full by auto; cbn [obind];
    try (change (dec_list dec_descriptor CNull) with (Some (@None (list descriptor))); cbn [obind]);
    rewrite O; reflexivity.
Qed.

Lemma bad_key l k v : In (CText k, v) l -> ~ utf8_text k ->
  dec_mc (CMap l) = None /\ dec_ga (CMap l) = None /\ dec_cp (CMap l) = None /\
  dec_rp (CMap l) = None /\ dec_user (CMap l) = None /\ dec_descriptor (CMap l) = None /\ dec_param (CMap l) = None.
Proof.
  intros I U. assert (E : dec_entries (CMap l) = None).
  { change (dec_entries (CMap l)) with (if forallb (fun p => key_ok (fst p)) l then Some l else None).
    destruct (forallb _ l) eqn:F; [|reflexivity]. rewrite forallb_forall in F. apply F in I. cbn [fst key_ok] in I.
    now apply utf8_valid_text in I. }
  unfold dec_mc, dec_ga, dec_cp, dec_rp, dec_user, dec_descriptor, dec_param. rewrite E. repeat split; reflexivity.
Qed.
