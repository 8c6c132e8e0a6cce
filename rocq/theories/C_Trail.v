(* Properties C136 and C137: CBOR items and what follows them. *)
From Verif Require Import Base M_Str M_Utf8 M_Cbor M_Json M_Tools M_Crypto M_Cose M_State M_Client M_Ctap.
From Verif Require Import S_Cbor P_Cbor P_Cbor2 P_Json P_CborLocal P_Toy P_Trail.

(* ---------------------------------------------------------------- C136 *)
(* The tool shows the item that the data is, and if it shows an item the data is that item,
   in CTAP2 canonical form or not, and nothing else: no shorter data has an item. *)
Definition C136_full : Prop :=
  (forall v b, canonical v b -> wfb b -> showable v -> cok v -> (cdepth v <= 32)%nat -> decode_cbor (b64_enc b) = TShows v) /\
  (forall b v, wfb b -> decode_cbor (b64_enc b) = TShows v ->
     forall q t, b = q ++ t -> t <> [] -> forall v', decode_cbor (b64_enc q) <> TShows v').

(* The first half, for every canonical item that Go can represent. *)
Theorem C136_shows_partial : forall v b,
  canonical v b -> wfb b -> showable v -> cok v -> (cdepth v <= 32)%nat -> decode_cbor (b64_enc b) = TShows v.
Proof.
  intros v b Hc Hw Hs Ho Hd. unfold decode_cbor. rewrite (b64_round_trip b Hw).
  unfold unmarshal. pose proof (canonical_parse v b [] Hc Ho Hd) as P. rewrite app_nil_r in P. rewrite P.
  now rewrite (proj2 (any_ok_iff v) Hs).
Qed.
Print Assumptions C136_shows_partial.

(* Whatever is shown is in a prefix of the data, which has no shorter item; the rest is ignored. *)
Theorem C136_rest : forall arg data v, b64_dec arg = Some data -> decode_cbor arg = TShows v ->
  exists p r, data = p ++ r /\ showable v /\
    (forall e arg', b64_dec arg' = Some (p ++ e) -> decode_cbor arg' = TShows v) /\
    (forall q t arg', p = q ++ t -> t <> [] -> b64_dec arg' = Some q -> decode_cbor arg' = TBadCbor).
Proof.
  intros arg data v D H. unfold decode_cbor in H. rewrite D in H.
  destruct (unmarshal (fun v => if any_ok v then Some v else None) data) as [x|] eqn:U; [|discriminate H].
  injection H as ->. pose proof U as U'. unfold unmarshal in U'. destruct (parse_top data); try discriminate U'.
  destruct (any_ok a) eqn:A; [|discriminate U']. injection U' as ->.
  destruct (unmarshal_local _ _ _ U) as (p & r & Hd & He & Hq). exists p, r. split; [exact Hd|].
  split; [now apply any_ok_iff|]. split.
  - intros e arg' D'. unfold decode_cbor. now rewrite D', He.
  - intros q t arg' Hp Ht D'. unfold decode_cbor. now rewrite D', (Hq q t Hp Ht).
Qed.
Print Assumptions C136_rest.

(* Text that is not base64, and data that is not CBOR, are reported. *)
Theorem C136_reported : forall arg,
  (b64_dec arg = None -> decode_cbor arg = TBadBase64) /\
  (forall data, b64_dec arg = Some data -> (forall v r, parse_top data <> POk v r) -> decode_cbor arg = TBadCbor).
Proof.
  intro arg. split.
  - intro H. unfold decode_cbor. now rewrite H.
  - intros data H P. unfold decode_cbor, unmarshal. rewrite H.
    destruct (parse_top data) as [v r| |]; auto. destruct (P v r eq_refl).
Qed.
Print Assumptions C136_reported.

Theorem C136_refuted : ~ C136_full.
Proof.
  intros [_ F].
  apply (F [1; 2] (CUint 1)) with (q := [1]) (t := [2]) (v' := CUint 1); try (vm_compute; reflexivity); try discriminate.
  apply wfbb_iff. reflexivity.
Qed.
Print Assumptions C136_refuted.

(* {1: "packed", 2: h'0102'} *)
Definition an_item : cbor := CMap [(CUint 1, CText (str "packed")); (CUint 2, CBytes [1; 2])].
Example C136_example :
  canonical an_item (cenc an_item) /\ wfb (cenc an_item) /\ showable an_item /\ cok an_item /\ (cdepth an_item <= 32)%nat /\
  b64_enc (cenc an_item) = str "ogFmcGFja2VkAkIBAg==" /\
  decode_cbor (str "ogFmcGFja2VkAkIBAg==") = TShows an_item /\
  decode_cbor (str "ogFmcGFja2VkAkIB") = TBadCbor /\ decode_cbor (str "ogFmcGFja2VkAk") = TBadBase64.
Proof.
  split; [|split; [apply wfbb_iff; vm_compute; reflexivity|split; [apply any_ok_iff; vm_compute; reflexivity|]]].
  { apply cenc_canonical. unfold an_item. cbn [cgood fold_right fst snd].
    assert (utf8_text (str "packed")) by (apply utf8_valid_iff; vm_compute; reflexivity).
    assert (wfb [1; 2]) by (apply wfbb_iff; reflexivity).
    split; [reflexivity|]. split; [|apply increasing_sorted; vm_compute; reflexivity].
    repeat match goal with |- _ /\ _ => split | |- True => exact I end; auto; reflexivity. }
  split; [|split; [vm_compute; lia|vm_compute; auto]].
  unfold an_item. cbn [cok fold_right fst snd].
  repeat match goal with |- _ /\ _ => split | |- True => exact I end; vm_compute; (reflexivity || discriminate).
Qed.

(* ---------------------------------------------------------------- C137 *)
(* A message that is a request with something after it is not carried out. *)
Definition C137_full : Prop :=
  forall E cmd data e w, success (ctap_handle E (cmd :: data) w) -> e <> [] ->
  ~ success (ctap_handle E (cmd :: data ++ e) w).

(* True of what is too short: a request cut anywhere before its end is not carried out and
   changes nothing. *)
Theorem C137_cut_partial : forall E cmd data w, success (ctap_handle E (cmd :: data) w) ->
  exists p r, data = p ++ r /\
    ctap_handle E (cmd :: p) w = ctap_handle E (cmd :: data) w /\
    forall q t, p = q ++ t -> t <> [] ->
      ctap_handle E (cmd :: q) w = (w, Panic) \/ ctap_handle E (cmd :: q) w = (w, Ok [0x12]).
Proof.
  intros E cmd data w S. destruct (requests_local E cmd data w S) as (p & r & Hd & He & Hq).
  exists p, r. split; [exact Hd|]. split; [|exact Hq]. rewrite <- (He []). now rewrite app_nil_r.
Qed.
Print Assumptions C137_cut_partial.

(* What follows is ignored, whatever it is. *)
Theorem C137_ignored : forall E cmd data w, success (ctap_handle E (cmd :: data) w) ->
  forall e, ctap_handle E (cmd :: data ++ e) w = ctap_handle E (cmd :: data) w.
Proof.
  intros E cmd data w S e. destruct (requests_local E cmd data w S) as (p & r & -> & He & _).
  rewrite <- app_assoc. now rewrite !He.
Qed.
Print Assumptions C137_ignored.

Example C137_example : success (ctap_handle (toyE true) (msg_mc rpA None) (dev true)).
Proof. eexists. vm_compute. reflexivity. Qed.

Theorem C137_refuted : ~ C137_full.
Proof.
  intro F. destruct (msg_mc rpA None) as [|cmd data] eqn:M; [vm_compute in M; discriminate M|].
  pose proof C137_example as S. rewrite M in S.
  apply (F (toyE true) cmd data [0] (dev true) S); [discriminate|]. now rewrite C137_ignored.
Qed.
Print Assumptions C137_refuted.
