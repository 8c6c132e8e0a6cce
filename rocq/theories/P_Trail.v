(* Proofs for C136 and C137: what follows a CBOR item. *)
From Verif Require Import Base M_Utf8 M_Cbor M_Json M_Tools M_Crypto M_Cose M_State M_Client M_Ctap.
From Verif Require Import S_Cbor P_Cbor P_Cbor2 P_Json P_CborLocal.

Lemma unmarshal_local {A} (f : cbor -> option A) bs a : unmarshal f bs = Some a ->
  exists p r, bs = p ++ r /\ (forall e, unmarshal f (p ++ e) = Some a) /\
    (forall q t, p = q ++ t -> t <> [] -> forall B (g : cbor -> option B), unmarshal g q = None).
Proof.
  unfold unmarshal. destruct (parse_top bs) as [v r| |] eqn:E; intro H; try discriminate H.
  destruct (parse_top_local bs v r E) as (p & -> & Hp). exists p, r. split; [reflexivity|]. split.
  - intro e. now rewrite Hp.
  - intros q t -> Ht B g. destruct (parse_top q) as [v' r'| |] eqn:E'; auto.
    destruct (parse_top_local q v' r' E') as (p' & -> & Hp'). exfalso. apply Ht.
    pose proof (Hp []) as X. rewrite app_nil_r, <- app_assoc, Hp' in X.
    assert (r' ++ t = []) as Y by congruence. now apply app_eq_nil in Y.
Qed.

(* A map key that Go can compare. *)
Definition comparable (v : cbor) : Prop :=
  match v with CBytes _ | CArr _ | CMap _ => False | _ => True end.
Inductive showable : cbor -> Prop :=
| sh_uint n : showable (CUint n)
| sh_nint n : showable (CNint n)
| sh_bytes b : showable (CBytes b)
| sh_text b : utf8_text b -> showable (CText b)
| sh_arr l : Forall showable l -> showable (CArr l)
| sh_map l : Forall (fun p => comparable (fst p) /\ showable (fst p) /\ showable (snd p)) l -> showable (CMap l)
| sh_tag t v : showable v -> showable (CTag t v)
| sh_simple n : showable (CSimple n)
| sh_float b : showable (CFloat b).

Lemma hashable_iff v : hashable v = true <-> comparable v.
Proof. destruct v; cbn; split; auto; try discriminate; contradiction. Qed.

Lemma any_ok_iff v : any_ok v = true <-> showable v.
Proof.
  induction v using cbor_ind'; cbn [any_ok]; split; intro H0;
    try (constructor; fail); try reflexivity.
  - constructor. now apply utf8_valid_iff.
  - inversion H0; subst. now apply utf8_valid_iff.
  - constructor. rewrite forallb_forall in H0. rewrite Forall_forall in *. intros x Hx. apply H; auto.
  - inversion H0; subst. apply forallb_forall. rewrite Forall_forall in *. intros x Hx. apply H; auto.
  - constructor. rewrite forallb_forall in H0. rewrite Forall_forall in *. intros x Hx.
    specialize (H0 x Hx). rewrite !andb_true_iff in H0. destruct H0 as [[A B] D].
    destruct (H x Hx) as [Ha Hb]. rewrite <- hashable_iff. tauto.
  - inversion H0; subst. apply forallb_forall. rewrite Forall_forall in *. intros x Hx.
    destruct (H x Hx) as [Ha Hb]. specialize (H2 x Hx). rewrite <- hashable_iff in H2.
    rewrite !andb_true_iff. tauto.
  - constructor. now apply IHv.
  - inversion H0; subst. now apply IHv.
Qed.

Section Server.
  Variable E : Env.
  Definition success (r : world * res bytes) : Prop := exists b, snd r = Ok (0 :: b).

  Lemma requests_local cmd data w : success (ctap_handle E (cmd :: data) w) ->
    exists p r, data = p ++ r /\
      (forall e, ctap_handle E (cmd :: p ++ e) w = ctap_handle E (cmd :: data) w) /\
      (forall q t, p = q ++ t -> t <> [] ->
         ctap_handle E (cmd :: q) w = (w, Panic) \/ ctap_handle E (cmd :: q) w = (w, Ok [0x12])).
  Proof.
    intros (b & S). cbn [ctap_handle] in *.
    destruct (cmd =? 1).
    { unfold make_credential in *. destruct (unmarshal dec_mc data) as [a|] eqn:U; [|discriminate S].
      destruct (unmarshal_local _ _ _ U) as (p & r & Hd & He & Hq). exists p, r. split; [exact Hd|].
      split; [intro e; now rewrite (He e)|]. intros q t Hp Ht. rewrite (Hq q t Hp Ht). now left. }
    destruct (cmd =? 4).
    { exists [], data. split; [reflexivity|]. split; [reflexivity|].
      intros q t Hp Ht. symmetry in Hp. apply app_eq_nil in Hp. tauto. }
    destruct (cmd =? 2).
    { unfold get_assertion in *. destruct (unmarshal dec_ga data) as [a|] eqn:U; [|discriminate S].
      destruct (unmarshal_local _ _ _ U) as (p & r & Hd & He & Hq). exists p, r. split; [exact Hd|].
      split; [intro e; now rewrite (He e)|]. intros q t Hp Ht. rewrite (Hq q t Hp Ht). now right. }
    destruct (cmd =? 6); [|discriminate S].
    unfold client_pin, bind, get in *. destruct (cl_pin (w_client w)) eqn:Pn; [|discriminate S].
    destruct (unmarshal dec_cp data) as [a|] eqn:U; [|discriminate S].
    destruct (unmarshal_local _ _ _ U) as (p & r & Hd & He & Hq). exists p, r. split; [exact Hd|].
    split; [intro e; now rewrite (He e)|]. intros q t Hp Ht. rewrite (Hq q t Hp Ht). now right.
  Qed.
End Server.
