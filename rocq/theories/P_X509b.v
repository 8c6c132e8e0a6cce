(* The certificates made by the model, read by the specification. *)
From Verif Require Import Base M_Crypto P_Crypto M_Cose M_Str M_X509 S_X509 P_X509a.

Definition is_element (e : bytes) (tc : N * bytes) : Prop := element e = Some (fst tc, snd tc, e, []).

Lemma is_asn1 tag c : tag mod 32 <> 31 -> len c < 4294967296 -> is_element (asn1 tag c) (tag, c).
Proof. apply whole_asn1. Qed.

Lemma elements_concat es tcs : Forall2 is_element es tcs -> elements (concat es) = Some tcs.
Proof.
  induction 1 as [|e [t c] es tcs E F IH]; [reflexivity|]. cbn [concat]. rewrite (elements_whole e t c _ E), IH. reflexivity.
Qed.
Lemma elements_one e tc : is_element e tc -> elements e = Some [tc].
Proof. intro H. rewrite <- (app_nil_r e). apply (elements_concat [e] [tc]). repeat constructor. exact H. Qed.

Lemma len_concat (e : bytes) l : In e l -> len e <= len (concat l).
Proof. induction l as [|x l IH]; [easy|]. cbn [concat In]. rewrite len_app. intros [->|H]; [lia|]. specialize (IH H). lia. Qed.
Lemma len_inside tag c : len c < len (asn1 tag c).
Proof. pose proof (len_asn1 tag c). lia. Qed.

(* ---------------------------------------------------- times *)
Lemma digits_two n : n < 100 -> digits (digit (n / 10)) (digit n) = Some n.
Proof.
  intro H. unfold digits, digit. assert (n / 10 < 10) by (apply N.div_lt_upper_bound; lia). rewrite (N.mod_small (n / 10)) by assumption.
  pose proof (N.mod_upper_bound n 10 ltac:(lia)). pose proof (N.div_mod n 10 ltac:(lia)).
  replace ((48 <=? 48 + n / 10) && (48 + n / 10 <=? 57) && (48 <=? 48 + n mod 10) && (48 + n mod 10 <=? 57)) with true by lia.
  f_equal. lia.
Qed.
Lemma pairs_two n r : n < 100 -> pairs (two_digits n ++ r) = match pairs r with Some l => Some (n :: l) | None => None end.
Proof.
  intro H. cbn [two_digits app pairs]. rewrite (digits_two n H).
  assert (digit (n / 10) <> 90) by (unfold digit; pose proof (N.mod_upper_bound (n / 10) 10); lia).
  destruct (digit (n / 10)) as [|p] eqn:D; [reflexivity|]. destruct p; try reflexivity; destruct p; try reflexivity; destruct p; try reflexivity;
    destruct p; try reflexivity; destruct p; try reflexivity; destruct p; try reflexivity; destruct p; try reflexivity; congruence.
Qed.
Lemma pairs_Z : pairs [90] = Some [].
Proof. reflexivity. Qed.

Lemma proper_small d : proper_date d -> d_year d <= 9999 /\ d_month d < 100 /\ d_day d < 100 /\ d_hour d < 100 /\ d_minute d < 100 /\ d_second d < 100.
Proof.
  intros (Y & M & D & H & Mi & S). unfold month_days in D.
  assert (d_day d <= 31). { destruct (_ =? 2); [destruct (_ && _); lia|]. destruct (_ || _); lia. } lia.
Qed.

Lemma time_read d e : proper_date d -> asn1_time d = Some e -> exists tc, is_element e tc /\ read_time tc = Some d /\ len e < 1000.
Proof.
  intros P. destruct (proper_small d P) as (Y & M & D & H & Mi & S). unfold asn1_time. intro Q. destruct d as [y mo da h mi s]. cbn [d_year d_month d_day d_hour d_minute d_second] in *.
  destruct ((1950 <=? y) && (y <? 2050)) eqn:U.
  - apply (f_equal (fun o => match o with Some x => x | None => [] end)) in Q. cbn iota in Q. subst e.
    eexists. split; [apply is_asn1; [discriminate|vm_compute; reflexivity]|]. split; [|vm_compute; reflexivity].
    unfold read_time. cbn [fst snd]. pose proof (N.mod_upper_bound y 100 ltac:(lia)).
    rewrite !pairs_two, pairs_Z by assumption. f_equal. f_equal. apply andb_prop in U as [U1 U2]. apply N.leb_le in U1. apply N.ltb_lt in U2.
    pose proof (N.div_mod y 100 ltac:(lia)). destruct (y mod 100 <? 50) eqn:F; lia.
  - destruct (y <=? 9999) eqn:Y9; [|discriminate Q]. apply (f_equal (fun o => match o with Some x => x | None => [] end)) in Q. cbn iota in Q. subst e.
    eexists. split; [apply is_asn1; [discriminate|vm_compute; reflexivity]|]. split; [|vm_compute; reflexivity].
    unfold read_time. cbn [fst snd]. unfold four_digits. rewrite <- app_assoc. pose proof (N.mod_upper_bound y 100 ltac:(lia)).
    assert (y / 100 < 100) by (apply N.div_lt_upper_bound; lia). rewrite !pairs_two, pairs_Z by assumption. f_equal. f_equal.
    pose proof (N.div_mod y 100 ltac:(lia)). lia.
Qed.

Lemma ten_years d : proper_date d -> d_year d <= 9989 -> proper_date (add_ten_years d).
Proof.
  intros (Y & M & D & H & Mi & S) L. unfold add_ten_years. destruct d as [y mo da h mi s]. cbn [d_year d_month d_day d_hour d_minute d_second] in *.
  destruct ((mo =? 2) && (da =? 29) && negb (leap_year (y + 10))) eqn:G; unfold proper_date; cbn [d_year d_month d_day d_hour d_minute d_second].
  - split; [lia|]. split; [lia|]. split; [vm_compute; split; discriminate|]. lia.
  - split; [lia|]. split; [lia|]. split; [|lia]. split; [lia|]. unfold month_days in *.
    destruct (mo =? 2); [|exact (proj2 D)].
    change ((y mod 4 =? 0) && (negb (y mod 100 =? 0) || (y mod 400 =? 0))) with (leap_year y) in D.
    change (((y + 10) mod 4 =? 0) && (negb ((y + 10) mod 100 =? 0) || ((y + 10) mod 400 =? 0))) with (leap_year (y + 10)).
    destruct (leap_year (y + 10)); [destruct (leap_year y); lia|]. cbn [andb negb] in G. rewrite andb_true_r in G.
    apply N.eqb_neq in G. destruct (leap_year y); lia.
Qed.

(* ---------------------------------------------------- extensions *)
Definition exts_of (is_ca : bool) (sid aid : bytes) : list (bytes * (bool * bytes)) :=
  [(oid_key_usage, (true, key_usage is_ca));
   (oid_ext_key_usage, (false, asn1_seq [asn1_oid oid_client_auth; asn1_oid oid_server_auth]));
   (oid_basic_constraints, (true, basic_constraints is_ca))] ++
  (if len sid =? 0 then [] else [(oid_subject_key_id, (false, asn1_octets sid))]) ++
  (if len aid =? 0 then [] else [(oid_authority_key_id, (false, asn1_seq [asn1 128 aid]))]).

Lemma read_ext oid crit v : len (extension oid crit v) < 4294967296 ->
  exists c, is_element (extension oid crit v) (48, c) /\ read_extension (48, c) = Some (oid, (crit, v)).
Proof.
  intro L. unfold extension, asn1_seq in *. pose proof (len_inside 48 (concat [asn1_oid oid; if crit then asn1 1 [255] else []; asn1_octets v])) as L1.
  eexists. split; [apply is_asn1; [discriminate|lia]|]. unfold read_extension.
  assert (Lo : len oid < 4294967296).
  { pose proof (len_inside 6 oid). pose proof (len_concat (asn1_oid oid) [asn1_oid oid; if crit then asn1 1 [255] else []; asn1_octets v] ltac:(now left)). unfold asn1_oid in *. lia. }
  assert (Lv : len v < 4294967296).
  { pose proof (len_inside 4 v). pose proof (len_concat (asn1_octets v) [asn1_oid oid; if crit then asn1 1 [255] else []; asn1_octets v] ltac:(right; right; now left)). unfold asn1_octets in *. lia. }
  destruct crit.
  - rewrite (elements_concat _ [(6, oid); (1, [255]); (4, v)]); [reflexivity|].
    repeat constructor; apply is_asn1; try discriminate; try assumption; vm_compute; reflexivity.
  - change (concat [asn1_oid oid; []; asn1_octets v]) with (concat [asn1_oid oid; asn1_octets v]).
    rewrite (elements_concat _ [(6, oid); (4, v)]); [reflexivity|]. repeat constructor; apply is_asn1; try discriminate; assumption.
Qed.

Lemma exts_read is_ca sid aid : len (extensions is_ca sid aid) < 4294967296 ->
  exists c l, is_element (extensions is_ca sid aid) (48, c) /\ elements c = Some l /\ all_some read_extension l = Some (exts_of is_ca sid aid).
Proof.
  intro L. unfold extensions, asn1_seq at 1 in L.
  set (es := [extension oid_key_usage true (key_usage is_ca);
            extension oid_ext_key_usage false (asn1_seq [asn1_oid oid_client_auth; asn1_oid oid_server_auth]);
            extension oid_basic_constraints true (basic_constraints is_ca);
            if len sid =? 0 then [] else extension oid_subject_key_id false (asn1_octets sid);
            if len aid =? 0 then [] else extension oid_authority_key_id false (asn1_seq [asn1 128 aid])]) in *.
  pose proof (len_inside 48 (concat es)) as Li.
  assert (Le : forall e, In e es -> len e < 4294967296) by (intros e He; pose proof (len_concat e es He); lia).
  destruct (read_ext _ _ _ (Le _ (or_introl eq_refl))) as (c1 & E1 & R1).
  destruct (read_ext _ _ _ (Le _ (or_intror (or_introl eq_refl)))) as (c2 & E2 & R2).
  destruct (read_ext _ _ _ (Le _ (or_intror (or_intror (or_introl eq_refl))))) as (c3 & E3 & R3).
  pose proof (Le _ (or_intror (or_intror (or_intror (or_introl eq_refl))))) as L4. pose proof (Le _ (or_intror (or_intror (or_intror (or_intror (or_introl eq_refl)))))) as L5.
  cbv beta in L4, L5. exists (concat es).
  assert (B : is_element (extensions is_ca sid aid) (48, concat es)) by (apply is_asn1; [discriminate|lia]).
  unfold exts_of. subst es.
  destruct (len sid =? 0) eqn:Z1; destruct (len aid =? 0) eqn:Z2.
  - exists [(48, c1); (48, c2); (48, c3)]. split; [exact B|]. split; [|cbn [all_some]; rewrite R1, R2, R3; reflexivity].
    apply (elements_concat [_; _; _] [_; _; _]). repeat constructor; assumption.
  - destruct (read_ext _ _ _ L5) as (c5 & E5 & R5). exists [(48, c1); (48, c2); (48, c3); (48, c5)]. split; [exact B|].
    split; [|cbn [all_some]; rewrite R1, R2, R3, R5; reflexivity].
    apply (elements_concat [_; _; _; _] [_; _; _; _]). repeat constructor; assumption.
  - destruct (read_ext _ _ _ L4) as (c4 & E4 & R4). exists [(48, c1); (48, c2); (48, c3); (48, c4)]. split; [exact B|].
    split; [|cbn [all_some]; rewrite R1, R2, R3, R4; reflexivity].
    apply (elements_concat [_; _; _; _] [_; _; _; _]). repeat constructor; assumption.
  - destruct (read_ext _ _ _ L4) as (c4 & E4 & R4). destruct (read_ext _ _ _ L5) as (c5 & E5 & R5).
    exists [(48, c1); (48, c2); (48, c3); (48, c4); (48, c5)]. split; [exact B|].
    split; [|cbn [all_some]; rewrite R1, R2, R3, R4, R5; reflexivity].
    apply (elements_concat [_; _; _; _; _] [_; _; _; _; _]). repeat constructor; assumption.
Qed.

(* ---------------------------------------------------- keys *)
Definition key_alg (k : cose_pub) : bytes :=
  match kq_ec k with
  | Some _ => concat [asn1_oid oid_ec_public_key; asn1_oid oid_p256]
  | None => concat [asn1_oid oid_ed25519]
  end.
Lemma key_info_read k info bits : key_info k = Some info -> key_bits k = Some bits -> len info < 4294967296 ->
  exists c, is_element info (48, c) /\ elements c = Some [(48, key_alg k); (3, 0 :: bits)].
Proof.
  unfold key_info. intros K B L. rewrite B in K. cbn [obind] in K. injection K as <-.
  unfold asn1_seq at 1. unfold asn1_seq at 1 in L.
  replace (match kq_ec k with Some _ => asn1_seq [asn1_oid oid_ec_public_key; asn1_oid oid_p256] | None => asn1_seq [asn1_oid oid_ed25519] end)
    with (asn1 48 (key_alg k)) in * by (unfold key_alg; destruct (kq_ec k); reflexivity).
  pose proof (len_inside 48 (concat [asn1 48 (key_alg k); asn1_bits bits])) as L1.
  pose proof (len_concat (asn1_bits bits) [asn1 48 (key_alg k); asn1_bits bits] ltac:(right; now left)) as L2.
  pose proof (len_inside 3 (0 :: bits)) as L3. unfold asn1_bits in *.
  eexists. split; [apply is_asn1; [discriminate|lia]|]. apply elements_concat. repeat constructor; apply is_asn1; try discriminate.
  - unfold key_alg. destruct (kq_ec k); vm_compute; reflexivity.
  - lia.
Qed.

(* ---------------------------------------------------- certificates *)
Definition sig_alg (k : cose_priv) : bytes := asn1_oid (match kp_ec k with Some _ => oid_ecdsa_sha256 | None => oid_ed25519 end).

Section Made.
  Variable C : Crypto.
  Variable sha1 : bytes -> bytes.

  Lemma created rnd subject sc is_ca t1 t2 parent pub key cert ic :
    create_certificate C sha1 rnd subject is_ca t1 t2 parent pub key = Some cert ->
    proper_date t1 -> proper_date t2 -> is_element subject (48, sc) ->
    match parent with Some p => is_element (au_subject p) (48, ic) | None => ic = sc end ->
    exists v own bits cc, read_certificate cert = Some v /\ is_element cert (48, cc) /\
      cose_public key = Ok own /\ key_bits pub = Some bits /\
      ce_version v = 3 /\ ce_serial v = [0] /\ ce_algorithm v = sig_alg key /\ ce_issuer v = ic /\
      ce_before v = t1 /\ ce_after v = t2 /\ ce_subject v = sc /\ ce_key_algorithm v = key_alg pub /\ ce_key v = bits /\
      ce_extensions v = exts_of is_ca (if is_ca then sha1 bits else [])
        (match parent with Some p => if bytes_eqb (au_subject p) subject then [] else au_key_id p | None => [] end) /\
      cose_verify C own (ce_signed v) (ce_signature v) = Ok true /\
      match parent with Some p => key_info own = Some (au_key p) | None => True end /\
      len (extensions is_ca (if is_ca then sha1 bits else [])
        (match parent with Some p => if bytes_eqb (au_subject p) subject then [] else au_key_id p | None => [] end)) < 4294967296.
  Proof.
    unfold create_certificate. intros H P1 P2 Is Ii.
    destruct (cose_public key) as [own|] eqn:Own; [|discriminate H]. cbn [obind] in H.
    destruct (key_info own) as [own_info|] eqn:OI; [|discriminate H]. cbn [obind] in H.
    destruct (key_bits pub) as [bits|] eqn:KB; [|discriminate H]. cbn [obind] in H.
    destruct (key_info pub) as [info|] eqn:KI; [|discriminate H]. cbn [obind] in H.
    set (issuer := match parent with Some p => au_subject p | None => subject end) in *.
    set (aid := match parent with Some p => if bytes_eqb issuer subject then [] else au_key_id p | None => [] end) in *.
    set (sid := if is_ca then sha1 bits else []) in *.
    destruct (match parent with Some p => bytes_eqb own_info (au_key p) | None => true end) eqn:PK; [|discriminate H].
    destruct (asn1_time t1) as [before|] eqn:T1; [|discriminate H]. cbn [obind] in H.
    destruct (asn1_time t2) as [after|] eqn:T2; [|discriminate H]. cbn [obind] in H.
    destruct (time_read _ _ P1 T1) as (tc1 & I1 & R1 & _). destruct (time_read _ _ P2 T2) as (tc2 & I2 & R2 & _).
    set (parts := [asn1 160 (asn1 2 [2]); asn1 2 [0]; signature_algorithm key; issuer; asn1_seq [before; after]; subject;
                   info; asn1 163 (extensions is_ca sid aid)]) in *.
    destruct (cose_sign C key (asn1_seq parts) rnd) as [sig|] eqn:Sg; [|discriminate H].
    destruct (cose_verify C own (asn1_seq parts) sig) as [[]|] eqn:Vf; try discriminate H.
    destruct (len (asn1_seq [asn1_seq parts; signature_algorithm key; asn1_bits sig]) <? 4294967296) eqn:Sz; [|discriminate H].
    apply N.ltb_lt in Sz. assert (cert = asn1_seq [asn1_seq parts; signature_algorithm key; asn1_bits sig]) as Hc by congruence. clear H.
    (* sizes *)
    pose proof (len_inside 48 (concat [asn1_seq parts; signature_algorithm key; asn1_bits sig])) as S1. fold (asn1_seq [asn1_seq parts; signature_algorithm key; asn1_bits sig]) in S1.
    pose proof (len_concat (asn1_seq parts) [asn1_seq parts; signature_algorithm key; asn1_bits sig] ltac:(now left)) as S2.
    pose proof (len_concat (asn1_bits sig) [asn1_seq parts; signature_algorithm key; asn1_bits sig] ltac:(right; right; now left)) as S3.
    pose proof (len_inside 3 (0 :: sig)) as S4. fold (asn1_bits sig) in S4.
    pose proof (len_inside 48 (concat parts)) as S5. fold (asn1_seq parts) in S5.
    assert (Sp : forall e, In e parts -> len e < 4294967296) by (intros e He; pose proof (len_concat e parts He); lia).
    assert (Ka : is_element (signature_algorithm key) (48, sig_alg key)).
    { unfold signature_algorithm, sig_alg, asn1_seq. cbn [concat]. rewrite app_nil_r. apply is_asn1; [discriminate|]. destruct (kp_ec key); vm_compute; reflexivity. }
    assert (Sx : len (extensions is_ca sid aid) < 4294967296).
    { pose proof (Sp (asn1 163 (extensions is_ca sid aid)) ltac:(unfold parts; cbn; tauto)). pose proof (len_inside 163 (extensions is_ca sid aid)). lia. }
    destruct (exts_read is_ca sid aid Sx) as (xc & xl & X1 & X2 & X3).
    destruct (key_info_read _ _ _ KI KB (Sp info ltac:(unfold parts; cbn; tauto))) as (kc & K1 & K2).
    assert (Sv : len (concat [before; after]) < 4294967296).
    { pose proof (Sp (asn1_seq [before; after]) ltac:(unfold parts; cbn; tauto)). pose proof (len_inside 48 (concat [before; after])). unfold asn1_seq in *. lia. }
    assert (Ie : is_element issuer (48, ic)).
    { unfold issuer. destruct parent; [exact Ii|]. subst ic. exact Is. }
    assert (Et : elements (concat parts) = Some [(160, asn1 2 [2]); (2, [0]); (48, sig_alg key); (48, ic); (48, concat [before; after]); (48, sc); (48, kc); (163, extensions is_ca sid aid)]).
    { apply elements_concat. unfold parts.
      constructor; [apply is_asn1; [discriminate|vm_compute; reflexivity]|]. constructor; [apply is_asn1; [discriminate|vm_compute; reflexivity]|].
      constructor; [exact Ka|]. constructor; [exact Ie|]. constructor; [apply is_asn1; [discriminate|exact Sv]|]. constructor; [exact Is|].
      constructor; [exact K1|]. constructor; [apply is_asn1; [discriminate|exact Sx]|]. constructor. }
    assert (Ec : elements (concat [asn1_seq parts; signature_algorithm key; asn1_bits sig]) = Some [(48, concat parts); (48, sig_alg key); (3, 0 :: sig)]).
    { apply elements_concat. constructor; [apply is_asn1; [discriminate|lia]|]. constructor; [exact Ka|]. constructor; [apply is_asn1; [discriminate|lia]|]. constructor. }
    assert (Icert : is_element cert (48, concat [asn1_seq parts; signature_algorithm key; asn1_bits sig])) by (subst cert; apply is_asn1; [discriminate|lia]).
    exists {| ce_signed := asn1_seq parts; ce_version := 3; ce_serial := [0]; ce_algorithm := sig_alg key; ce_issuer := ic; ce_before := t1; ce_after := t2;
              ce_subject := sc; ce_key_algorithm := key_alg pub; ce_key := bits; ce_extensions := exts_of is_ca sid aid; ce_signature := sig |}, own, bits, (concat [asn1_seq parts; signature_algorithm key; asn1_bits sig]).
    split.
    { unfold read_certificate. rewrite (elements_one _ _ Icert).
      change (concat [asn1_seq parts; signature_algorithm key; asn1_bits sig]) with (asn1 48 (concat parts) ++ concat [signature_algorithm key; asn1_bits sig]) at 1.
      rewrite element_asn1 by (try discriminate; lia). rewrite Ec, Et.
      rewrite (elements_one (asn1 2 [2]) (2, [2])) by (apply is_asn1; [discriminate|vm_compute; reflexivity]).
      rewrite (elements_concat [before; after] [tc1; tc2]) by (repeat constructor; assumption).
      rewrite K2, (elements_one _ _ X1). rewrite R1, R2, X2, X3, bytes_eqb_refl. reflexivity. }
    split; [exact Icert|].
    split; [reflexivity|]. split; [reflexivity|]. cbn [ce_version ce_serial ce_algorithm ce_issuer ce_before ce_after ce_subject ce_key_algorithm ce_key ce_extensions ce_signed ce_signature].
    repeat (split; [reflexivity|]). split; [subst sid aid issuer; destruct parent; reflexivity|]. split; [exact Vf|].
    split; [destruct parent; [|exact I]; apply bytes_eqb_eq in PK; now subst|]. subst sid aid issuer. destruct parent; exact Sx.
  Qed.
End Made.
