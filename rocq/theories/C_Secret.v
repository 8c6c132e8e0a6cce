(* What a conversation with the device does not depend on: C125 (other relying parties), C126
   (the PIN and the PIN token), C127 (the other protocol). *)
From Verif Require Import Base M_Str M_Cbor M_Crypto M_Cose M_State M_Client M_Ctap M_U2f M_History.
From Verif Require Import S_Crypto S_Cbor S_Cose S_State S_Client S_Ctap S_CtapReq S_Pin S_Secret.
From Verif Require Import P_Crypto P_Client P_Toy P_Secret C_History.

(* The questions of [seen] are those of the requests themselves. *)
Example seen_questions : exists q, seen (toyE true) [ICtap (msg_mc rpA None)] (dev false)
  (fst (talk (toyE true) [ICtap (msg_mc rpA None)] (dev false))) [q].
Proof.
  exists (ActMakeCredential, [65; 66], [], true). split; [reflexivity|].
  exists (w_trace (snd (talk (toyE true) [ICtap (msg_mc rpA None)] (dev false)))). split; vm_compute; reflexivity.
Qed.

(* ---------------------------------------------------------------- C125 *)
Definition C125_full : Prop := forall E R is w1 w2, env_ok E ->
  client_ok E (w_client w1) -> client_ok E (w_client w2) -> w_tick w1 = w_tick w2 ->
  same_but_vault (w_client w1) (w_client w2) ->
  owned R (cl_vault (w_client w1)) = owned R (cl_vault (w_client w2)) ->
  (forall m rp, In (ICtap m) is -> logs_in m rp -> R rp = true) ->
  (forall id s, In (IDelete id) is -> In s (cl_vault (w_client w1) ++ cl_vault (w_client w2)) -> cs_id s = id ->
     R (rp_id (cs_rp s)) = true) ->
  alike E is w1 w2.

(* Without deletions: logins of some relying parties, and anything else, look the same
   whatever credentials other relying parties have. *)
Theorem C125_isolated_partial : forall E R is w1 w2, env_ok E ->
  client_ok E (w_client w1) -> client_ok E (w_client w2) -> w_tick w1 = w_tick w2 ->
  same_but_vault (w_client w1) (w_client w2) ->
  owned R (cl_vault (w_client w1)) = owned R (cl_vault (w_client w2)) ->
  (forall m rp, In (ICtap m) is -> logs_in m rp -> R rp = true) ->
  (forall id, ~ In (IDelete id) is) ->
  alike E is w1 w2.
Proof. exact isolated. Qed.
Print Assumptions C125_isolated_partial.

Definition with_vault (w : world) (v : list source) : world :=
  {| w_client := set_vault (w_client w) v; w_tick := w_tick w; w_trace := w_trace w |}.

Lemma with_vault_ok E w v : client_ok E (w_client w) -> incl v (cl_vault (w_client w)) ->
  client_ok E (w_client (with_vault w v)) /\ same_but_vault (w_client w) (w_client (with_vault w v)).
Proof.
  intros [] I. split; constructor; auto. cbn. rewrite Forall_forall in *. auto.
Qed.

Lemma owned_incl R v : incl (owned R v) v.
Proof. intros s I. unfold owned in I. apply filter_In in I. tauto. Qed.

Lemma with_vault_tick w v : w_tick w = w_tick (with_vault w v).
Proof. reflexivity. Qed.

Definition onlyA (rp : bytes) : bool := bytes_eqb rp rpA.

(* Deciding the hypotheses on concrete conversations. *)
Definition all_ctap (f : bytes -> bool) (is : list input) : bool :=
  forallb (fun i => match i with ICtap m => f m | _ => true end) is.
Lemma all_ctap_in f is m : all_ctap f is = true -> In (ICtap m) is -> f m = true.
Proof. unfold all_ctap. rewrite forallb_forall. intros H I. exact (H _ I). Qed.

Definition logs_inb (m : bytes) : bool :=
  match m with
  | 2 :: data => match unmarshal dec_ga data with Some a => onlyA (ga_rp a) | None => true end
  | _ => true
  end.
Lemma logs_inb_ok m rp : logs_inb m = true -> logs_in m rp -> onlyA rp = true.
Proof. intros H (data & a & -> & U & <-). cbn [logs_inb] in H. now rewrite U in H. Qed.

Definition no_delete (is : list input) : bool := forallb (fun i => match i with IDelete _ => false | _ => true end) is.
Lemma no_delete_ok is id : no_delete is = true -> ~ In (IDelete id) is.
Proof. unfold no_delete. rewrite forallb_forall. intros H I. specialize (H _ I). discriminate. Qed.
Definition conv125 : list input := [gaA; mcB; gaA; IU2f [0; 3; 0; 0]; IEnablePin true].

Example C125_applies :
  client_ok (toyE true) (w_client two) /\ client_ok (toyE true) (w_client (with_vault two (owned onlyA (cl_vault (w_client two))))) /\
  same_but_vault (w_client two) (w_client (with_vault two (owned onlyA (cl_vault (w_client two))))) /\
  length (cl_vault (w_client two)) = 2%nat /\ length (owned onlyA (cl_vault (w_client two))) = 1%nat /\
  owned onlyA (cl_vault (w_client two)) = owned onlyA (owned onlyA (cl_vault (w_client two))) /\
  (forall m rp, In (ICtap m) conv125 -> logs_in m rp -> onlyA rp = true) /\ (forall id, ~ In (IDelete id) conv125) /\
  length (filter (fun r => match r with Ok (OBytes (0 :: _)) => true | _ => false end)
    (fst (talk (toyE true) conv125 two))) = 3%nat.
Proof.
  refine (conj (two_ok true) (conj (proj1 (with_vault_ok _ two _ (two_ok true) (owned_incl onlyA _)))
    (conj (proj2 (with_vault_ok _ two _ (two_ok true) (owned_incl onlyA _))) _))).
  split; [vm_compute; reflexivity|]. split; [vm_compute; reflexivity|]. split; [vm_compute; reflexivity|].
  split; [|split; [|vm_compute; reflexivity]].
  - intros m rp I. exact (logs_inb_ok m rp (all_ctap_in logs_inb conv125 m (eq_refl true <: all_ctap logs_inb conv125 = true) I)).
  - intros id. exact (no_delete_ok conv125 id eq_refl).
Qed.

(* Deleting a credential moves the last one of the vault into its place: which credential of
   the relying party is then the first depends on whose the last one is. *)
Definition four : world :=
  fst (run (toyE true) [msg_mc rpA None; msg_mc rpA None; msg_mc rpA None; msg_mc rpB None] (dev false)).
Local Notation three := (with_vault four (owned onlyA (cl_vault (w_client four)))).
Definition first_id : bytes := Eval vm_compute in match cl_vault (w_client four) with s :: _ => cs_id s | [] => [] end.

Lemma only_delete id x m : In (IDelete id) [IDelete x; ICtap m] -> id = x.
Proof. intros [I|[I|[]]]; congruence. Qed.

Theorem C125_delete_refuted : ~ C125_full.
Proof.
  intro H. assert (O : client_ok (toyE true) (w_client four)).
  { apply run_ok; [apply toyE_ok| |apply dev_ok]. repeat constructor; apply wfbb_iff; vm_compute; reflexivity. }
  destruct (with_vault_ok (toyE true) four (owned onlyA (cl_vault (w_client four))) O (owned_incl _ _)) as (O3 & S).
  destruct (H (toyE true) onlyA [IDelete first_id; gaA] four three (toyE_ok true) O O3 (with_vault_tick _ _) S) as (os & qs & (A & _) & (B & _)).
  - vm_compute. reflexivity.
  - intros m rp I. apply logs_inb_ok. exact (all_ctap_in logs_inb [IDelete first_id; gaA] m (eq_refl true <: all_ctap logs_inb [IDelete first_id; gaA] = true) I).
  - intros id s I Is Q. apply only_delete in I. subst id.
    assert (X : Forall (fun s => (bytes_eqb (cs_id s) first_id && negb (onlyA (rp_id (cs_rp s))))%bool = false)
                  (cl_vault (w_client four) ++ cl_vault (w_client three))).
    { vm_compute. repeat constructor. }
    rewrite Forall_forall in X. specialize (X s Is). rewrite Q, bytes_eqb_refl in X. cbn [andb] in X. exact (proj1 (Bool.negb_false_iff _) X).
  - rewrite <- A in B. revert B. vm_compute. discriminate.
Qed.
Print Assumptions C125_delete_refuted.

(* ---------------------------------------------------------------- C126 *)
(* Two devices with different PINs and PIN tokens answer and ask alike as long as nobody
   offers either PIN or proves knowledge of either token. *)
Theorem C126_pin_secret : forall E is w1 w2 h1 h2, env_ok E ->
  client_ok E (w_client w1) -> client_ok E (w_client w2) -> w_tick w1 = w_tick w2 ->
  same_but_pin (w_client w1) (w_client w2) ->
  cl_hash (w_client w1) = Some h1 -> cl_hash (w_client w2) = Some h2 ->
  (forall pin, ~ In (ISetPin pin) is) ->
  (forall m, In (ICtap m) is -> ~ tries E (cl_ka (w_client w1)) m h1 /\ ~ tries E (cl_ka (w_client w1)) m h2) ->
  (forall m, In (ICtap m) is -> ~ proves E (cl_token (w_client w1)) m /\ ~ proves E (cl_token (w_client w2)) m) ->
  alike E is w1 w2.
Proof. exact pin_secret. Qed.
Print Assumptions C126_pin_secret.

Definition with_pin (w : world) (t h : bytes) : world :=
  {| w_client := let c := w_client w in
       {| cl_key := cl_key c; cl_cert := cl_cert c; cl_certkey := cl_certkey c; cl_ctr := cl_ctr c; cl_pin := cl_pin c;
          cl_token := t; cl_ka := cl_ka c; cl_retries := cl_retries c; cl_hash := Some h; cl_vault := cl_vault c |};
     w_tick := w_tick w; w_trace := w_trace w |}.

Lemma with_pin_ok E w t h : client_ok E (w_client w) -> wfb t -> len t = 16 -> wfb h -> len h = 16 ->
  client_ok E (w_client (with_pin w t h)).
Proof. intros [] T1 T2 H1 H2. constructor; auto. cbn. auto. Qed.

Definition hash1 : bytes := half (toy_hash pin1).
Definition hash2 : bytes := half (toy_hash pin2).
Definition pin3 : bytes := [48; 48; 48; 48].
Definition devP1 : world := with_pin (dev true) (be 16 1) hash1.
Definition devP2 : world := with_pin (dev true) (be 16 77) hash2.
(* A wrong PIN, a wrong change of the PIN, a wrong proof, an honest registration without
   proof, the retry counter and the status. *)
Definition conv126 : list input :=
  [ICtap (msg_token far pin3); ICtap (msg_change far pin3 pin2); ICtap (msg_mc rpA (Some (be 16 5)));
   ICtap (msg_mc rpA None); ICtap (msg_cp 1 None None None None); ICtap [4]; gaA].

Definition triesb (ka : N) (h m : bytes) : bool :=
  match m with
  | 6 :: data =>
    match unmarshal dec_cp data with
    | Some a =>
      match pn_key a with
      | Some k =>
        match p256_mul toy ka (big_set (or_nil (e2_x k)), big_set (or_nil (e2_y k))) with
        | Some x => match decrypt_cbc toy (sha256 toy (big_bytes x)) (or_nil (pn_hash a)) with
                    | Ok g => negb (bytes_eqb g h) | Panic => true end
        | None => true
        end
      | None => true
      end
    | None => true
    end
  | _ => true
  end.
Lemma triesb_ok ka h m : triesb ka h m = true -> ~ tries (toyE true) ka m h.
Proof.
  intros H (data & a & k & x & -> & U & _ & Ka & X & D). cbn [triesb] in H. rewrite U, Ka in H.
  change (e_C (toyE true)) with toy in *. rewrite X, D, bytes_eqb_refl in H. discriminate.
Qed.

Definition provesb (t m : bytes) : bool :=
  match m with
  | 1 :: data =>
    match unmarshal dec_mc data with
    | Some a => match mc_auth a with Some p => negb (bytes_eqb p (firstn 16 (hmac256 toy t (or_nil (mc_hash a))))) | None => true end
    | None => true
    end
  | 2 :: data =>
    match unmarshal dec_ga data with
    | Some a => match ga_auth a with Some p => negb (bytes_eqb p (firstn 16 (hmac256 toy t (or_nil (ga_hash a))))) | None => true end
    | None => true
    end
  | _ => true
  end.
Lemma provesb_ok t m : provesb t m = true -> ~ proves (toyE true) t m.
Proof.
  intros H [(data & a & p & -> & U & A & P)|(data & a & p & -> & U & A & P)]; cbn [provesb] in H; rewrite U, A in H;
    unfold pin_proof in P; change (e_C (toyE true)) with toy in P; rewrite <- P, bytes_eqb_refl in H; discriminate.
Qed.

Definition no_set (is : list input) : bool := forallb (fun i => match i with ISetPin _ => false | _ => true end) is.
Lemma no_set_ok is p : no_set is = true -> ~ In (ISetPin p) is.
Proof. unfold no_set. rewrite forallb_forall. intros H I. specialize (H _ I). discriminate. Qed.

Example C126_applies :
  client_ok (toyE true) (w_client devP1) /\ client_ok (toyE true) (w_client devP2) /\
  same_but_pin (w_client devP1) (w_client devP2) /\ hash1 <> hash2 /\
  (forall pin, ~ In (ISetPin pin) conv126) /\
  (forall m, In (ICtap m) conv126 -> ~ tries (toyE true) (cl_ka (w_client devP1)) m hash1 /\ ~ tries (toyE true) (cl_ka (w_client devP1)) m hash2) /\
  (forall m, In (ICtap m) conv126 -> ~ proves (toyE true) (cl_token (w_client devP1)) m /\ ~ proves (toyE true) (cl_token (w_client devP2)) m) /\
  map (fun r => match r with Ok (OBytes (s :: _)) => s | _ => 255 end) (fst (talk (toyE true) conv126 devP1)) =
    [49; 49; 51; 54; 0; 0; 46] /\
  (* and the right PIN tells them apart *)
  ~ alike (toyE true) [ICtap (msg_token far pin1)] devP1 devP2.
Proof.
  split; [|split; [|split; [|split; [|split; [|split; [|split; [|split]]]]]]].
  1,2: apply with_pin_ok; [apply dev_ok|apply wfbb_iff| |apply wfbb_iff|]; vm_compute; reflexivity.
  - constructor; reflexivity.
  - vm_compute. discriminate.
  - intro pin. apply no_set_ok. reflexivity.
  - intros m I. split; apply triesb_ok; (refine (all_ctap_in _ conv126 m _ I); vm_compute; reflexivity).
  - intros m I. split; apply provesb_ok; (refine (all_ctap_in _ conv126 m _ I); vm_compute; reflexivity).
  - vm_compute. reflexivity.
  - intros (os & qs & (A & _) & (B & _)). rewrite <- A in B. revert B. vm_compute. discriminate.
Qed.

(* ---------------------------------------------------------------- C127 *)
(* CTAP conversations do not depend on the key that seals U2F handles or the U2F counter. *)
Theorem C127_ctap_apart : forall E is w1 w2, env_ok E ->
  client_ok E (w_client w1) -> client_ok E (w_client w2) -> w_tick w1 = w_tick w2 ->
  same_but_u2f (w_client w1) (w_client w2) -> (forall m, ~ In (IU2f m) is) ->
  alike E is w1 w2.
Proof. exact ctap_apart. Qed.
Print Assumptions C127_ctap_apart.

(* U2F conversations depend on nothing but that key, that counter and the attestation
   certificate: neither on credentials nor on anything about PINs. *)
Theorem C127_u2f_apart : forall E ms w1 w2, w_tick w1 = w_tick w2 -> same_u2f (w_client w1) (w_client w2) ->
  alike E (map IU2f ms) w1 w2.
Proof. exact u2f_apart. Qed.
Print Assumptions C127_u2f_apart.

Definition other_u2f (w : world) : world :=
  {| w_client := let c := w_client w in
       {| cl_key := be 32 10; cl_cert := cl_cert c; cl_certkey := cl_certkey c; cl_ctr := 500; cl_pin := cl_pin c;
          cl_token := cl_token c; cl_ka := cl_ka c; cl_retries := cl_retries c; cl_hash := cl_hash c; cl_vault := cl_vault c |};
     w_tick := w_tick w; w_trace := w_trace w |}.
Lemma other_u2f_ok E w : client_ok E (w_client w) -> client_ok E (w_client (other_u2f w)) /\
  same_but_u2f (w_client w) (w_client (other_u2f w)).
Proof.
  intros []. split; constructor; auto; cbn [other_u2f w_client cl_key cl_ctr]; [|reflexivity].
  split; [right; right; reflexivity|apply be_wf].
Qed.
Lemma still_u2f w v t h : same_u2f (w_client w) (w_client (with_pin (with_vault w v) t h)).
Proof. constructor; reflexivity. Qed.
Lemma no_u2f_ok is m : forallb (fun i => match i with IU2f _ => false | _ => true end) is = true -> ~ In (IU2f m) is.
Proof. rewrite forallb_forall. intros H I. specialize (H _ I). discriminate. Qed.
Definition reg127 : bytes := [0; 1; 0; 0; 0; 0; 64] ++ be 32 3 ++ be 32 4.

Example C127_applies :
  client_ok (toyE true) (w_client two) /\ client_ok (toyE true) (w_client (other_u2f two)) /\
  same_but_u2f (w_client two) (w_client (other_u2f two)) /\ (forall m, ~ In (IU2f m) [gaA; gaB; mcA; IDelete []]) /\
  (exists a b c d, fst (talk (toyE true) [gaA; gaB; mcA; IDelete []] two) =
     [Ok (OBytes (0 :: a)); Ok (OBytes (0 :: b)); Ok (OBytes (0 :: c)); Ok d]) /\
  (* a U2F registration does depend on it *)
  ~ alike (toyE true) [IU2f reg127] two (other_u2f two) /\
  (* but not on the vault and the PIN *)
  same_u2f (w_client two) (w_client (with_pin (with_vault two []) (be 16 5) hash2)) /\
  (exists r, fst (talk (toyE true) (map IU2f [reg127; reg127]) two) = [Ok (OBytes (5 :: r)); Ok (OBytes (5 :: tl (nth 1
     (map (fun x => match x with Ok (OBytes b) => b | _ => [] end) (fst (talk (toyE true) (map IU2f [reg127; reg127]) two))) [])))]).
Proof.
  refine (conj (two_ok true) (conj (proj1 (other_u2f_ok _ _ (two_ok true))) (conj (proj2 (other_u2f_ok _ _ (two_ok true))) _))).
  split; [intro m; exact (no_u2f_ok [gaA; gaB; mcA; IDelete []] m eq_refl)|].
  split; [eexists _, _, _, _; vm_compute; reflexivity|].
  split; [intros (os & qs & (A & _) & (B & _)); rewrite <- A in B; revert B; vm_compute; discriminate|].
  split; [exact (still_u2f two [] (be 16 5) hash2)|]. eexists. vm_compute. reflexivity.
Qed.
