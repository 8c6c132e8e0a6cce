(* One resident credential for each account (C162). *)
From Verif Require Import Base M_Str M_Cbor M_Crypto M_Cose M_State M_Client M_Ctap M_U2f M_History.
From Verif Require Import S_Crypto S_Cbor S_Cose S_State S_Client S_Ctap S_CtapReq S_History S_Account.
From Verif Require Import P_Crypto P_Client P_Toy P_Ctap2 P_History P_History2 P_Newest P_Account.

(* ---------------------------------------------------------------- C162 *)
(* The first registration of an account leaves it with one credential. *)
Theorem C162_first_partial : forall E w w' m rp uid b, env_ok E -> client_ok E (w_client w) ->
  one_each (cl_vault (w_client w)) -> (forall s, In s (cl_vault (w_client w)) -> ~ of_account rp uid s) ->
  asks_resident m rp uid -> ctap_handle E m w = (w', Ok (0 :: b)) -> one_each (cl_vault (w_client w')).
Proof. exact first_of_account. Qed.
Print Assumptions C162_first_partial.

(* Every further one adds a credential and leaves the old ones: the claim fails on every device,
   not only on some. *)
Theorem C162_always_refuted : forall E w w' m rp uid b s, env_ok E -> client_ok E (w_client w) ->
  In s (cl_vault (w_client w)) -> of_account rp uid s ->
  asks_resident m rp uid -> ctap_handle E m w = (w', Ok (0 :: b)) ->
  ~ one_each (cl_vault (w_client w')) /\ exists t, cl_vault (w_client w') = cl_vault (w_client w) ++ [t] /\ of_account rp uid t.
Proof. exact second_of_account. Qed.
Print Assumptions C162_always_refuted.

(* The same account registers twice. *)
Definition resident : bytes :=
  1 :: cenc (mc_request_full the_hash rpA [65; 66] [1; 2; 3] [98; 111; 98] [66; 111; 98] es256 None [] (Some true) None None None).
Definition once : world := fst (ctap_handle (toyE true) resident (dev false)).
Definition twice : world := fst (ctap_handle (toyE true) resident once).
Definition reply (w : world) : bytes := match snd (ctap_handle (toyE true) resident w) with Ok r => r | Panic => [] end.

Lemma resident_asks : asks_resident resident rpA [1; 2; 3].
Proof.
  exists (tl resident). destruct (unmarshal dec_mc (tl resident)) as [a|] eqn:U; [|vm_compute in U; discriminate].
  assert (Q : option_map (fun a => (option_map rp_id (mc_rp a), option_map (fun u => or_nil (us_id u)) (mc_user a),
      option_map op_rk (mc_options a))) (unmarshal dec_mc (tl resident)) =
    Some (Some rpA, Some [1; 2; 3], Some true)) by (vm_compute; reflexivity).
  rewrite U in Q. cbn in Q. destruct (mc_rp a) as [e|] eqn:Re; [|discriminate]. destruct (mc_user a) as [u|] eqn:Us; [|discriminate].
  destruct (mc_options a) as [op|] eqn:Op; [|discriminate]. cbn in Q. injection Q as Q1 Q2 Q3.
  exists a, e, u, op. split; [vm_compute; reflexivity|]. split; [apply wfbb_iff; vm_compute; reflexivity|]. auto 10.
Qed.

Lemma once_runs : ctap_handle (toyE true) resident (dev false) = (once, Ok (0 :: tl (reply (dev false)))).
Proof. vm_compute. reflexivity. Qed.

Lemma twice_runs : ctap_handle (toyE true) resident once = (twice, Ok (0 :: tl (reply once))).
Proof. vm_compute. reflexivity. Qed.

Lemma dev_one_each : one_each (cl_vault (w_client (dev false))) /\
  forall s, In s (cl_vault (w_client (dev false))) -> ~ of_account rpA [1; 2; 3] s.
Proof.
  assert (V : cl_vault (w_client (dev false)) = []) by (vm_compute; reflexivity). rewrite V. split; [|intros s []].
  intros v1 s v2 t v3 rp uid Q. now destruct v1.
Qed.

Lemma once_ok : client_ok (toyE true) (w_client once).
Proof.
  assert (H : handle (toyE true) (ICtap resident) (dev false) = (once, snd (handle (toyE true) (ICtap resident) (dev false)))) by (vm_compute; reflexivity).
  assert (G : good_input (ICtap resident)) by (apply wfbb_iff; vm_compute; reflexivity).
  destruct (handle_step (toyE true) _ _ _ _ (toyE_ok true) (dev_ok true false) G H) as (K & _). exact K.
Qed.

Example C162_ex : one_each (cl_vault (w_client once)) /\ (exists s, In s (cl_vault (w_client once)) /\ of_account rpA [1; 2; 3] s) /\
  length (cl_vault (w_client twice)) = 2%nat.
Proof.
  destruct dev_one_each as (O & F).
  split; [exact (C162_first_partial (toyE true) (dev false) once resident rpA [1; 2; 3] _ (toyE_ok true) (dev_ok true false) O F resident_asks once_runs)|].
  split; [|vm_compute; reflexivity].
  destruct (resident_adds (toyE true) (dev false) once resident rpA [1; 2; 3] _ (toyE_ok true) (dev_ok true false) resident_asks once_runs) as (s & V & A).
  exists s. split; [|exact A]. rewrite V. apply in_or_app. right. now left.
Qed.

Theorem C162_refuted : ~ C162_claim.
Proof.
  intros H. destruct C162_ex as (O & (s & I & A) & _).
  destruct (C162_always_refuted (toyE true) once twice resident rpA [1; 2; 3] _ s (toyE_ok true) once_ok I A resident_asks twice_runs) as (N & _).
  apply N. exact (H (toyE true) once twice resident rpA [1; 2; 3] _ (toyE_ok true) once_ok O resident_asks twice_runs).
Qed.
Print Assumptions C162_refuted.
