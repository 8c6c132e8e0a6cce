(* Properties C54 and C55: the identity vault and restarts. *)
From Coq Require Import Permutation.
From Verif Require Import Base M_Crypto M_Cose M_State M_Client M_Ctap.
From Verif Require Import S_Crypto S_State S_Client S_Ctap S_Vault.
From Verif Require Import P_Crypto P_Client P_Vault P_Toy.
Local Opaque two dev ctap_handle run.

(* ---------------------------------------------------------------- C54 *)
Theorem C54_add : forall E rp u w w' r, env_ok E -> new_identity E rp u w = (w', r) ->
  exists s d, r = Ok s /\ w_client w' = set_vault (w_client w) (cl_vault (w_client w) ++ [s]) /\
    w_trace w' = w_trace w /\ len (cs_id s) = 16 /\ cs_rp s = rp /\ cs_user s = u /\ cs_ctr s = 0%Z /\
    valid_scalar d /\ cs_key s = priv_ec (ec_key (e_C E) d).
Proof. exact new_identity_adds. Qed.
Print Assumptions C54_add.

Theorem C54_delete : forall v id v' ok, delete_identity v id = (v', ok) ->
  (ok = true <-> exists s, In s v /\ cs_id s = id) /\
  (ok = true -> exists v1 s v2, v = v1 ++ s :: v2 /\ cs_id s = id /\ (forall z, In z v1 -> cs_id z <> id) /\
                  Permutation v' (v1 ++ v2)) /\
  (ok = false -> v' = v).
Proof. exact delete_exact. Qed.
Print Assumptions C54_delete.

Theorem C54_lookup : forall v rp allow, selects (allowed rp allow) v (matching v rp allow).
Proof. exact lookup_selects. Qed.
Print Assumptions C54_lookup.

(* The client's DeleteIdentity, which also saves. *)
Theorem C54_delete_api : forall E id w w' r, env_ok E -> client_ok E (w_client w) ->
  delete_identity_api E id w = (w', r) ->
  client_ok E (w_client w') /\ w_tick w <= w_tick w' /\
  ((r = Ok false /\ w' = w /\ forall s, In s (cl_vault (w_client w)) -> cs_id s <> id) \/
   (exists v d, r = Ok true /\ delete_identity (cl_vault (w_client w)) id = (v, true) /\
      w_client w' = set_vault (w_client w) v /\ w_trace w' = w_trace w ++ [EvSave d] /\ stored E d (w_client w'))).
Proof. exact delete_api. Qed.
Print Assumptions C54_delete_api.

(* Any list of operations, if the added ids differ (they are random). *)
Theorem C54_operations : forall l v bs, performs l v bs -> NoDup (map cs_id (added l)) ->
  NoDup (map cs_id v) /\ forall s, In s v <-> present l s.
Proof. exact vault_operations. Qed.
Print Assumptions C54_operations.

Theorem C54_answers : forall l v bs, performs l v bs -> NoDup (map cs_id (added l)) ->
  forall l1 id l2, l = l1 ++ OpDelete id :: l2 ->
  exists v1 bs1 b bs2, performs l1 v1 bs1 /\ bs = bs1 ++ b :: bs2 /\
    (b = true <-> exists s, present l1 s /\ cs_id s = id).
Proof. exact vault_answers. Qed.
Print Assumptions C54_answers.

Definition src (n : N) (rp : bytes) : source :=
  {| cs_type := text_public_key; cs_id := [n]; cs_key := priv_ec (ec_key toy 3);
     cs_rp := {| rp_id := rp; rp_name := rp |}; cs_user := {| us_id := Some [n]; us_name := []; us_display := [] |};
     cs_ctr := 0 |}.

Example C54_example :
  delete_identity [src 1 rpA; src 2 rpB; src 3 rpA; src 4 rpB] [2] = ([src 1 rpA; src 4 rpB; src 3 rpA], true) /\
  delete_identity [src 1 rpA] [7] = ([src 1 rpA], false) /\
  matching [src 1 rpA; src 2 rpB; src 3 rpA] rpA None = [src 1 rpA; src 3 rpA] /\
  performs [OpAdd (src 1 rpA); OpAdd (src 2 rpA); OpDelete [1]; OpDelete [1]] [src 2 rpA] [true; false] /\
  NoDup (map cs_id (added [OpAdd (src 1 rpA); OpAdd (src 2 rpA); OpDelete [1]; OpDelete [1]])) /\
  (exists w' , delete_identity_api (toyE true) (be 16 4) two = (w', Ok true)).
Proof.
  split; [reflexivity|]. split; [reflexivity|]. split; [reflexivity|].
  split. { apply (Perf_delete [_; _; _] [src 2 rpA] [true] [1]); [|reflexivity].
    apply (Perf_delete [_; _] [src 1 rpA; src 2 rpA] [] [1]); [|reflexivity].
    apply (Perf_add [_] [src 1 rpA] []). apply (Perf_add [] [] []). constructor. }
  split. { cbn. repeat constructor; cbn; intuition discriminate. }
  eexists. vm_compute. reflexivity.
Qed.

(* ---------------------------------------------------------------- C55 *)
(* The same identities after saving and starting again. *)
Definition C55_full : Prop := forall E p w w1 d w2, env_ok E -> params_ok E p -> client_ok E (w_client w) ->
  save_data E w = (w1, Ok tt) -> w_trace w1 = w_trace w ++ [EvSave d] -> start E p (Some d) w1 = (w2, Ok tt) ->
  cl_vault (w_client w2) = cl_vault (w_client w) /\ cl_pin (w_client w2) = cl_pin (w_client w) /\
  cl_hash (w_client w2) = cl_hash (w_client w) /\ cl_ctr (w_client w2) = cl_ctr (w_client w).

(* What holds: the start succeeds and everything is as before, but every identity has the
   relying party and the user of the last one. *)
Theorem C55_restart_partial : forall E p w, env_ok E -> params_ok E p -> client_ok E (w_client w) ->
  exists w1 d w2, save_data E w = (w1, Ok tt) /\ w_trace w1 = w_trace w ++ [EvSave d] /\
    stored E d (w_client w) /\
    start E p (Some d) w1 = (w2, Ok tt) /\ client_ok E (w_client w2) /\
    cl_key (w_client w2) = cl_key (w_client w) /\ cl_cert (w_client w2) = cl_cert (w_client w) /\
    cl_certkey (w_client w2) = cl_certkey (w_client w) /\ cl_ctr (w_client w2) = cl_ctr (w_client w) /\
    cl_pin (w_client w2) = cl_pin (w_client w) /\ cl_hash (w_client w2) = cl_hash (w_client w) /\
    cl_vault (w_client w2) = smeared (cl_vault (w_client w)).
Proof. exact save_then_start. Qed.
Print Assumptions C55_restart_partial.

(* Types, ids, keys and counters are kept, in order. *)
Theorem C55_kept_partial : forall v, map cs_type (smeared v) = map cs_type v /\ map cs_id (smeared v) = map cs_id v /\
  map cs_key (smeared v) = map cs_key v /\ map cs_ctr (smeared v) = map cs_ctr v.
Proof.
  intro v. pose proof (smeared_core v) as H.
  assert (X : forall B (f : bytes * bytes * cose_priv * Z -> B), map (fun s => f (core s)) (smeared v) = map (fun s => f (core s)) v).
  { intros B f. rewrite <- (map_map core f), H, map_map. reflexivity. }
  split; [apply (X _ (fun p => fst (fst (fst p))))|]. split; [apply (X _ (fun p => snd (fst (fst p))))|].
  split; [apply (X _ (fun p => snd (fst p)))|apply (X _ snd)].
Qed.
Print Assumptions C55_kept_partial.

(* The relying parties and users survive exactly when all identities have the same. *)
Theorem C55_when_partial : forall v, smeared v = v <->
  forall s z, In s v -> In z v -> cs_rp s = cs_rp z /\ cs_user s = cs_user z.
Proof. exact smeared_iff. Qed.
Print Assumptions C55_when_partial.

Theorem C55_restart_refuted : ~ C55_full.
Proof.
  intro H. destruct (save_then_start (toyE true) (toyP false) two (toyE_ok true) (toyP_ok true false) (two_ok true))
    as (w1 & d & w2 & S & T & _ & R & _ & _ & _ & _ & _ & _ & _ & V).
  destruct (H _ _ _ _ _ _ (toyE_ok true) (toyP_ok true false) (two_ok true) S T R) as (X & _). rewrite V in X.
  apply (f_equal (map (fun s => rp_id (cs_rp s)))) in X.
  assert (Y : map (fun s => rp_id (cs_rp s)) (cl_vault (w_client two)) = [rpA; rpB]) by (vm_compute; reflexivity).
  assert (Z : map (fun s => rp_id (cs_rp s)) (smeared (cl_vault (w_client two))) = [rpB; rpB]) by (vm_compute; reflexivity).
  rewrite Y, Z in X. discriminate X.
Qed.
Print Assumptions C55_restart_refuted.

Example C55_example : env_ok (toyE true) /\ params_ok (toyE true) (toyP false) /\ client_ok (toyE true) (w_client two) /\
  length (cl_vault (w_client two)) = 2%nat.
Proof. split; [apply toyE_ok|]. split; [apply toyP_ok|]. split; [apply two_ok|]. vm_compute. reflexivity. Qed.
