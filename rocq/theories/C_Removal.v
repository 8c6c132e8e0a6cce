(* A deletion does not change which of the other credentials answers (C161). *)
From Verif Require Import Base M_Str M_Cbor M_Crypto M_Cose M_State M_Client M_Ctap M_U2f M_History.
From Verif Require Import S_Crypto S_Cbor S_Cose S_State S_Client S_Ctap S_CtapReq S_History S_Secret S_Newest S_Removal.
From Verif Require Import P_Crypto P_Client P_Toy P_Ctap2 P_History P_History2 P_Newest P_Removal C_History C_Newest.

(* ---------------------------------------------------------------- C161 *)
(* What stands behind the credential that answers can be deleted, *)
Theorem C161_behind_partial : forall E w w1 w2 del o m rp id r id' n, env_ok E -> client_ok E (w_client w) ->
  oldest_before (cl_vault (w_client w)) rp id del -> handle E (IDelete del) w = (w1, Ok o) ->
  logs_in_any m rp -> ctap_handle E m w1 = (w2, Ok r) -> asserted r id' n -> id' = id.
Proof. exact answers_behind. Qed.
Print Assumptions C161_behind_partial.

(* and any other credential as long as the last one of the vault is of another relying party: the
   last one takes the place of the deleted one. *)
Theorem C161_other_last_partial : forall E w w1 w2 del o m rp id r id' n, env_ok E -> client_ok E (w_client w) ->
  oldest (cl_vault (w_client w)) rp id -> id <> del -> last_is_other (cl_vault (w_client w)) rp ->
  handle E (IDelete del) w = (w1, Ok o) ->
  logs_in_any m rp -> ctap_handle E m w1 = (w2, Ok r) -> asserted r id' n -> id' = id.
Proof. exact answers_other_last. Qed.
Print Assumptions C161_other_last_partial.

(* One registration for rpB and two for rpA, in this order; then the one for rpB is deleted. *)
Definition three : list input := [ICtap (msg_mc rpB None); ICtap (msg_mc rpA None); ICtap (msg_mc rpA None)].
Definition full : world := snd (talk (toyE true) three (dev false)).
Definition fewer : world := fst (handle (toyE true) (IDelete (be 16 4)) full).
Definition after : world := fst (ctap_handle (toyE true) login fewer).

Lemma three_good : Forall good_input three.
Proof. repeat (constructor; [apply wfbb_iff; vm_compute; reflexivity|]). constructor. Qed.

Lemma full_ok : client_ok (toyE true) (w_client full).
Proof. exact (talk_ok (toyE true) three (toyE_ok true) (dev false) (dev_ok true false) three_good). Qed.

Lemma full_vault : exists b a1 a2, cl_vault (w_client full) = [b; a1; a2] /\
  cl_vault (w_client fewer) = [a2; a1] /\
  map cs_id [b; a1; a2] = [be 16 4; be 16 13; be 16 22] /\
  map (fun s => rp_id (cs_rp s)) [b; a1; a2] = [rpB; rpA; rpA].
Proof. do 3 eexists. split; [vm_compute; reflexivity|]. split; [vm_compute; reflexivity|]. split; vm_compute; reflexivity. Qed.

Lemma deleted : handle (toyE true) (IDelete (be 16 4)) full = (fewer, Ok (OBool true)).
Proof. vm_compute. reflexivity. Qed.

Lemma fewer_ok : client_ok (toyE true) (w_client fewer).
Proof.
  assert (G : good_input (IDelete (be 16 4))) by (apply wfbb_iff; vm_compute; reflexivity).
  destruct (handle_step (toyE true) _ _ _ _ (toyE_ok true) full_ok G deleted) as (K & _). exact K.
Qed.

Lemma after_facts : ctap_handle (toyE true) login fewer = (after, Ok (answer login fewer)) /\
  exists id n, asserted (answer login fewer) id n.
Proof.
  split; [vm_compute; reflexivity|].
  pose (b := tl (answer login fewer)).
  assert (B : answer login fewer = 0 :: b) by (vm_compute; reflexivity).
  assert (H : ctap_handle (toyE true) (2 :: tl login) fewer = (after, Ok (0 :: b))) by (vm_compute; reflexivity).
  clearbody b.
  assert (W : wfb (tl login)) by (apply wfbb_iff; vm_compute; reflexivity).
  destruct (assertion_facts (toyE true) fewer _ _ b (toyE_ok true) fewer_ok W H) as (a & auth & sig & ad & v1 & s & v2 & s' & x & y & es & _ & Rp & Ha & _).
  exists (cs_id s), (ad_count ad). rewrite B. exists auth, sig, ad. auto.
Qed.

(* The registration for rpB stands first and the one of rpA that answers behind it; the newest one
   can be deleted, and for rpB any but its own when a registration for rpA is the last one. *)
Example C161_ex : oldest_before (cl_vault (w_client full)) rpA (be 16 13) (be 16 22) /\
  oldest (cl_vault (w_client full)) rpB (be 16 4) /\ last_is_other (cl_vault (w_client full)) rpB /\
  oldest (cl_vault (w_client full)) rpA (be 16 13) /\ oldest (cl_vault (w_client fewer)) rpA (be 16 22).
Proof.
  destruct full_vault as (b & a1 & a2 & V & V' & I & R). rewrite V, V'. cbn [map] in I, R.
  injection I as Ib I1 I2. injection R as Rb R1 R2.
  assert (NB : rpB <> rpA) by (vm_compute; discriminate).
  split; [|split; [|split; [|split]]].
  - exists [b], a1, [a2]. split; [reflexivity|]. split; [exact R1|]. split; [exact I1|]. split; [vm_compute; discriminate|].
    intros z [<-|[]]. rewrite Rb, Ib. split; [exact NB|vm_compute; discriminate].
  - exists [], b, [a1; a2]. split; [reflexivity|]. split; [exact Rb|]. split; [exact Ib|]. intros z [].
  - exists [b; a1], a2. split; [reflexivity|]. rewrite R2. intros Q. now apply NB.
  - exists [b], a1, [a2]. split; [reflexivity|]. split; [exact R1|]. split; [exact I1|]. intros z [<-|[]]. now rewrite Rb.
  - exists [], a2, [a1]. split; [reflexivity|]. split; [exact R2|]. split; [exact I2|]. intros z [].
Qed.

Theorem C161_refuted : ~ C161_claim.
Proof.
  intros H. destruct C161_ex as (_ & _ & _ & O & O'). destruct after_facts as (Hl & id & n & A).
  pose proof (login_oldest (toyE true) fewer after login rpA _ id n (toyE_ok true) fewer_ok login_any Hl A) as O2.
  pose proof (oldest_one _ _ _ _ O2 O') as ->.
  assert (W : wfb (be 16 4)) by (apply wfbb_iff; vm_compute; reflexivity).
  assert (N : be 16 13 <> be 16 4) by (vm_compute; discriminate).
  pose proof (H (toyE true) full fewer after (be 16 4) (OBool true) login rpA (be 16 13) (answer login fewer) (be 16 22) n
    (toyE_ok true) full_ok W O N deleted login_any Hl A) as Q. vm_compute in Q. discriminate Q.
Qed.
Print Assumptions C161_refuted.
