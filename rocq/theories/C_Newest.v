(* Which credential answers a login that names none (C160). *)
From Verif Require Import Base M_Str M_Cbor M_Crypto M_Cose M_State M_Client M_Ctap M_U2f M_History.
From Verif Require Import S_Crypto S_Cbor S_Cose S_State S_Client S_Ctap S_CtapReq S_History S_Secret S_Newest.
From Verif Require Import P_Crypto P_Client P_Toy P_Ctap2 P_History P_History2 P_Newest C_History.

(* ---------------------------------------------------------------- C160 *)
(* Whatever is asked of the device but deletions, registrations for the same relying party included:
   a login that names no credential is answered with the one that stood first. *)
Theorem C160_first_answers : forall E is w w' m rp id r id' n, env_ok E -> client_ok E (w_client w) ->
  Forall good_input is -> (forall x, ~ In (IDelete x) is) -> oldest (cl_vault (w_client w)) rp id ->
  logs_in_any m rp -> ctap_handle E m (snd (talk E is w)) = (w', Ok r) -> asserted r id' n -> id' = id.
Proof. exact first_answers. Qed.
Print Assumptions C160_first_answers.

(* A new credential answers when there was none for the relying party, *)
Theorem C160_only_partial : forall E w w1 w2 m1 r1 id x y m2 r2 id' n rp, env_ok E -> client_ok E (w_client w) ->
  (forall s, In s (cl_vault (w_client w)) -> rp_id (cs_rp s) <> rp) ->
  registers m1 rp -> ctap_handle E m1 w = (w1, Ok r1) -> registered r1 id x y ->
  logs_in_any m2 rp -> ctap_handle E m2 w1 = (w2, Ok r2) -> asserted r2 id' n -> id' = id.
Proof. exact only_answers. Qed.
Print Assumptions C160_only_partial.

(* and any credential when it is the one named. *)
Theorem C160_named : forall E w w' m rp id r id' n, env_ok E -> client_ok E (w_client w) -> logs_in_with m rp id ->
  ctap_handle E m w = (w', Ok r) -> asserted r id' n -> id' = id.
Proof. exact named_answers. Qed.
Print Assumptions C160_named.

(* Two registrations for one relying party, then a login. *)
Definition one : world := fst (ctap_handle (toyE true) (msg_mc rpA None) (dev false)).
Definition again : world := fst (ctap_handle (toyE true) (msg_mc rpA None) one).
Definition login : bytes := msg_ga rpA None None None.
Definition done : world := fst (ctap_handle (toyE true) login again).

Lemma login_any : logs_in_any login rpA.
Proof.
  exists (tl login). destruct (unmarshal dec_ga (tl login)) as [a|] eqn:U; [|vm_compute in U; discriminate].
  exists a. split; [vm_compute; reflexivity|]. split; [apply wfbb_iff; vm_compute; reflexivity|]. split; [reflexivity|].
  assert (Q : option_map (fun a => (ga_rp a, ga_allow a)) (unmarshal dec_ga (tl login)) = Some (rpA, None)) by (vm_compute; reflexivity).
  rewrite U in Q. cbn in Q. injection Q as Q1 Q2. auto.
Qed.

Lemma again_registers : registers (msg_mc rpA None) rpA.
Proof.
  exists (tl (msg_mc rpA None)). destruct (unmarshal dec_mc (tl (msg_mc rpA None))) as [a|] eqn:U; [|vm_compute in U; discriminate].
  assert (Q : option_map (fun a => option_map rp_id (mc_rp a)) (unmarshal dec_mc (tl (msg_mc rpA None))) = Some (Some rpA)) by (vm_compute; reflexivity).
  rewrite U in Q. cbn in Q. destruct (mc_rp a) as [e|] eqn:Re; [|discriminate]. cbn in Q. injection Q as Q.
  exists a, e. split; [vm_compute; reflexivity|]. split; [apply wfbb_iff; vm_compute; reflexivity|]. auto.
Qed.

Lemma one_ok : client_ok (toyE true) (w_client one).
Proof.
  assert (H : handle (toyE true) (ICtap (msg_mc rpA None)) (dev false) = (one, snd (handle (toyE true) (ICtap (msg_mc rpA None)) (dev false)))) by (vm_compute; reflexivity).
  assert (G : good_input (ICtap (msg_mc rpA None))) by (apply wfbb_iff; vm_compute; reflexivity).
  destruct (handle_step (toyE true) _ _ _ _ (toyE_ok true) (dev_ok true false) G H) as (K & _). exact K.
Qed.

Definition answer (m : bytes) (w : world) : bytes := match snd (ctap_handle (toyE true) m w) with Ok r => r | Panic => [] end.

Lemma again_facts : exists s x y, cl_vault (w_client again) = app (cl_vault (w_client one)) (s :: nil) /\
  registered (answer (msg_mc rpA None) one) (cs_id s) x y.
Proof.
  pose (b := tl (answer (msg_mc rpA None) one)).
  assert (B : answer (msg_mc rpA None) one = 0 :: b) by (vm_compute; reflexivity).
  assert (H : ctap_handle (toyE true) (1 :: tl (msg_mc rpA None)) one = (again, Ok (0 :: b))) by (vm_compute; reflexivity).
  clearbody b.
  assert (W : wfb (tl (msg_mc rpA None))) by (apply wfbb_iff; vm_compute; reflexivity).
  destruct (registration_verifies (toyE true) one _ again b (toyE_ok true) one_ok W H) as (a & rp & u & auth & sig & cert & ad & i0 & key & x0 & y0 & s & _ & _ & _ & Rs & Ha & _ & _ & _ & _ & At & _ & Ca & _ & _ & V & I & _).
  exists s, (be_dec x0), (be_dec y0). split; [exact V|]. rewrite B. subst i0. exists auth, sig, cert, ad, key, x0, y0. auto 10.
Qed.

Lemma again_ok : client_ok (toyE true) (w_client again).
Proof.
  assert (H : handle (toyE true) (ICtap (msg_mc rpA None)) one = (again, snd (handle (toyE true) (ICtap (msg_mc rpA None)) one))) by (vm_compute; reflexivity).
  assert (G : good_input (ICtap (msg_mc rpA None))) by (apply wfbb_iff; vm_compute; reflexivity).
  destruct (handle_step (toyE true) _ _ _ _ (toyE_ok true) one_ok G H) as (K & _). exact K.
Qed.

Lemma login_facts : exists id n, asserted (answer login again) id n.
Proof.
  pose (b := tl (answer login again)).
  assert (B : answer login again = 0 :: b) by (vm_compute; reflexivity).
  assert (H : ctap_handle (toyE true) (2 :: tl login) again = (done, Ok (0 :: b))) by (vm_compute; reflexivity).
  clearbody b.
  assert (W : wfb (tl login)) by (apply wfbb_iff; vm_compute; reflexivity).
  destruct (assertion_facts (toyE true) again _ _ b (toyE_ok true) again_ok W H) as (a & auth & sig & ad & v1 & s & v2 & s' & x & y & es & _ & Rp & Ha & _).
  exists (cs_id s), (ad_count ad). rewrite B. exists auth, sig, ad. auto.
Qed.

Example C160_ex_ids : map cs_id (cl_vault (w_client again)) = [be 16 4; be 16 13] /\
  oldest (cl_vault (w_client one)) rpA (be 16 4) /\
  (forall s, In s (cl_vault (w_client (dev false))) -> rp_id (cs_rp s) <> rpA) /\
  (exists n, asserted (answer login again) (be 16 4) n).
Proof.
  assert (O : oldest (cl_vault (w_client one)) rpA (be 16 4)).
  { assert (V : exists s, cl_vault (w_client one) = [s] /\ rp_id (cs_rp s) = rpA /\ cs_id s = be 16 4).
    { eexists. split; [vm_compute; reflexivity|]. split; vm_compute; reflexivity. }
    destruct V as (s & V & R & I). exists [], s, []. split; [exact V|]. split; [exact R|]. split; [exact I|]. intros z []. }
  split; [vm_compute; reflexivity|]. split; [exact O|]. split; [intros s []|].
  destruct login_facts as (id & n & A). exists n.
  assert (Q : id = be 16 4); [|now rewrite <- Q].
  assert (Hl : ctap_handle (toyE true) login (snd (talk (toyE true) [ICtap (msg_mc rpA None)] one)) = (done, Ok (answer login again))) by (vm_compute; reflexivity).
  assert (G : Forall good_input [ICtap (msg_mc rpA None)]).
  { constructor; [|constructor]. apply wfbb_iff. vm_compute. reflexivity. }
  refine (first_answers (toyE true) _ one _ login rpA _ _ _ _ (toyE_ok true) one_ok G _ O login_any Hl A).
  intros x [Z|[]]. discriminate Z.
Qed.

Theorem C160_newest_refuted : ~ C160_claim.
Proof.
  intros H. destruct again_facts as (s & x & y & V & R). destruct C160_ex_ids as (Ids & _ & _ & n & A).
  assert (H1 : ctap_handle (toyE true) (msg_mc rpA None) one = (again, Ok (answer (msg_mc rpA None) one))) by (vm_compute; reflexivity).
  assert (H2 : ctap_handle (toyE true) login again = (done, Ok (answer login again))) by (vm_compute; reflexivity).
  pose proof (H (toyE true) one again done (msg_mc rpA None) (answer (msg_mc rpA None) one) (cs_id s) x y login
    (answer login again) (be 16 4) n rpA (toyE_ok true) one_ok again_registers H1 R login_any H2 A) as Q.
  rewrite V, map_app in Ids. cbn [map] in Ids. rewrite <- Q in Ids.
  assert (L : last (map cs_id (cl_vault (w_client one)) ++ [be 16 4]) [] = be 16 4) by apply last_last.
  rewrite Ids in L. vm_compute in L. discriminate L.
Qed.
Print Assumptions C160_newest_refuted.

(* The second one can be had by its name. *)
Example C160_ex_named : exists r, answer (msg_ga rpA (Some [be 16 13]) None None) again = 0 :: r /\
  logs_in_with (msg_ga rpA (Some [be 16 13]) None None) rpA (be 16 13).
Proof.
  exists (tl (answer (msg_ga rpA (Some [be 16 13]) None None) again)). split; [vm_compute; reflexivity|]. exists (tl (msg_ga rpA (Some [be 16 13]) None None)).
  destruct (unmarshal dec_ga (tl (msg_ga rpA (Some [be 16 13]) None None))) as [a|] eqn:U; [|vm_compute in U; discriminate].
  assert (Q : option_map (fun a => (ga_rp a, option_map (map (fun d => or_nil (de_id d))) (ga_allow a)))
     (unmarshal dec_ga (tl (msg_ga rpA (Some [be 16 13]) None None))) = Some (rpA, Some [be 16 13])) by (vm_compute; reflexivity).
  rewrite U in Q. cbn in Q. destruct (ga_allow a) as [l|] eqn:Al; [|discriminate]. cbn in Q. injection Q as Q1 Q2.
  exists a, l. split; [vm_compute; reflexivity|]. split; [apply wfbb_iff; vm_compute; reflexivity|]. split; [reflexivity|].
  split; [exact Q1|]. split; [exact Al|]. intros d D. apply (in_map (fun d => or_nil (de_id d))) in D.
  rewrite Q2 in D. destruct D as [D|[]]. rewrite <- D. vm_compute. reflexivity.
Qed.
