(* Properties of requests that overlap: C80..C87.  A history (M_Overlap) is any sequence of
   starts, arrivals, answers in any order, panics and crashes; [fresh] as in C_History. *)
From Verif Require Import Base M_Cbor M_Crypto M_Cose M_State M_Client M_Ctap M_U2f M_History M_Overlap.
From Verif Require Import S_Crypto S_Cbor S_Cose S_State S_Client S_Ctap S_CtapReq S_Pin S_U2f S_History S_Overlap.
From Verif Require Import P_Crypto P_Client P_Ctap2 P_History P_History2 P_Toy P_ToyHist C_U2f C_History.
From Verif Require Import P_Overlap1 P_Overlap4 P_Overlap5 P_Overlap6 P_Overlap7 P_Overlap8.

Ltac otoy_starts := apply ostarts_toy; repeat (apply Forall_cons; [first [exact I|left; reflexivity|right; reflexivity]|]); apply Forall_nil.

(* Two logins with one credential overlap; the second to arrive is answered first.  Then one more. *)
Definition oscript1 : list omove :=
  [OmStart P0; OmBegin mcA; OmAnswer 0; OmBegin gaA; OmBegin gaA; OmAnswer 1; OmAnswer 0; OmKill;
   OmStart P0; OmBegin gaA; OmAnswer 0].
Definition o1a : bytes := Eval vm_compute in oout (ohist oscript1) 5.
Definition o1b : bytes := Eval vm_compute in oout (ohist oscript1) 6.
Definition o1c : bytes := Eval vm_compute in oout (ohist oscript1) 10.
Definition o1R : bytes := Eval vm_compute in oout (ohist oscript1) 2.
Definition o1id : bytes := Eval vm_compute in match read_reg o1R with Some (i, _, _) => i | None => [] end.
Definition o1x : N := Eval vm_compute in match read_reg o1R with Some (_, x, _) => x | None => 0 end.
Definition o1y : N := Eval vm_compute in match read_reg o1R with Some (_, _, y) => y | None => 0 end.
Definition ohist1 : list oentry :=
  [OStart P0; OBegin 1 mcA; ODone 1 mcA (OBytes o1R); OBegin 3 gaA; OBegin 4 gaA; ODone 4 gaA (OBytes o1a);
   ODone 3 gaA (OBytes o1b); OKill; OStart P0; OBegin 9 gaA; ODone 9 gaA (OBytes o1c)].

Lemma ohist1_ok : ohistory (toyE true) ohist1 (Some []) (oworld oscript1) /\ ostarts_ok (toyE true) ohist1 /\
  fresh (toyE true) (oworld oscript1) /\ len ohist1 < 4294967296.
Proof.
  split; [|split; [unfold ohist1; otoy_starts|split; [apply toy_fresh; vm_compute; reflexivity|reflexivity]]].
  replace (Some (@nil waiting)) with (owait oscript1) by (vm_compute; reflexivity).
  apply oplayed_ok; vm_compute; reflexivity.
Qed.

Lemma o1_counters : asserted o1a o1id 2 /\ asserted o1b o1id 2 /\ asserted o1c o1id 3 /\ registered o1R o1id o1x o1y.
Proof. split; [|split; [|split]]; [apply read_ga_ok..|apply read_reg_ok]; vm_compute; reflexivity. Qed.

(* ---------------------------------------------------------------- C80 *)
(* A request cut at its question does what the whole request does, *)
Theorem C80_cut : forall E i w, handle E i w =
  match begin E i w with
  | (w', Ok (inl o)) => (w', Ok o)
  | (w', Ok (inr p)) => let '(w2, r) := resume E p w' in (w2, match r with Ok b => Ok (OBytes b) | Panic => Panic end)
  | (w', Panic) => (w', Panic)
  end.
Proof. exact cut. Qed.
Print Assumptions C80_cut.

(* so histories without overlap are those of M_History, and the properties proved there hold of them; *)
Theorem C80_serial : forall E h o up w, serial h o ->
  (history E h up w <-> ohistory E o (if up then Some [] else None) w).
Proof. exact serial_same. Qed.
Print Assumptions C80_serial.

(* a request is answered at most once, after it arrived, and with its own answer. *)
Theorem C80_answered_once : forall E h l w, env_ok E -> ohistory E h l w -> ostarts_ok E h ->
  NoDup (answered_numbers h) /\
  forall h1 n i o h2, h = h1 ++ ODone n i o :: h2 -> exists a b, h1 = a ++ OBegin n i :: b /\ length a = n.
Proof. exact onumbers. Qed.
Print Assumptions C80_answered_once.

Example C80_example : answered_numbers ohist1 = [1; 4; 3; 9]%nat /\
  serial [HStart P0; HDone mcA (OBytes r1A)] [OStart P0; OBegin 1 mcA; ODone 1 mcA (OBytes r1A)] /\
  ohistory (toyE true) [OStart P0; OBegin 1 mcA; ODone 1 mcA (OBytes r1A)] (Some []) (oworld [OmStart P0; OmBegin mcA; OmAnswer 0]).
Proof.
  split; [reflexivity|]. split.
  - apply (Se_done [HStart P0] [OStart P0]). apply (Se_start [] []). constructor.
  - replace (Some (@nil waiting)) with (owait [OmStart P0; OmBegin mcA; OmAnswer 0]) by (vm_compute; reflexivity).
    apply oplayed_ok; vm_compute; reflexivity.
Qed.

(* ---------------------------------------------------------------- C81 *)
Definition C81_full : Prop := forall E h1 n1 d1 r1 h2 n2 d2 r2 h3 l w id c1 c2, env_ok E ->
  let h := h1 ++ ODone n1 (ICtap (2 :: d1)) (OBytes r1) :: h2 ++ ODone n2 (ICtap (2 :: d2)) (OBytes r2) :: h3 in
  ohistory E h l w -> ostarts_ok E h -> fresh E w -> len h < 4294967296 ->
  asserted r1 id c1 -> asserted r2 id c2 -> c1 < c2.

(* Never smaller, and larger if the second login began after the first was answered. *)
Theorem C81_counters_partial : forall E h1 n1 d1 r1 h2 n2 d2 r2 h3 l w id c1 c2, env_ok E ->
  let h := h1 ++ ODone n1 (ICtap (2 :: d1)) (OBytes r1) :: h2 ++ ODone n2 (ICtap (2 :: d2)) (OBytes r2) :: h3 in
  ohistory E h l w -> ostarts_ok E h -> fresh E w -> len h < 4294967296 ->
  asserted r1 id c1 -> asserted r2 id c2 ->
  c1 <= c2 /\ (In (OBegin n2 (ICtap (2 :: d2))) h2 -> c1 < c2).
Proof. exact ocounters. Qed.
Print Assumptions C81_counters_partial.

(* Two that overlap report the same counter. *)
Theorem C81_overlap_refuted : ~ C81_full.
Proof.
  intro H. destruct ohist1_ok as (A & B & C & D). destruct o1_counters as (U & V & _).
  specialize (H (toyE true) [OStart P0; OBegin 1 mcA; ODone 1 mcA (OBytes o1R); OBegin 3 gaA; OBegin 4 gaA] 4%nat
    (tl (msg_ga rpA None None None)) o1a [] 3%nat (tl (msg_ga rpA None None None)) o1b
    [OKill; OStart P0; OBegin 9 gaA; ODone 9 gaA (OBytes o1c)] _ _ o1id 2 2 (toyE_ok true) A B C D U V). lia.
Qed.
Print Assumptions C81_overlap_refuted.

Example C81_example : ohistory (toyE true) ohist1 (Some []) (oworld oscript1) /\
  asserted o1a o1id 2 /\ asserted o1b o1id 2 /\ asserted o1c o1id 3 /\
  In (OBegin 9 gaA) [ODone 3 gaA (OBytes o1b); OKill; OStart P0; OBegin 9 gaA].
Proof.
  split; [apply ohist1_ok|]. destruct o1_counters as (A & B & C & _). do 3 (split; [assumption|]). cbn. auto 6.
Qed.

(* ---------------------------------------------------------------- C82 *)
Definition C82_full : Prop := forall E h1 n1 id h2 n2 d2 r2 h3 l w c, env_ok E ->
  let h := h1 ++ ODone n1 (IDelete id) (OBool true) :: h2 ++ ODone n2 (ICtap (2 :: d2)) (OBytes r2) :: h3 in
  ohistory E h l w -> ostarts_ok E h -> fresh E w -> len h < 4294967296 -> ~ asserted r2 id c.

(* A login that began after the deletion does not use the credential. *)
Theorem C82_deleted_partial : forall E h1 n1 id h2 n2 d2 r2 h3 l w c, env_ok E ->
  let h := h1 ++ ODone n1 (IDelete id) (OBool true) :: h2 ++ ODone n2 (ICtap (2 :: d2)) (OBytes r2) :: h3 in
  ohistory E h l w -> ostarts_ok E h -> fresh E w -> len h < 4294967296 ->
  In (OBegin n2 (ICtap (2 :: d2))) h2 -> ~ asserted r2 id c.
Proof. exact odeleted. Qed.
Print Assumptions C82_deleted_partial.

(* One that was waiting then still signs with it. *)
Definition oscript2 : list omove :=
  [OmStart P0; OmBegin mcA; OmAnswer 0; OmBegin gaA; OmBegin (IDelete o1id); OmAnswer 0; OmBegin gaA].
Definition o2a : bytes := Eval vm_compute in oout (ohist oscript2) 6.
Definition ohist2 : list oentry :=
  [OStart P0; OBegin 1 mcA; ODone 1 mcA (OBytes o1R); OBegin 3 gaA; OBegin 4 (IDelete o1id); ODone 4 (IDelete o1id) (OBool true);
   ODone 3 gaA (OBytes o2a); OBegin 7 gaA; ODone 7 gaA (OBytes [46])].

Lemma ohist2_ok : ohistory (toyE true) ohist2 (Some []) (oworld oscript2) /\ ostarts_ok (toyE true) ohist2 /\
  fresh (toyE true) (oworld oscript2) /\ len ohist2 < 4294967296.
Proof.
  split; [|split; [unfold ohist2; otoy_starts|split; [apply toy_fresh; vm_compute; reflexivity|reflexivity]]].
  replace (Some (@nil waiting)) with (owait oscript2) by (vm_compute; reflexivity).
  apply oplayed_ok; vm_compute; reflexivity.
Qed.

Theorem C82_waiting_refuted : ~ C82_full.
Proof.
  intro H. destruct ohist2_ok as (A & B & C & D).
  apply (H (toyE true) [OStart P0; OBegin 1 mcA; ODone 1 mcA (OBytes o1R); OBegin 3 gaA; OBegin 4 (IDelete o1id)] 4%nat o1id []
    3%nat (tl (msg_ga rpA None None None)) o2a [OBegin 7 gaA; ODone 7 gaA (OBytes [46])] _ _ 1 (toyE_ok true) A B C D).
  apply read_ga_ok. vm_compute. reflexivity.
Qed.
Print Assumptions C82_waiting_refuted.

Example C82_example : ohistory (toyE true) ohist2 (Some []) (oworld oscript2) /\
  In (OBegin 7 gaA) [ODone 3 gaA (OBytes o2a); OBegin 7 gaA].
Proof. split; [apply ohist2_ok|cbn; auto]. Qed.

(* ---------------------------------------------------------------- C83 *)
Definition C83_full : Prop := forall E h n d b l w l' w' a, env_ok E ->
  ohistory E h l w -> ohistory E (h ++ [ODone n (ICtap (1 :: d)) (OBytes (0 :: b))]) l' w' -> 
  ostarts_ok E h -> unmarshal dec_mc d = Some a -> cl_pin (w_client w) = true ->
  mc_auth a <> None \/ cl_hash (w_client w) = None.

(* The PIN was checked when the registration began. *)
Theorem C83_gate_partial : forall E h1 n d b h2 l w, env_ok E ->
  let h := h1 ++ ODone n (ICtap (1 :: d)) (OBytes (0 :: b)) :: h2 in
  ohistory E h l w -> ostarts_ok E h ->
  exists h0 k l0 w0 a, h1 = h0 ++ OBegin n (ICtap (1 :: d)) :: k /\ ohistory E h0 (Some l0) w0 /\ unmarshal dec_mc d = Some a /\
    (cl_pin (w_client w0) = true ->
     mc_verified (e_C E) (w_client w0) a \/ (mc_auth a = None /\ cl_hash (w_client w0) = None)).
Proof. exact ogate. Qed.
Print Assumptions C83_gate_partial.

(* A PIN set while it waits is not asked for. *)
Definition oscript3 : list omove := [OmStart (toyP true); OmBegin mcA; OmBegin (ISetPin pin1)].
Definition ohist3 : list oentry := [OStart (toyP true); OBegin 1 mcA; OBegin 2 (ISetPin pin1); ODone 2 (ISetPin pin1) OUnit].
Definition o3R : bytes := Eval vm_compute in oout (ohist (oscript3 ++ [OmAnswer 0])) 4.

Lemma ohist3_ok : ohistory (toyE true) ohist3 (owait oscript3) (oworld oscript3) /\ ostarts_ok (toyE true) ohist3 /\
  ohistory (toyE true) (ohist3 ++ [ODone 1 mcA (OBytes (0 :: tl o3R))]) (owait (oscript3 ++ [OmAnswer 0])) (oworld (oscript3 ++ [OmAnswer 0])).
Proof.
  split; [apply oplayed_ok; vm_compute; reflexivity|]. split; [unfold ohist3; otoy_starts|].
  apply oplayed_ok; vm_compute; reflexivity.
Qed.

Theorem C83_later_pin_refuted : ~ C83_full.
Proof.
  intro H. destruct ohist3_ok as (A & B & C).
  assert (X : exists a, unmarshal dec_mc (tl (msg_mc rpA None)) = Some a /\ mc_auth a = None).
  { eexists. split; [vm_compute; reflexivity|reflexivity]. }
  destruct X as (a & U & N).
  destruct (H (toyE true) ohist3 1%nat (tl (msg_mc rpA None)) (tl o3R) _ _ _ _ a (toyE_ok true) A C B U) as [Q|Q].
  - vm_compute. reflexivity.
  - now apply Q.
  - vm_compute in Q. discriminate Q.
Qed.
Print Assumptions C83_later_pin_refuted.

Example C83_example : ohistory (toyE true) (ohist3 ++ [ODone 1 mcA (OBytes (0 :: tl o3R))])
    (owait (oscript3 ++ [OmAnswer 0])) (oworld (oscript3 ++ [OmAnswer 0])) /\
  snd (handle (toyE true) mcA (oworld oscript3)) = Ok (OBytes [54]).
Proof. split; [apply ohist3_ok|vm_compute; reflexivity]. Qed.

(* ---------------------------------------------------------------- C84 *)
Theorem C84_assertion_verifies : forall E h1 n1 d1 r1 h2 n2 d2 r2 h3 l w id x y auth sig, env_ok E ->
  let h := h1 ++ ODone n1 (ICtap (1 :: d1)) (OBytes r1) :: h2 ++ ODone n2 (ICtap (2 :: d2)) (OBytes r2) :: h3 in
  ohistory E h l w -> ostarts_ok E h -> fresh E w -> len h < 4294967296 ->
  registered r1 id x y -> response (assertion_doc id auth sig) r2 ->
  exists a ad, unmarshal dec_ga d2 = Some a /\
    ecdsa_verify (e_C E) (x, y) (sha256 (e_C E) (auth ++ or_nil (ga_hash a))) sig = true /\
    has_auth_data auth ad /\ ad_rp_hash ad = sha256 (e_C E) (ga_rp a).
Proof. exact overifies. Qed.
Print Assumptions C84_assertion_verifies.

Example C84_example : ohistory (toyE true) ohist2 (Some []) (oworld oscript2) /\ registered o1R o1id o1x o1y /\
  exists auth sig, response (assertion_doc o1id auth sig) o2a.
Proof.
  split; [apply ohist2_ok|]. split; [apply o1_counters|].
  destruct (read_ga_ok o2a o1id 1) as (auth & sig & ad & X & _); [vm_compute; reflexivity|eauto].
Qed.

(* ---------------------------------------------------------------- C85 *)
Theorem C85_starts_succeed : forall E h l w p, env_ok E -> ohistory E h l w -> ostarts_ok E h -> ~ In (OStartFailed p) h.
Proof. exact ostarts_succeed. Qed.
Print Assumptions C85_starts_succeed.

Theorem C85_credentials_stay : forall E h1 n d1 r1 h2 l w id x y, env_ok E ->
  let h := h1 ++ ODone n (ICtap (1 :: d1)) (OBytes r1) :: h2 in
  ohistory E h l w -> ostarts_ok E h -> registered r1 id x y ->
  (forall e, In e h2 -> oinput e <> Some (IDelete id)) ->
  (l <> None -> exists s, In s (cl_vault (w_client w)) /\ cs_id s = id /\ public_of (cs_key s) x y) /\
  exists c, saved_client E w c /\ exists s, In s (cl_vault c) /\ cs_id s = id /\ public_of (cs_key s) x y.
Proof. exact ocredentials_stay. Qed.
Print Assumptions C85_credentials_stay.

Theorem C85_pin_stays : forall E h1 n pin h2 l w, env_ok E ->
  let h := h1 ++ ODone n (ISetPin pin) OUnit :: h2 in
  ohistory E h l w -> ostarts_ok E h ->
  (forall e i, In e h2 -> oinput e = Some i -> ~ may_change_pin i) ->
  (l <> None -> cl_hash (w_client w) = Some (firstn 16 (sha256 (e_C E) pin))) /\
  exists c, saved_client E w c /\ cl_hash c = Some (firstn 16 (sha256 (e_C E) pin)).
Proof. exact opin_stays. Qed.
Print Assumptions C85_pin_stays.

(* A registration overlaps with a PIN being set; both are kept. *)
Example C85_example : (exists id x y, registered o3R id x y) /\ ~ may_change_pin mcA /\
  cl_hash (w_client (oworld (oscript3 ++ [OmAnswer 0]))) <> None /\
  length (cl_vault (w_client (oworld (oscript3 ++ [OmAnswer 0])))) = 1%nat.
Proof.
  split; [do 3 eexists; apply read_reg_ok; vm_compute; reflexivity|]. split; [intros (d & a & X & _); discriminate X|].
  split; [vm_compute; discriminate|vm_compute; reflexivity].
Qed.

(* ---------------------------------------------------------------- C86 *)
(* For every kind of question: no more approved answers than times the user said yes. *)
Theorem C86_approved : forall E a h l w, env_ok E -> ohistory E h l w -> ostarts_ok E h ->
  (approved a h <= said_yes a (w_trace w))%nat.
Proof. exact oapproved. Qed.
Print Assumptions C86_approved.

Example C86_example : approved ActGetAssertion ohist1 = 3%nat /\ said_yes ActGetAssertion (w_trace (oworld oscript1)) = 3%nat /\
  approved ActMakeCredential ohist1 = 1%nat.
Proof. split; [|split]; vm_compute; reflexivity. Qed.

(* ---------------------------------------------------------------- C87 *)
(* In one process; requests overlap at their questions only (races on the counter: C51). *)
Theorem C87_u2f_counters : forall E h1 n1 i1 o1 h2 n2 i2 o2 h3 l w k1 k2, env_ok E ->
  let h := h1 ++ ODone n1 i1 o1 :: h2 ++ ODone n2 i2 o2 :: h3 in
  ohistory E h l w -> ostarts_ok E h -> no_ostart h2 -> len h < 4294967295 ->
  u2f_counter (HDone i1 o1) k1 -> u2f_counter (HDone i2 o2) k2 -> k1 < k2.
Proof. exact ou2f_counters. Qed.
Print Assumptions C87_u2f_counters.

Theorem C87_guesses_limited : forall E h1 h2 l w, env_ok E -> ohistory E (h1 ++ h2) l w -> ostarts_ok E (h1 ++ h2) ->
  no_ostart h2 -> (forall e, In e (answers_in h2) -> ~ right_pin e) ->
  (wrong_count (answers_in h2) <= 8)%Z /\ (l <> None -> wrong_count (answers_in h2) + cl_retries (w_client w) <= 8)%Z.
Proof. exact oguesses_limited. Qed.
Print Assumptions C87_guesses_limited.

(* Two U2F authentications answered in the reverse order; wrong PINs while a login waits. *)
Definition oscript4 : list omove := [OmStart P0; OmBegin reg4; OmAnswer 0; OmBegin auth4; OmBegin auth4; OmAnswer 1; OmAnswer 0].
Definition oscript5 : list omove := [OmStart (toyP true); OmBegin setpin; OmBegin gaA; OmBegin guess; OmBegin guess].
Example C87_example :
  map oinput (ohist oscript4) = [None; Some reg4; Some reg4; Some auth4; Some auth4; Some auth4; Some auth4] /\
  u2f_counter (HDone auth4 (OBytes (oout (ohist oscript4) 5))) 1 /\ u2f_counter (HDone auth4 (OBytes (oout (ohist oscript4) 6))) 2 /\
  wrong_count (answers_in (skipn 3 (ohist oscript5))) = 2%Z /\
  cl_retries (w_client (oworld oscript5)) = 6%Z.
Proof.
  split; [vm_compute; reflexivity|]. split; [apply counter4; vm_compute; reflexivity|].
  split; [apply counter4; vm_compute; reflexivity|]. split; vm_compute; reflexivity.
Qed.
