(* Properties C112 and C113: several processes of the demo on one vault file. *)
From Verif Require Import Base M_Cbor M_Crypto M_Cose M_State M_Client M_Ctap M_U2f M_History M_Procs.
From Verif Require Import S_Crypto S_Cbor S_Cose S_State S_Client S_Ctap S_U2f S_History S_Procs.
From Verif Require Import P_Crypto P_Client P_Ctap2 P_History P_History2 P_Procs1 P_Procs2 P_Toy P_ToyHist C_U2f C_History.

(* ---------------------------------------------------------------- C112 *)
(* Once the file can be opened with a passphrase it always can. *)
Definition C112_full : Prop := forall E t l1 s1 n1 l2 s2 n2 pass c, env_ok E ->
  Forall (label_ok E) (l1 ++ l2) -> sys_run E (sys_init t) l1 = Some (s1, n1) -> sys_run E s1 l2 = Some (s2, n2) ->
  (forall k pass p, In (NStart k pass p) (n1 ++ n2) -> params_ok E p) ->
  file_holds (with_pass E pass) (sy_file s1) c -> exists c', file_holds (with_pass E pass) (sy_file s2) c'.

(* It holds if no process got to run with another one.  Then a start with the right passphrase never
   fails, whatever other processes do at the same time. *)
Theorem C112_opens_partial : forall E t ls s ns, env_ok E -> Forall (label_ok E) ls ->
  sys_run E (sys_init t) ls = Some (s, ns) -> one_passphrase E ns ->
  (sy_file s = None \/ exists c, client_ok E c /\ file_holds E (sy_file s) c) /\
  (forall k p, ~ In (NStartFailed k (e_pass E) p) ns) /\
  forall p w, exists w', start E p (sy_file s) w = (w', Ok tt).
Proof.
  intros E t ls s ns L F R O. destruct (good_run E t ls s ns L F R O) as ([G _] & NF). split; [|split; [exact NF|]].
  - unfold good_file in G. destruct (sy_file s) as [d|]; [right|now left]. destruct G as (c & K & D). exists c. split; [exact K|]. exists d. auto.
  - intros p w. destruct (start_good E p (sy_file s) w L G) as (w' & H & _). eauto.
Qed.
Print Assumptions C112_opens_partial.

(* A process that fails to start, as with the wrong passphrase, changes nothing. *)
Theorem C112_failed_start : forall E s k pass p s' , sys_step E s (PStart k pass p) = Some (s', [NStartFailed k pass p]) ->
  sy_file s' = sy_file s /\ sy_procs s' = sy_procs s.
Proof.
  intros E s k pass p s' H. cbn [sys_step] in H. destruct (sy_procs s k); [discriminate|].
  destruct (start _ _ _ _) as [w' [u|]]; [discriminate|]. injection H as <-. split; reflexivity.
Qed.
Print Assumptions C112_failed_start.

(* Requests of the examples, to the end. *)
Definition does (k : N) (i : input) (m : nat) : list label := PBegin k i :: repeat (PStep k) m ++ [PAnswer k].
Definition pass0 : bytes := e_pass (toyE true).
Definition pass1 : bytes := [1; 2; 3].
Definition ended (s : option (sys * list note)) : sys := match s with Some (x, _) => x | None => sys_init 0 end.
Definition noted (s : option (sys * list note)) : list note := match s with Some (_, n) => n | None => [] end.
Lemma ran s x : match s with Some _ => true | None => false end = true -> noted s = x -> s = Some (ended s, x).
Proof. destruct s as [[a b]|]; cbn; congruence. Qed.
Notation at_run t ls := (sys_run (toyE true) (sys_init t) ls).


Lemma toy_file t ls s ns c0 : Forall (label_ok (toyE true)) ls -> sys_run (toyE true) (sys_init t) ls = Some (s, ns) ->
  one_passphrase (toyE true) ns -> sy_file s = Some c0 -> exists c, file_holds (toyE true) (Some c0) c.
Proof.
  intros F R O Q. destruct (C112_opens_partial (toyE true) t ls s ns (toyE_ok true) F R O) as ([X|(c & _ & X)] & _); [congruence|].
  exists c. now rewrite <- Q.
Qed.

Lemma toy_starts_ok ns : Forall (fun n => match n with NStart _ pass p => pass = pass0 /\ (p = toyP false \/ p = toyP true) | _ => True end) ns ->
  one_passphrase (toyE true) ns.
Proof.
  rewrite Forall_forall. intros H k pass p I. destruct (H _ I) as [-> [-> | ->]]; split; try reflexivity; apply toyP_ok.
Qed.
Ltac notes_ok := apply toy_starts_ok; repeat (apply Forall_cons; [first [exact I|split; [reflexivity|left; reflexivity]|split; [reflexivity|right; reflexivity]]|]); apply Forall_nil.
Ltac labels_ok := repeat (apply Forall_cons; [first [exact I|cbn [label_ok good_input]; apply wfbb_iff; vm_compute; reflexivity]|]); apply Forall_nil.

(* Two processes are started while there is no file.  The first saves a registration, then the second
   does: after that the file cannot be opened with the passphrase of the first. *)
Definition run0 : list label := PStart 2 pass1 P0 :: PStart 1 pass0 P0 :: does 1 mcA 2.
Definition r0A : bytes := Eval vm_compute in match noted (at_run 0 run0) with [_; _; NDone _ _ (OBytes r)] => r | _ => [] end.
Definition run0' : list label := PStart 1 pass0 P0 :: does 1 mcA 2.
Definition f0 : bytes := Eval vm_compute in match sy_file (ended (at_run 0 run0)) with Some d => d | None => [] end.

Lemma run0_file : exists c, file_holds (toyE true) (Some f0) c.
Proof.
  apply (toy_file 2 run0' (ended (at_run 2 run0')) [NStart 1 pass0 P0; NDone 1 mcA (OBytes r0A)]).
  - unfold run0', does. cbn [app repeat]. labels_ok.
  - apply ran; vm_compute; reflexivity.
  - notes_ok.
  - vm_compute. reflexivity.
Qed.

Theorem C112_passphrase_refuted : ~ C112_full.
Proof.
  intro H. destruct run0_file as (c & F).
  destruct (H (toyE true) 0 run0 (ended (at_run 0 run0)) [NStart 2 pass1 P0; NStart 1 pass0 P0; NDone 1 mcA (OBytes r0A)]
    (does 2 mcB 2) (ended (sys_run (toyE true) (ended (at_run 0 run0)) (does 2 mcB 2)))
    (noted (sys_run (toyE true) (ended (at_run 0 run0)) (does 2 mcB 2))) pass0 c (toyE_ok true)) as (c' & d & Q & _ & cf & X & _).
  - unfold run0, does. cbn [app repeat]. labels_ok.
  - apply ran; vm_compute; reflexivity.
  - apply ran; vm_compute; reflexivity.
  - intros k pass p I.
    assert (X : forall n, In n (noted (sys_run (toyE true) (ended (at_run 0 run0)) (does 2 mcB 2))) -> match n with NDone _ _ _ => True | _ => False end).
    { apply Forall_forall. vm_compute. repeat constructor. }
    apply in_app_iff in I as [I|I]; [|exfalso; exact (X _ I)].
    destruct I as [I|[I|[I|[]]]]; try discriminate I; injection I as <- <- <-; apply toyP_ok.
  - replace (sy_file (ended (at_run 0 run0))) with (Some f0) by (vm_compute; reflexivity).
    unfold pass0. rewrite with_own_pass. exact F.
  - assert (Y : match sy_file (ended (sys_run (toyE true) (ended (at_run 0 run0)) (does 2 mcB 2))) with
                | Some d => match decrypt_fido_state (e_C (toyE true)) d pass0 with Ok (Some _) => true | _ => false end
                | None => false end = false) by (vm_compute; reflexivity).
    rewrite Q in Y. cbn [e_C e_pass with_pass] in X. rewrite X in Y. discriminate Y.
Qed.
Print Assumptions C112_passphrase_refuted.

(* A run with two processes at once, both with the right passphrase, and a start with a wrong one. *)
Definition run1 : list label := PStart 1 pass0 P0 :: does 1 mcA 2 ++ PStart 2 pass0 P0 :: PStart 3 pass1 P0 :: does 2 mcB 2 ++ does 1 gaA 2.
Example C112_example : exists s r1 r2 r3, at_run 0 run1 = Some (s, [NStart 1 pass0 P0; NDone 1 mcA (OBytes r1); NStart 2 pass0 P0;
    NStartFailed 3 pass1 P0; NDone 2 mcB (OBytes r2); NDone 1 gaA (OBytes r3)]) /\
  one_passphrase (toyE true) [NStart 1 pass0 P0; NDone 1 mcA (OBytes r1); NStart 2 pass0 P0;
    NStartFailed 3 pass1 P0; NDone 2 mcB (OBytes r2); NDone 1 gaA (OBytes r3)] /\ Forall (label_ok (toyE true)) run1.
Proof.
  exists (ended (at_run 0 run1)). eexists. eexists. eexists. split; [apply ran; vm_compute; reflexivity|].
  split; [notes_ok|]. unfold run1, does. cbn [app repeat]. labels_ok.
Qed.

(* ---------------------------------------------------------------- C113 *)
(* A credential that some process reported as deleted is never used again, by any. *)
Definition C113_full : Prop := forall E t ls s n1 k id n2 k' d2 r2 n3 n, env_ok E ->
  let ns := n1 ++ NDone k (IDelete id) (OBool true) :: n2 ++ NDone k' (ICtap (2 :: d2)) (OBytes r2) :: n3 in
  Forall (label_ok E) ls -> sys_run E (sys_init t) ls = Some (s, ns) -> one_passphrase E ns ->
  fresh_until E (sy_tick s) -> len ns < 4294967296 -> ~ asserted r2 id n.

(* It holds if the processes run one after another. *)
Theorem C113_deleted_partial : forall E t ls s n1 k id n2 k' d2 r2 n3 n, env_ok E ->
  let ns := n1 ++ NDone k (IDelete id) (OBool true) :: n2 ++ NDone k' (ICtap (2 :: d2)) (OBytes r2) :: n3 in
  Forall (label_ok E) ls -> sys_run E (sys_init t) ls = Some (s, ns) -> one_passphrase E ns ->
  fresh_until E (sy_tick s) -> len ns < 4294967296 ->
  one_at_a_time ns -> (forall k pass p, ~ In (NStartFailed k pass p) ns) -> ~ asserted r2 id n.
Proof.
  intros E t ls s n1 k id n2 k' d2 r2 n3 n L ns LK R O F LN A NF.
  destruct (sequential_history E t ls s ns L LK R O NF A) as (up & w & H & ST & T & _). unfold ns in *.
  repeat (rewrite map_app in H, ST; cbn [map entry_of] in H, ST).
  refine (deleted_gone E _ _ _ _ _ up w id n L H ST _ _).
  - intros i j I J. apply F; lia.
  - unfold len in *. rewrite !app_length, ?map_length in *. cbn [length] in *. rewrite !app_length in *. cbn [length] in *. rewrite !map_length. exact LN.
Qed.
Print Assumptions C113_deleted_partial.

(* In general a process never learns what the others did to the file, and its next assertion puts its
   own credentials and its own PIN there, deleted and outdated ones included. *)
Theorem C113_overwrites : forall E s0 ls s1 n1 k c d m s2 r id n, env_ok E -> client_ok E c -> wfb d ->
  sy_procs s0 k = Some (mk_proc (e_pass E) c None) -> sys_run E s0 ls = Some (s1, n1) ->
  Forall (fun l => label_of l <> k) ls ->
  sys_run E s1 (PBegin k (ICtap (2 :: d)) :: repeat (PStep k) m ++ [PAnswer k]) = Some (s2, [NDone k (ICtap (2 :: d)) (OBytes r)]) ->
  asserted r id n ->
  exists c', file_holds E (sy_file s2) c' /\ map cs_id (cl_vault c') = map cs_id (cl_vault c) /\
    cl_hash c' = cl_hash c /\ cl_pin c' = cl_pin c.
Proof. exact overwritten. Qed.
Print Assumptions C113_overwrites.

(* The command `delete` while the device runs: the device goes on using the credential. *)
Definition run2 : list label := PStart 1 pass0 P0 :: does 1 mcA 2 ++ PStart 2 pass0 P0 :: does 2 (IDelete idA) 1 ++ PStop 2 :: does 1 gaA 2.
Definition r2b : bytes := Eval vm_compute in match rev (noted (at_run 0 run2)) with NDone _ _ (OBytes r) :: _ => r | _ => [] end.
Definition notes2 : list note := [NStart 1 pass0 P0; NDone 1 mcA (OBytes r1A); NStart 2 pass0 P0; NDone 2 (IDelete idA) (OBool true);
  NStop 2 None; NDone 1 gaA (OBytes r2b)].
Lemma run2_is : at_run 0 run2 = Some (ended (at_run 0 run2), notes2).
Proof. apply ran; vm_compute; reflexivity. Qed.

Lemma toy_fresh_until t : t < 1000000 -> fresh_until (toyE true) t.
Proof. intros T. exact (toy_fresh true {| w_client := w_client blank; w_tick := t; w_trace := [] |} T). Qed.

Theorem C113_overlap_refuted : ~ C113_full.
Proof.
  intro H. refine (H (toyE true) 0 run2 (ended (at_run 0 run2)) [NStart 1 pass0 P0; NDone 1 mcA (OBytes r1A); NStart 2 pass0 P0] 2 idA [NStop 2 None] 1
    (tl (msg_ga rpA None None None)) r2b [] 1 (toyE_ok true) _ run2_is _ _ _ _).
  - unfold run2, does. cbn [app repeat]. labels_ok.
  - cbn [app]. notes_ok.
  - apply toy_fresh_until. vm_compute. reflexivity.
  - vm_compute. reflexivity.
  - apply read_ga_ok. vm_compute. reflexivity.
Qed.
Print Assumptions C113_overlap_refuted.

(* The same with the device stopped in between. *)
Definition run3 : list label := PStart 1 pass0 P0 :: does 1 mcA 2 ++ PStop 1 :: PStart 2 pass0 P0 :: does 2 (IDelete idA) 1 ++
  PStop 2 :: PStart 1 pass0 P0 :: does 1 gaA 0.
Definition notes3 : list note := [NStart 1 pass0 P0; NDone 1 mcA (OBytes r1A); NStop 1 None; NStart 2 pass0 P0;
  NDone 2 (IDelete idA) (OBool true); NStop 2 None; NStart 1 pass0 P0; NDone 1 gaA (OBytes [46])].
Lemma run3_is : at_run 0 run3 = Some (ended (at_run 0 run3), notes3).
Proof. apply ran; vm_compute; reflexivity. Qed.

(* One after another, decided. *)
Fixpoint in_turn (past ns : list note) : bool :=
  match ns with
  | [] => true
  | n :: r => (match n with NStart _ _ _ | NStartFailed _ _ _ => match live past with [] => true | _ => false end | _ => true end &&
               in_turn (past ++ [n]) r)%bool
  end.
Lemma in_turn_ok ns : forall past, in_turn past ns = true -> forall n1 n n2, ns = n1 ++ n :: n2 ->
  match n with NStart _ _ _ | NStartFailed _ _ _ => live (past ++ n1) = [] | _ => True end.
Proof.
  induction ns as [|a r IH]; intros past H n1 n n2 Q; [destruct n1; discriminate|].
  cbn [in_turn] in H. apply andb_prop in H as [H1 H2]. destruct n1 as [|b n1]; cbn [app] in Q; injection Q as <- Q.
  - rewrite app_nil_r. destruct a; auto; destruct (live past); auto; discriminate.
  - specialize (IH _ H2 n1 n n2 Q). rewrite <- app_assoc in IH. exact IH.
Qed.
Lemma turns ns : in_turn [] ns = true -> one_at_a_time ns.
Proof. intros H n1 n n2 Q. exact (in_turn_ok ns [] H n1 n n2 Q). Qed.

Example C113_example : at_run 0 run3 = Some (ended (at_run 0 run3), notes3) /\ one_passphrase (toyE true) notes3 /\
  one_at_a_time notes3 /\ fresh_until (toyE true) (sy_tick (ended (at_run 0 run3))) /\ ~ one_at_a_time notes2.
Proof.
  split; [apply run3_is|]. split; [unfold notes3; notes_ok|]. split; [apply turns; vm_compute; reflexivity|].
  split; [apply toy_fresh_until; vm_compute; reflexivity|].
  intro H. specialize (H [NStart 1 pass0 P0; NDone 1 mcA (OBytes r1A)] _ _ eq_refl). discriminate H.
Qed.

Definition mid2 : list label := PStart 2 pass0 P0 :: does 2 (IDelete idA) 1 ++ [PStop 2].
Definition s2a : sys := ended (at_run 0 run0').
Definition s2b : sys := ended (sys_run (toyE true) s2a mid2).
Example C113_overwrites_example : exists c s2 n1, client_ok (toyE true) c /\ sy_procs s2a 1 = Some (mk_proc (e_pass (toyE true)) c None) /\
  sys_run (toyE true) s2a mid2 = Some (s2b, n1) /\ Forall (fun l => label_of l <> 1) mid2 /\
  sys_run (toyE true) s2b (does 1 gaA 2) = Some (s2, [NDone 1 gaA (OBytes r2b)]) /\ asserted r2b idA 1.
Proof.
  assert (R : at_run 0 run0' = Some (s2a, [NStart 1 pass0 P0; NDone 1 mcA (OBytes r1A)])) by (apply ran; vm_compute; reflexivity).
  destruct (fun a b => good_run (toyE true) 0 run0' s2a _ (toyE_ok true) a R b) as ([_ G] & _).
  - unfold run0', does. cbn [app repeat]. labels_ok.
  - notes_ok.
  - assert (Y : match sy_procs s2a 1 with Some (mk_proc p _ None) => bytes_eqb p (e_pass (toyE true)) | _ => false end = true)
      by (vm_compute; reflexivity).
    destruct (sy_procs s2a 1) as [[p c [|]]|] eqn:K; try discriminate Y. apply bytes_eqb_eq in Y. subst p.
    exists c, (ended (sys_run (toyE true) s2b (does 1 gaA 2))), (noted (sys_run (toyE true) s2a mid2)).
    split; [exact (proj1 (proj2 (G _ _ K)))|]. split; [reflexivity|]. split; [apply ran; vm_compute; reflexivity|].
    split; [unfold mid2, does; cbn [app repeat]; repeat (apply Forall_cons; [discriminate|]); apply Forall_nil|].
    split; [apply ran; vm_compute; reflexivity|]. apply read_ga_ok. vm_compute. reflexivity.
Qed.

(* ---------------------------------------------------------------- C114 *)
(* When no request is under way, a registered credential that nobody deleted is in the file. *)
Definition C114_full : Prop := forall E t ls s n1 k d1 r1 n2 id x y, env_ok E ->
  let ns := n1 ++ NDone k (ICtap (1 :: d1)) (OBytes r1) :: n2 in
  Forall (label_ok E) ls -> sys_run E (sys_init t) ls = Some (s, ns) -> one_passphrase E ns ->
  registered r1 id x y -> (forall n, In n n2 -> input_of (entry_of n) <> Some (IDelete id)) -> quiet s ->
  exists c cr, file_holds E (sy_file s) c /\ In cr (cl_vault c) /\ cs_id cr = id /\ public_of (cs_key cr) x y.

Theorem C114_registered_partial : forall E t ls s n1 k d1 r1 n2 id x y, env_ok E ->
  let ns := n1 ++ NDone k (ICtap (1 :: d1)) (OBytes r1) :: n2 in
  Forall (label_ok E) ls -> sys_run E (sys_init t) ls = Some (s, ns) -> one_passphrase E ns ->
  one_at_a_time ns -> (forall k pass p, ~ In (NStartFailed k pass p) ns) ->
  registered r1 id x y -> (forall n, In n n2 -> input_of (entry_of n) <> Some (IDelete id)) -> quiet s ->
  exists c cr, file_holds E (sy_file s) c /\ In cr (cl_vault c) /\ cs_id cr = id /\ public_of (cs_key cr) x y.
Proof.
  intros E t ls s n1 k d1 r1 n2 id x y L ns LK R O A NF RG ND QS.
  destruct (sequential_history E t ls s ns L LK R O NF A) as (up & w & H & ST & _ & Q). unfold ns in *.
  rewrite map_app in H, ST. cbn [map entry_of] in H, ST.
  destruct (credentials_stay E _ _ _ _ up w id x y L H ST RG) as (_ & c & (d & D & S) & cr & I & J & P).
  - intros e I. apply in_map_iff in I as (n & <- & I). auto.
  - destruct (Q QS) as (_ & F & _). exists c, cr. split; [|auto]. exists d. split; [congruence|assumption].
Qed.
Print Assumptions C114_registered_partial.

(* The device registers a credential while the command `pin enable` is under way. *)
Definition run4 : list label := PStart 1 pass0 P0 :: PStart 2 pass0 P0 :: does 1 mcA 2 ++ does 2 (IEnablePin true) 1 ++ [PStop 2].
Definition r4A : bytes := Eval vm_compute in match noted (at_run 0 run4) with _ :: _ :: NDone _ _ (OBytes r) :: _ => r | _ => [] end.
Definition notes4 : list note := [NStart 1 pass0 P0; NStart 2 pass0 P0; NDone 1 mcA (OBytes r4A); NDone 2 (IEnablePin true) OUnit; NStop 2 None].
Lemma run4_is : at_run 0 run4 = Some (ended (at_run 0 run4), notes4).
Proof. apply ran; vm_compute; reflexivity. Qed.
Definition f4 : bytes := Eval vm_compute in match sy_file (ended (at_run 0 run4)) with Some d => d | None => [] end.
Definition id4 : bytes := Eval vm_compute in match read_reg r4A with Some (i, _, _) => i | None => [] end.
Definition x4 : N := Eval vm_compute in match read_reg r4A with Some (_, x, _) => x | None => 0 end.
Definition y4 : N := Eval vm_compute in match read_reg r4A with Some (_, _, y) => y | None => 0 end.

(* Nothing is under way, decided for the processes of a run. *)
Definition idle (s : sys) (k : N) : bool := match sy_procs s k with Some p => match pr_task p with None => true | Some _ => false end | None => true end.
Lemma quiet_run ls s t ns : sys_run (toyE true) (sys_init t) ls = Some (s, ns) -> Forall (fun l => label_of l = 1 \/ label_of l = 2) ls ->
  idle s 1 = true -> idle s 2 = true -> quiet s.
Proof.
  intros R F A B k p K. unfold idle in A, B. destruct (N.eq_dec k 1) as [->|N1]; [|destruct (N.eq_dec k 2) as [->|N2]].
  - rewrite K in A. destruct (pr_task p); congruence.
  - rewrite K in B. destruct (pr_task p); congruence.
  - rewrite (run_other _ k _ _ _ _ R) in K; [discriminate K|]. eapply Forall_impl; [|exact F]. cbn. intros l [-> | ->]; congruence.
Qed.
Lemma quiet4 : quiet (ended (at_run 0 run4)).
Proof.
  apply (quiet_run run4 _ 0 notes4 run4_is); [|vm_compute; reflexivity..].
  unfold run4, does. cbn [app repeat]. repeat (apply Forall_cons; [first [left; reflexivity|right; reflexivity]|]); apply Forall_nil.
Qed.

Theorem C114_overlap_refuted : ~ C114_full.
Proof.
  intro H. destruct (H (toyE true) 0 run4 (ended (at_run 0 run4)) [NStart 1 pass0 P0; NStart 2 pass0 P0] 1 (tl (msg_mc rpA None)) r4A
    [NDone 2 (IEnablePin true) OUnit; NStop 2 None] id4 x4 y4 (toyE_ok true)) as (c & cr & (d & Q & _ & cf & X & DS) & I & _).
  - unfold run4, does. cbn [app repeat]. labels_ok.
  - exact run4_is.
  - cbn [app]. notes_ok.
  - apply read_reg_ok. vm_compute. reflexivity.
  - intros n [<-|[<-|[]]]; discriminate.
  - exact quiet4.
  - assert (Y : match decrypt_fido_state (e_C (toyE true)) f4 (e_pass (toyE true)) with Ok (Some cf) => cf_sources cf | _ => [] end = [])
      by (vm_compute; reflexivity).
    replace (sy_file (ended (at_run 0 run4))) with (Some f4) in Q by (vm_compute; reflexivity). injection Q as <-.
    rewrite X in Y. destruct DS as (_ & _ & _ & _ & _ & _ & FA). rewrite Y in FA. revert I. generalize dependent (cl_vault c). intros v FA I. inversion FA; subst. destruct I.
Qed.
Print Assumptions C114_overlap_refuted.

(* A registration, an end, and a PIN set by another process. *)
Definition run5 : list label := PStart 1 pass0 P0 :: does 1 mcA 2 ++ PStop 1 :: PStart 2 pass0 P0 :: does 2 (ISetPin pin1) 1 ++ [PStop 2].
Definition notes5 : list note := [NStart 1 pass0 P0; NDone 1 mcA (OBytes r1A); NStop 1 None; NStart 2 pass0 P0; NDone 2 (ISetPin pin1) OUnit; NStop 2 None].
Lemma run5_is : at_run 0 run5 = Some (ended (at_run 0 run5), notes5).
Proof. apply ran; vm_compute; reflexivity. Qed.
Lemma quiet5 : quiet (ended (at_run 0 run5)).
Proof.
  apply (quiet_run run5 _ 0 notes5 run5_is); [|vm_compute; reflexivity..].
  unfold run5, does. cbn [app repeat]. repeat (apply Forall_cons; [first [left; reflexivity|right; reflexivity]|]); apply Forall_nil.
Qed.
Example C114_example : at_run 0 run5 = Some (ended (at_run 0 run5), notes5) /\ one_passphrase (toyE true) notes5 /\ one_at_a_time notes5 /\
  registered r1A idA xA yA /\ quiet (ended (at_run 0 run5)) /\ ~ one_at_a_time notes4.
Proof.
  split; [apply run5_is|]. split; [unfold notes5; notes_ok|]. split; [apply turns; vm_compute; reflexivity|].
  split; [exact regA|]. split; [exact quiet5|].
  intro H. specialize (H [NStart 1 pass0 P0] _ _ eq_refl). discriminate H.
Qed.

(* ---------------------------------------------------------------- C115 *)
(* When no request is under way, the last PIN that was set is the one in the file. *)
Definition C115_full : Prop := forall E t ls s n1 k pin n2, env_ok E ->
  let ns := n1 ++ NDone k (ISetPin pin) OUnit :: n2 in
  Forall (label_ok E) ls -> sys_run E (sys_init t) ls = Some (s, ns) -> one_passphrase E ns ->
  (forall n i, In n n2 -> input_of (entry_of n) = Some i -> ~ may_change_pin i) -> quiet s ->
  exists c, file_holds E (sy_file s) c /\ cl_hash c = Some (firstn 16 (sha256 (e_C E) pin)).

Theorem C115_pin_partial : forall E t ls s n1 k pin n2, env_ok E ->
  let ns := n1 ++ NDone k (ISetPin pin) OUnit :: n2 in
  Forall (label_ok E) ls -> sys_run E (sys_init t) ls = Some (s, ns) -> one_passphrase E ns ->
  one_at_a_time ns -> (forall k pass p, ~ In (NStartFailed k pass p) ns) ->
  (forall n i, In n n2 -> input_of (entry_of n) = Some i -> ~ may_change_pin i) -> quiet s ->
  exists c, file_holds E (sy_file s) c /\ cl_hash c = Some (firstn 16 (sha256 (e_C E) pin)).
Proof.
  intros E t ls s n1 k pin n2 L ns LK R O A NF ND QS.
  destruct (sequential_history E t ls s ns L LK R O NF A) as (up & w & H & ST & _ & Q). unfold ns in *.
  rewrite map_app in H, ST. cbn [map entry_of] in H, ST.
  destruct (pin_stays E _ _ _ up w L H ST) as (_ & c & (d & D & S) & P).
  - intros e i I. apply in_map_iff in I as (n & <- & I). eauto.
  - destruct (Q QS) as (_ & F & _). exists c. split; [|auto]. exists d. split; [congruence|assumption].
Qed.
Print Assumptions C115_pin_partial.

(* The command `pin set` while the device runs: its next assertion undoes it. *)
Definition run6 : list label := PStart 1 pass0 P0 :: does 1 mcA 2 ++ PStart 2 pass0 P0 :: does 2 (ISetPin pin1) 1 ++ PStop 2 :: does 1 gaA 2.
Definition notes6 : list note := [NStart 1 pass0 P0; NDone 1 mcA (OBytes r1A); NStart 2 pass0 P0; NDone 2 (ISetPin pin1) OUnit;
  NStop 2 None; NDone 1 gaA (OBytes r2b)].
Lemma run6_is : at_run 0 run6 = Some (ended (at_run 0 run6), notes6).
Proof. apply ran; vm_compute; reflexivity. Qed.
Definition f6 : bytes := Eval vm_compute in match sy_file (ended (at_run 0 run6)) with Some d => d | None => [] end.
Lemma quiet6 : quiet (ended (at_run 0 run6)).
Proof.
  apply (quiet_run run6 _ 0 notes6 run6_is); [|vm_compute; reflexivity..].
  unfold run6, does. cbn [app repeat]. repeat (apply Forall_cons; [first [left; reflexivity|right; reflexivity]|]); apply Forall_nil.
Qed.

Theorem C115_overlap_refuted : ~ C115_full.
Proof.
  intro H. destruct (H (toyE true) 0 run6 (ended (at_run 0 run6)) [NStart 1 pass0 P0; NDone 1 mcA (OBytes r1A); NStart 2 pass0 P0] 2 pin1
    [NStop 2 None; NDone 1 gaA (OBytes r2b)] (toyE_ok true)) as (c & (d & Q & _ & cf & X & DS) & P).
  - unfold run6, does. cbn [app repeat]. labels_ok.
  - exact run6_is.
  - cbn [app]. notes_ok.
  - intros n i [<-|[<-|[]]] J; injection J as <-; intros (a & b & Z & _); discriminate Z.
  - exact quiet6.
  - assert (Y : match decrypt_fido_state (e_C (toyE true)) f6 (e_pass (toyE true)) with Ok (Some cf) => cf_pin_hash cf | _ => None end = None)
      by (vm_compute; reflexivity).
    replace (sy_file (ended (at_run 0 run6))) with (Some f6) in Q by (vm_compute; reflexivity). injection Q as <-.
    rewrite X in Y. destruct DS as (_ & _ & _ & _ & _ & Z & _). congruence.
Qed.
Print Assumptions C115_overlap_refuted.

(* Set after the device has ended, it is in the file. *)
Example C115_example : at_run 0 run5 = Some (ended (at_run 0 run5), notes5) /\ one_passphrase (toyE true) notes5 /\ one_at_a_time notes5 /\
  quiet (ended (at_run 0 run5)) /\ (forall n i, In n [NStop 2 None] -> input_of (entry_of n) = Some i -> ~ may_change_pin i) /\ ~ one_at_a_time notes6.
Proof.
  destruct C114_example as (A & B & C & _ & D & _). repeat (split; [assumption|]). split.
  - intros n i [<-|[]] J; injection J as <-; intros (a & b & Z & _); discriminate Z.
  - intro H. specialize (H [NStart 1 pass0 P0; NDone 1 mcA (OBytes r1A)] _ _ eq_refl). discriminate H.
Qed.
