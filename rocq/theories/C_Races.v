(* Properties of requests whose steps interleave: the PIN retry counter (C88) and the list of
   credentials (C89). *)
From Verif Require Import Base M_Cbor M_Crypto M_Cose M_State M_Client M_Ctap M_HidConc M_PinRace M_VaultRace.
From Verif Require Import S_PinRace S_VaultRace P_PinRace P_PinAlone P_VaultRace P_Toy.
Local Open Scope nat_scope.

(* ---------------------------------------------------------------- C88 *)
(* In full: after eight wrong PINs no more are tried, however requests overlap. *)
Definition C88_full : Prop := forall l s, all_wrong l -> pin_run l pin_start = Some s -> tried s <= 8.

(* With k requests at once exactly (8 + k choose 8) - 1 wrong PINs can be tried: never more, *)
Theorem C88_guesses_bounded_partial : forall k l s, all_wrong l -> crowd k l -> pin_run l pin_start = Some s ->
  tried s + 1 <= choose (8 + k) 8.
Proof. exact guesses_bounded. Qed.
Print Assumptions C88_guesses_bounded_partial.

(* and as many as that for some schedule. *)
Theorem C88_bound_reached : forall k, exists l s, all_wrong l /\ crowd k l /\ pin_run l pin_start = Some s /\
  tried s + 1 = choose (8 + k) 8.
Proof. exact guesses_reached. Qed.
Print Assumptions C88_bound_reached.

(* One request at a time: eight. *)
Theorem C88_one_at_a_time_partial : forall l s, all_wrong l -> crowd 1 l -> pin_run l pin_start = Some s -> tried s <= 8.
Proof. intros l s A C R. pose proof (guesses_bounded 1 l s A C R) as H. change (choose (8 + 1) 8) with 9 in H. lia. Qed.
Print Assumptions C88_one_at_a_time_partial.

(* Any number of wrong PINs can be tried before the counter is used up. *)
Theorem C88_unlimited_refuted : forall n, exists l s, all_wrong l /\ pin_run l pin_start = Some s /\ n <= tried s.
Proof.
  intro n. destruct (guesses_reached n) as (l & s & A & _ & R & N). exists l, s.
  split; [exact A|]. split; [exact R|]. pose proof (choose_grows n). lia.
Qed.
Print Assumptions C88_unlimited_refuted.

Theorem C88_full_refuted : ~ C88_full.
Proof. intro H. destruct (C88_unlimited_refuted 9) as (l & s & A & R & N). pose proof (H l s A R). lia. Qed.
Print Assumptions C88_full_refuted.

(* Nine requests load the counter before any of them stores it. *)
Definition nine : list nat := seq 0 9.
Definition crowd9 : list pin_event :=
  map (fun _ => PArrive false) nine ++ flat_map (fun i => [PStep i; PStep i]) nine ++ flat_map (fun i => [PStep i; PStep i]) nine.
(* Two at a time: one request holds an 8 while the others use the counter up, then stores 7. *)
Definition pair2 : list pin_event :=
  [PArrive false; PStep 0; PStep 0] ++
  flat_map (fun i => PArrive false :: repeat (PStep i) 4) (seq 1 8) ++ [PStep 0; PStep 0] ++
  flat_map (fun i => PArrive false :: repeat (PStep i) 4) (seq 9 7) ++ [PArrive false; PStep 16].
Lemma all_wrong_check l : forallb (fun e => match e with PArrive true => false | _ => true end) l = true -> all_wrong l.
Proof. intros H I. rewrite forallb_forall in H. discriminate (H _ I). Qed.
Example C88_example :
  (all_wrong crowd9 /\ exists s, pin_run crowd9 pin_start = Some s /\ tried s = 9 /\ pn_retries s = 7) /\
  (all_wrong pair2 /\ exists s, pin_run pair2 pin_start = Some s /\ tried s = 16 /\ pn_dead s = true) /\
  choose (8 + 1) 8 = 9 /\ choose (8 + 2) 8 = 45 /\ choose (8 + 3) 8 = 165.
Proof.
  split; [split; [apply all_wrong_check; vm_compute; reflexivity|]|].
  - eexists. split; [vm_compute; reflexivity|]. vm_compute. split; reflexivity.
  - split; [split; [apply all_wrong_check; vm_compute; reflexivity|]|].
    + eexists. split; [vm_compute; reflexivity|]. vm_compute. split; reflexivity.
    + vm_compute. repeat split.
Qed.

(* The steps are those of the server: a request that runs alone leaves the counter where
   get_pin_token leaves it, and dies when get_pin_token panics on the counter. *)
Theorem C88_alone : forall E a w w' r enc k x secret h,
  pn_hash a = Some enc -> pn_key a = Some k -> e2_x k = Some x ->
  shared_secret E (w_client w) k = Ok secret -> decrypt_cbc (e_C E) secret enc = Ok h ->
  (0 <= cl_retries (w_client w) <= 8)%Z -> get_pin_token E a w = (w', r) ->
  exists n s,
    pin_run (PArrive (bytes_eqb h (or_nil (cl_hash (w_client w)))) :: repeat (PStep 0) n)
      (mk_pins (Z.to_nat (cl_retries (w_client w))) [] false) = Some s /\
    Z.of_nat (pn_retries s) = cl_retries (w_client w') /\
    (pn_dead s = true \/ exists hit, pn_threads s = [(hit, G_done hit)]) /\
    (pn_dead s = true <-> cl_retries (w_client w) = 0%Z).
Proof. exact token_alone. Qed.
Print Assumptions C88_alone.

(* A PIN is set; a wrong one and the right one are tried. *)
Definition pin_world : world := Eval vm_compute in fst (ctap_handle (toyE true) (msg_set far pin1) (dev true)).
Definition token_args (pin : bytes) : cp_args :=
  match unmarshal dec_cp (tl (msg_token far pin)) with Some a => a | None => {| pn_protocol := 0; pn_sub := 0; pn_key := None; pn_auth := None; pn_new := None; pn_hash := None |} end.
Definition token_case (pin : bytes) : option (bool * Z * Z) :=
  let a := token_args pin in
  match pn_hash a, pn_key a with
  | Some enc, Some k =>
    match e2_x k, shared_secret (toyE true) (w_client pin_world) k with
    | Some _, Ok secret =>
      match decrypt_cbc (e_C (toyE true)) secret enc with
      | Ok h => Some (bytes_eqb h (or_nil (cl_hash (w_client pin_world))), cl_retries (w_client pin_world),
                      cl_retries (w_client (fst (get_pin_token (toyE true) a pin_world))))
      | Panic => None
      end
    | _, _ => None
    end
  | _, _ => None
  end.
Example C88_alone_example : token_case pin2 = Some (false, 8%Z, 7%Z) /\ token_case pin1 = Some (true, 8%Z, 8%Z).
Proof. vm_compute. split; reflexivity. Qed.

(* ---------------------------------------------------------------- C89 *)
(* In full: a credential whose registration is over is in the vault. *)
Definition C89_full : Prop := forall l0 spare l s c, vault_run l (vault_start l0 spare) = Some s ->
  In c (over s) -> In (Some c) (va_list s).

(* Two registrations load the list before either stores it; both succeed, one is lost. *)
Definition both : list vault_event :=
  [VArrive 5; VArrive 6; VStep 0 0; VStep 1 0; VStep 0 0; VStep 1 0; VStep 0 0; VStep 1 0; VStep 0 0; VStep 1 0].
Theorem C89_lost_refuted : ~ C89_full.
Proof.
  intro H.
  destruct (vault_run both (vault_start [1%N] 0)) as [s|] eqn:R; [|vm_compute in R; discriminate].
  specialize (H [1%N] 0 both s 5%N R). vm_compute in R. injection R as <-. vm_compute in H.
  destruct H as [H|[H|[]]]; try discriminate. now left.
Qed.
Print Assumptions C89_lost_refuted.

(* Whatever the schedule: what was there stays, what is added was asked for, and nothing is nil. *)
Theorem C89_kept_partial : forall l0 spare l s, vault_run l (vault_start l0 spare) = Some s ->
  exists more, va_list s = map Some (l0 ++ more) /\ incl more (asked s).
Proof. exact kept. Qed.
Print Assumptions C89_kept_partial.

(* One at a time: all of them, in order. *)
Theorem C89_one_by_one_partial : forall l0 spare l s, one_by_one l0 spare l -> vault_run l (vault_start l0 spare) = Some s ->
  va_list s = map Some (l0 ++ over s).
Proof. exact serial_keeps. Qed.
Print Assumptions C89_one_by_one_partial.

(* With room in the array the two write to the same place: the first to store shows the other's. *)
Definition same_place : list vault_event :=
  [VArrive 5; VArrive 6; VStep 0 0; VStep 1 0; VStep 0 0; VStep 1 0; VStep 0 0; VStep 1 0; VStep 0 0].
Definition in_turn : list vault_event :=
  [VArrive 5; VStep 0 1; VStep 0 1; VStep 0 1; VStep 0 1; VArrive 6; VStep 1 0; VStep 1 0; VStep 1 0; VStep 1 0].
Example C89_example :
  (exists s, vault_run same_place (vault_start [1%N] 3) = Some s /\ over s = [5%N] /\ va_list s = [Some 1%N; Some 6%N]) /\
  (exists s, vault_run in_turn (vault_start [1%N] 0) = Some s /\ over s = [5%N; 6%N] /\ va_list s = [Some 1%N; Some 5%N; Some 6%N]) /\
  one_by_one [1%N] 0 in_turn.
Proof.
  split; [|split].
  - eexists. split; [vm_compute; reflexivity|]. vm_compute. split; reflexivity.
  - eexists. split; [vm_compute; reflexivity|]. vm_compute. split; reflexivity.
  - intros l1 l2 s E R. unfold in_turn in E.
    do 11 (destruct l1 as [|? l1]; [vm_compute in R; injection R as <-; vm_compute; lia|injection E as <- E || discriminate E]).
Qed.
