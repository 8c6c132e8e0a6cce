(* Taking out the device. *)
From Coq Require Import Permutation.
From Verif Require Import P_WinMem Base M_Util M_WinFwd M_WinDrv M_WinOut S_WinFwd S_WinDrv S_WinOut P_WinDrv P_WinDrv2 P_WinOnce.
From Coq Require Import Lia.
Open Scope N_scope.

Lemma out_run_app : forall a s b, out_run s (a ++ b) =
  match out_run s a with Some (Ok s') => out_run s' b | other => other end.
Proof.
  induction a as [|l a IH]; intros s b; [reflexivity|]. cbn [app out_run].
  destruct (out_step s l) as [[s'|]|]; [apply IH|reflexivity|reflexivity].
Qed.

Lemma asked_app a b : asked (a ++ b) = asked a ++ asked b.
Proof. apply flat_map_app. Qed.

Definition accounted (s : out) : list nat :=
  all_blocks (wi_drv (ot_win s)) ++ ot_gone s ++ map fst (ot_checked s).

Lemma left_held d : left_blocks d = held d.
Proof. unfold left_blocks. rewrite held_slot. reflexivity. Qed.

Lemma remove_nth_perm {A} : forall (l : list A) i x, nth_error l i = Some x -> Permutation l (x :: remove_nth i l).
Proof.
  induction l as [|y l IH]; intros [|i] x H; cbn [nth_error] in H; try discriminate.
  - injection H as ->. apply Permutation_refl.
  - unfold remove_nth. cbn [firstn skipn app]. change (firstn i l ++ skipn (S i) l) with (remove_nth i l).
    rewrite (IH i x H) at 1. apply perm_swap.
Qed.

Lemma NoDup_front {A} (a b : list A) : NoDup (a ++ b) -> NoDup a.
Proof.
  induction a as [|x a IH]; intro H; [constructor|]. cbn [app] in H. inversion H as [|? ? H1 H2]. subst.
  constructor; [intro I; apply H1, in_or_app; now left|auto].
Qed.

Lemma out_account s l s' : NoDup (accounted s) -> out_step s l = Some (Ok s') ->
  Permutation (accounted s') (accounted s ++ asked [l]).
Proof.
  intros N E. assert (NoDup (all_blocks (wi_drv (ot_win s)))) as Na by (apply NoDup_front in N; exact N).
  destruct l as [l|id u|i|id| |f r e st| |]; cbn [out_step] in E; unfold asked; cbn [flat_map app].
  - destruct (ot_plugged s); [|discriminate]. destruct (win_step (ot_win s) l) as [[w|]|] eqn:W; cbn [obind rbind] in E; try discriminate.
    injection E as <-. unfold accounted. cbn [with_win ot_win ot_gone ot_checked].
    rewrite (step_all _ _ _ Na W).
    replace (match l with WSubmit id _ => [id] | _ => [] end ++ []) with (map fst (submitted [l])) by (destruct l; reflexivity).
    rewrite <- !app_assoc. apply Permutation_app_head. rewrite app_assoc.
    apply Permutation_trans with ((ot_gone s ++ map fst (ot_checked s)) ++ map fst (submitted [l])); [apply Permutation_trans with (map fst (submitted [l]) ++ ot_gone s ++ map fst (ot_checked s)); [rewrite app_assoc; apply Permutation_refl|apply Permutation_app_comm]|].
    rewrite <- app_assoc. apply Permutation_refl.
  - destruct (ot_removed s); [discriminate|]. destruct (ot_plugged s); injection E as <-; unfold accounted; cbn [ot_win ot_gone ot_checked].
    + rewrite map_app. cbn [map fst]. rewrite <- !app_assoc. apply Permutation_refl.
    + rewrite <- !app_assoc. do 2 apply Permutation_app_head. cbn [app]. apply Permutation_cons_append.
  - destruct (nth_error (ot_checked s) i) as [(id, u)|] eqn:Nt; [|discriminate]. cbn [obind] in E.
    destruct (submit_block (wi_drv (ot_win s)) id u) as (d, b) eqn:B. injection E as <-. unfold accounted.
    cbn [ot_win ot_gone ot_checked with_drv wi_drv]. rewrite (block_all _ _ _ _ _ B), app_nil_r.
    apply remove_nth_perm in Nt. apply (Permutation_map fst) in Nt. cbn [map fst] in Nt. rewrite Nt. cbn [app].
    rewrite (app_assoc (all_blocks _) (ot_gone s) (id :: _)), (app_assoc (all_blocks _) (ot_gone s) (map fst (remove_nth _ _))).
    apply Permutation_middle.
  - destruct (ot_plugged s); [discriminate|]. destruct (cancel_block _ _) as [(d, b)|] eqn:C; [|discriminate]. cbn [obind] in E.
    injection E as <-. unfold accounted. cbn [with_win ot_win ot_gone ot_checked with_drv wi_drv].
    rewrite (cancel_all _ _ _ _ Na C), app_nil_r. apply Permutation_refl.
  - destruct (dr_read _) as [[[n j] [|]]|]; [|discriminate|discriminate]. injection E as <-. rewrite app_nil_r. apply Permutation_refl.
  - destruct (ot_plugged s); [discriminate|]. injection E as <-. rewrite app_nil_r. apply Permutation_refl.
  - injection E as <-. rewrite app_nil_r. apply Permutation_refl.
  - destruct (ot_plugged s || ot_removed s); [discriminate|]. injection E as <-. unfold accounted, all_blocks.
    cbn [ot_win ot_gone ot_checked wi_drv emptied dr_done]. change (held (emptied _)) with (@nil nat). rewrite left_held, !app_nil_r.
    rewrite <- !app_assoc. apply Permutation_app_head. rewrite !app_assoc. apply Permutation_app_tail. apply Permutation_app_comm.
Qed.

Lemma account devid : forall ls s, NoDup (asked ls) -> out_run (out0 devid) ls = Some (Ok s) ->
  Permutation (accounted s) (asked ls).
Proof.
  induction ls as [|l ls IH] using rev_ind; intros v N R.
  - injection R as <-. apply Permutation_refl.
  - rewrite asked_app in N |- *. rewrite out_run_app in R. destruct (out_run (out0 devid) ls) as [[s|]|] eqn:Rs; try discriminate.
    cbn [out_run] in R. destruct (out_step s l) as [[s'|]|] eqn:E; try discriminate. injection R as ->.
    pose proof (NoDup_front _ _ N) as N'. specialize (IH s N' eq_refl).
    rewrite (out_account s l v); [now apply Permutation_app_tail| |exact E].
    apply (Permutation_NoDup (Permutation_sym IH) N').
Qed.

(* ---- after the removal nothing is held but what enters later *)
Lemma plugged_down s l s' : out_step s l = Some (Ok s') -> ot_plugged s = false -> ot_plugged s' = false.
Proof.
  intros E P. destruct l; cbn [out_step] in E; rewrite ?P in E; cbn [orb] in E; try discriminate.
  - destruct (ot_removed s); [discriminate|]. now injection E as <-.
  - destruct (nth_error _ _) as [(id, u)|]; [|discriminate]. cbn [obind] in E. destruct (submit_block _ _ _). now injection E as <-.
  - destruct (cancel_block _ _) as [(d, b)|]; [|discriminate]. cbn [obind] in E. now injection E as <-.
  - destruct (dr_read _) as [[[n j] [|]]|]; [|discriminate|discriminate]. now injection E as <-.
  - now injection E as <-.
  - now injection E as <-.
  - destruct (ot_removed s); [discriminate|]. now injection E as <-.
Qed.

(* blocks cannot come once unplugged *)
Lemma checked_down s l s' : out_step s l = Some (Ok s') -> ot_plugged s = false ->
  forall x, In x (ot_checked s') -> In x (ot_checked s).
Proof.
  intros E P x. destruct l; cbn [out_step] in E; rewrite ?P in E; cbn [orb] in E; try discriminate.
  - destruct (ot_removed s); [discriminate|]. now injection E as <-.
  - destruct (nth_error _ _) as [(id, u)|] eqn:Nt; [|discriminate]. cbn [obind] in E. destruct (submit_block _ _ _). injection E as <-. cbn [ot_checked].
    intro I. apply remove_nth_perm in Nt. apply (Permutation_in _ (Permutation_sym Nt)). now right.
  - destruct (cancel_block _ _) as [(d, b)|]; [|discriminate]. cbn [obind] in E. now injection E as <-.
  - destruct (dr_read _) as [[[n j] [|]]|]; [|discriminate|discriminate]. now injection E as <-.
  - now injection E as <-.
  - now injection E as <-.
  - destruct (ot_removed s); [discriminate|]. now injection E as <-.
Qed.

Definition bare (s : out) : Prop := ot_removed s = true /\ ot_plugged s = false /\ ot_checked s = [] /\ held (wi_drv (ot_win s)) = [].

Lemma bare_step s l s' : bare s -> out_step s l = Some (Ok s') -> bare s'.
Proof.
  intros (R & P & C & H) E. destruct l; cbn [out_step] in E; rewrite ?P, ?R, ?C in E; cbn [orb] in E; try discriminate.
  - destruct i; discriminate.
  - unfold cancel_block in E. destruct (find _ _) as [r|] eqn:F; [|discriminate]. exfalso.
    apply find_some in F as (I & B). apply block_id_of in B. rewrite held_slot in H.
    assert (In id (block_ids (dr_pending (wi_drv (ot_win s)) ++ dr_sent (wi_drv (ot_win s)) ++ in_slot (dr_partial (wi_drv (ot_win s)))))) as X.
    { unfold block_ids in *. cbn [flat_map] in B. rewrite app_nil_r in B. apply in_flat_map. exists r. split; [exact I|]. rewrite B. now left. }
    rewrite H in X. destruct X.
  - destruct (dr_read _) as [[[n j] [|]]|]; [|discriminate|discriminate]. injection E as <-. now repeat split.
  - injection E as <-. now repeat split.
  - injection E as <-. now repeat split.
Qed.

Lemma bare_run : forall ls s s', bare s -> out_run s ls = Some (Ok s') -> bare s'.
Proof.
  induction ls as [|l ls IH]; intros s s' B R; [now injection R as <-|]. cbn [out_run] in R.
  destruct (out_step s l) as [[t|]|] eqn:E; try discriminate. eauto using bare_step.
Qed.


Lemma remove_bare s s' : ot_checked s = [] -> out_step s ORemove = Some (Ok s') -> bare s'.
Proof.
  intros C E. cbn [out_step] in E. destruct (ot_plugged s || ot_removed s); [discriminate|]. injection E as <-. now repeat split.
Qed.

Theorem all_end devid : forall a b t s, NoDup (asked (a ++ ORemove :: b)) ->
  out_run (out0 devid) a = Some (Ok t) -> ot_checked t = [] -> out_run t (ORemove :: b) = Some (Ok s) ->
  Permutation (ended_blocks s) (asked (a ++ ORemove :: b)) /\ held (wi_drv (ot_win s)) = [].
Proof.
  intros a b t s N Ra C Rb. pose proof Rb as Rb'. cbn [out_run] in Rb'. destruct (out_step t ORemove) as [[t'|]|] eqn:E; try discriminate.
  apply (remove_bare _ _ C) in E. apply (bare_run _ _ _ E) in Rb' as (_ & _ & C' & H).
  assert (out_run (out0 devid) (a ++ ORemove :: b) = Some (Ok s)) as R by (rewrite out_run_app, Ra; exact Rb).
  pose proof (account devid _ _ N R) as A. unfold accounted, all_blocks in A. rewrite H, C' in A. cbn [map] in A. rewrite !app_nil_r in A.
  split; [exact A|exact H].
Qed.

Theorem can_end devid : forall a t, NoDup (asked a) -> out_run (out0 devid) a = Some (Ok t) -> ot_removed t = false -> ot_checked t = [] ->
  exists s, out_run t [OUnplug; ORemove] = Some (Ok s) /\ Permutation (ended_blocks s) (asked a) /\ held (wi_drv (ot_win s)) = [].
Proof.
  intros a t N R Q C. cbn [out_run out_step ot_plugged ot_removed]. rewrite Q. cbn [orb]. eexists. split; [reflexivity|].
  split; [|reflexivity]. pose proof (account devid _ _ N R) as A. unfold accounted, all_blocks in A. rewrite C in A. cbn [map] in A.
  rewrite app_nil_r in A. unfold ended_blocks. cbn [ot_win wi_drv emptied dr_done ot_gone]. rewrite left_held, <- A, <- app_assoc.
  apply Permutation_app_head, Permutation_app_comm.
Qed.

(* ---- once unplugged *)
Lemma down_step s l s' : ot_plugged s = false -> out_step s l = Some (Ok s') ->
  incl (ot_gone s ++ asked [l]) (ot_gone s') /\
  exists more, dr_done (wi_drv (ot_win s')) = dr_done (wi_drv (ot_win s)) ++ more /\
    Forall (fun x => oc_status (snd x) = Cancelled \/ oc_status (snd x) = InvalidParameter) more.
Proof.
  intros P E. destruct l; cbn [out_step] in E; rewrite ?P in E; cbn [orb] in E; try discriminate; unfold asked; cbn [flat_map app]; rewrite ?app_nil_r.
  - destruct (ot_removed s); [discriminate|]. injection E as <-. split; [apply incl_refl|]. exists []. now rewrite app_nil_r.
  - destruct (nth_error _ _) as [(id, u)|]; [|discriminate]. cbn [obind] in E. destruct (submit_block _ _ _) as (d, b) eqn:B. injection E as <-.
    split; [apply incl_refl|]. cbn [ot_win with_drv wi_drv]. unfold submit_block in B. destruct (submit_urbr _ _) as [[d1 b1] a] eqn:U.
    destruct (submit_held _ _ _ _ _ U) as (Dn & _).
    destruct a; injection B as <- <-; [exists []; rewrite app_nil_r; split; [exact Dn|constructor]|]. eexists. cbn [finish dr_done]. rewrite Dn. split; [reflexivity|].
    constructor; [now right|constructor].
  - destruct (cancel_block _ _) as [(d, b)|] eqn:C; [|discriminate]. cbn [obind] in E. injection E as <-. split; [apply incl_refl|].
    cbn [with_win ot_win with_drv wi_drv]. unfold cancel_block in C. destruct (find _ _) as [r|]; [|discriminate].
    destruct (submit_urbr _ _) as [[d1 b1] a] eqn:U. destruct (submit_held _ _ _ _ _ U) as (Dn & _). cbn [dr_done] in Dn.
    destruct (ur_what r); [|discriminate]. injection C as <- <-. eexists. cbn [finish dr_done]. rewrite Dn. split; [reflexivity|].
    constructor; [now left|constructor].
  - destruct (dr_read _) as [[[n j] [|]]|]; [|discriminate|discriminate]. injection E as <-. split; [apply incl_refl|]. exists []. now rewrite app_nil_r.
  - injection E as <-. split; [apply incl_refl|]. exists []. now rewrite app_nil_r.
  - injection E as <-. split; [apply incl_refl|]. exists []. now rewrite app_nil_r.
  - destruct (ot_removed s); [discriminate|]. injection E as <-. split; [cbn [ot_gone]; apply incl_appl, incl_refl|]. exists []. now rewrite app_nil_r.
Qed.

Theorem down : forall ls s s', ot_plugged s = false -> out_run s ls = Some (Ok s') ->
  incl (ot_gone s ++ asked ls) (ot_gone s') /\
  exists more, dr_done (wi_drv (ot_win s')) = dr_done (wi_drv (ot_win s)) ++ more /\
    Forall (fun x => oc_status (snd x) = Cancelled \/ oc_status (snd x) = InvalidParameter) more.
Proof.
  induction ls as [|l ls IH]; intros s s' P R.
  - injection R as <-. cbn. rewrite app_nil_r. split; [apply incl_refl|]. exists []. now rewrite app_nil_r.
  - cbn [out_run] in R. destruct (out_step s l) as [[t|]|] eqn:E; try discriminate.
    destruct (down_step _ _ _ P E) as (I1 & m1 & D1 & F1).
    destruct (IH t s' (plugged_down _ _ _ E P) R) as (I2 & m2 & D2 & F2). split.
    + change (l :: ls) with ([l] ++ ls). rewrite asked_app, app_assoc. intros x I. apply I2. apply in_app_or in I as [I|I]; apply in_or_app; auto.
    + exists (m1 ++ m2). rewrite D2, D1, app_assoc. split; [reflexivity|]. now apply Forall_app.
Qed.

(* ---- the pending read *)
Lemma out_wins : forall ls w s, win_run w ls = Some (Ok s) ->
  forall o, ot_win o = w -> ot_plugged o = true -> out_run o (map OWin ls) = Some (Ok (with_win o s)).
Proof.
  induction ls as [|l ls IH]; intros w s R o <- P.
  - injection R as <-. cbn. destruct o; reflexivity.
  - cbn [win_run map out_run out_step] in *. rewrite P. destruct (win_step (ot_win o) l) as [[w'|]|]; cbn [obind rbind]; try discriminate.
    rewrite (IH w' s R (with_win o w')); [reflexivity|reflexivity|exact P].
Qed.

Theorem read_at_removal : forall devid mx bl ls w, devid < 4294967296 -> 48 <= mx -> mx + bl < 4294967296 ->
  Forall (fun x => known (snd x)) (submitted ls) -> Forall (fun x => len (buffer (snd x)) + 48 <= mx) (submitted ls) ->
  NoDup (map fst (submitted ls)) -> orderly devid ls -> N.of_nat (length ls) < 4294967296 ->
  win_run (win0 devid) ls = Some (Ok w) -> calm bl true (wi_steps w) ->
  exists s, out_run (out0 devid) (map OWin ls ++ [OUnplug; ORemove]) = Some (Ok s) /\ dr_read (wi_drv (ot_win s)) = None /\
    ot_read s = (match pi_reading (fw_req (wi_fwd w)), wi_ready w with Some _, None => ReadEnded | _, _ => NoRead end).
Proof.
  intros devid mx bl ls w H1 H2 H3 H4 H5 H6 H7 H8 R H10.
  pose proof (run_inv devid mx bl ls w H1 H2 H3 H4 H5 H6 H7 H8 R H10) as (_ & _ & I & _ & _ & _ & _ & J & K).
  rewrite out_run_app, (out_wins _ _ _ R (out0 devid) eq_refl eq_refl). cbn [out_run out_step with_win ot_plugged ot_removed out0 orb].
  eexists. split; [reflexivity|]. split; [reflexivity|]. cbn [ot_read ot_win with_win out0]. destruct I as (_ & _ & _ & _ & _ & _ & _ & I).
  destruct (dr_read (wi_drv w)) as [[[n j] b]|] eqn:D.
  - destruct (I n j b eq_refl) as (_ & -> & _). cbn [read_ends].
    destruct (wi_ready w) as [c|] eqn:Y; [specialize (J c eq_refl); discriminate|].
    destruct (pi_reading _); [reflexivity|]. destruct (proj1 K eq_refl). discriminate.
  - cbn [read_ends]. destruct (pi_reading _) as [x|] eqn:Z; [|reflexivity]. destruct (wi_ready w); [reflexivity|].
    assert (Some x = None) by (apply K; auto). discriminate.
Qed.

(* ---- a block that comes too late *)
Lemma late_stays d : dr_partial d = Nobody -> dr_sent d = [] -> dr_read d = None ->
  forall r, dr_pending d = [r] -> forall ls s s', ot_plugged s = false -> ot_removed s = true -> ot_checked s = [] ->
  wi_drv (ot_win s) = d -> ~ In (OCancel (ur_id r)) ls -> out_run s ls = Some (Ok s') ->
  wi_drv (ot_win s') = d /\ ot_gone s' = ot_gone s.
Proof.
  intros P Se Rd r Pe. induction ls as [|l ls IH]; intros s s' Dn Rm C W N R.
  - injection R as <-. now split.
  - cbn [out_run] in R. destruct (out_step s l) as [[t|]|] eqn:E; try discriminate.
    assert (ot_plugged t = false /\ ot_removed t = true /\ ot_checked t = [] /\ wi_drv (ot_win t) = d /\ ot_gone t = ot_gone s) as (A1 & A2 & A3 & A4 & A5).
    { destruct l; cbn [out_step] in E; rewrite ?Dn, ?Rm, ?C, ?W in E; cbn [orb] in E; try discriminate.
      - destruct i; discriminate.
      - unfold cancel_block in E. rewrite P, Se, Pe in E. cbn [in_slot app find] in E. destruct (is_block id r) eqn:B; [|discriminate].
        exfalso. apply N. left. unfold is_block in B. destruct (ur_what r); [|discriminate]. apply Nat.eqb_eq in B. now rewrite B.
      - rewrite Rd in E. discriminate.
      - injection E as <-. now repeat split.
      - injection E as <-. now repeat split. }
    rewrite <- A5. apply (IH t); auto. intro I. apply N. now right.
Qed.
