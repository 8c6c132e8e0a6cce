(* Proofs about the driver of the Windows client together with the forwarder: how blocks end. *)
From Coq Require Import Permutation.
From Verif Require Import Base M_Util M_WinFwd M_WinDrv S_Usbip S_WinFwd S_WinDrv P_WinFwd P_WinRun P_WinRep P_WinDrv P_WinDrv2 P_WinOnce P_WinAns.
Open Scope N_scope.

Lemma junk_submit devid q j u : exists ep flags start packets interval n setup d,
  junk_message devid q j u = MSubmit q devid (if moves_in u then 1 else 0) ep flags start packets interval n setup d.
Proof. destruct u; repeat eexists. Qed.

Lemma NoDup_left {A} (a b : list A) : NoDup (a ++ b) -> NoDup a.
Proof.
  induction a as [|x a IH]; cbn [app]; intro N; [constructor|]. inversion N as [|? ? N1 N2]. subst.
  constructor; [intro I; apply N1, in_or_app; now left|auto].
Qed.

(* a block that was given out is still waited for, or has ended *)
Lemma live devid ls w n r u : win_inv devid w (submitted ls) (cancelled ls) n -> NoDup (map fst (submitted ls)) ->
  win_run (win0 devid) ls = Some (Ok w) -> In r (taken (wi_drv w)) -> ur_what r = Some u ->
  In r (dr_sent (wi_drv w) ++ in_slot (dr_partial (wi_drv w))) \/ In (ur_id r) (map fst (dr_done (wi_drv w))).
Proof.
  intros (_ & _ & K & H & _) N R I U. pose proof (once devid ls w N R) as P.
  assert (In (ur_id r, u) (submitted ls)) as Is by (eapply entry_known; eauto; apply in_or_app; now left).
  assert (In (ur_id r) (map fst (dr_done (wi_drv w)) ++ held (wi_drv w))) as J.
  { eapply Permutation_in; [symmetry; exact P|]. apply in_map_iff. exists (ur_id r, u). auto. }
  apply in_app_or in J. destruct J as [J|J]; [now right|left].
  rewrite held_slot in J. unfold block_ids in J. apply in_flat_map in J. destruct J as (y & Iy & Jy).
  destruct (ur_what y) as [u'|] eqn:Uy; [|destruct Jy]. destruct Jy as [Jy|[]].
  destruct H as (Hs & _ & _ & _ & _ & Hi). destruct (in_split _ _ I) as (t1 & t2 & T).
  assert (entries (wi_drv w) = map entry_of t1 ++ Block (ur_id r) u :: map entry_of (t2 ++ dr_pending (wi_drv w))) as E.
  { unfold entries. rewrite T, <- app_assoc. cbn [app]. rewrite map_app. cbn [map]. unfold entry_of at 2. now rewrite U. }
  assert (NoDup (map fst (blocks (entries (wi_drv w))))) as Nb by (eapply subseq_NoDup; [apply subseq_map; exact Hs|exact N]).
  destruct (nodup_lacks _ _ _ _ _ Nb E) as (La & Lb).
  assert (entry_of y = Block (ur_id r) u') as Ey by (unfold entry_of; now rewrite Uy, Jy).
  apply in_app_or in Iy. destruct Iy as [Iy|Iy].
  - exfalso. apply (Lb u'). rewrite <- Ey. apply in_map, in_or_app. now right.
  - pose proof (Hi y Iy) as It. rewrite T in It. apply in_app_or in It. destruct It as [It|[->|It]]; [|exact Iy|].
    + exfalso. apply (La u'). rewrite <- Ey. now apply in_map.
    + exfalso. apply (Lb u'). rewrite <- Ey. apply in_map, in_or_app. now left.
Qed.

Section Answers.
  Variables devid mx bl : N.
  Variable rs : list reply.
  Variable dF : drv.
  Variable logF : list seen.
  Hypothesis d32 : devid < 4294967296.
  Hypothesis mx48 : 48 <= mx.
  Hypothesis room : mx + bl < 4294967296.
  Hypothesis okF : drv_ok dF.
  Hypothesis devF : dr_devid dF = devid.
  Hypothesis lenF : N.of_nat (length (taken dF)) < 4294967296.
  Hypothesis smallF : Forall (fun m => len (host_bytes m) <= mx) (messages dF).
  Hypothesis fair : Forall (fair_one dF) rs.
  Hypothesis smallR : Forall (fun r => len (reply_wire r) <= mx) rs.
  Hypothesis remF : remembered dF logF.

  Lemma goodF : Forall driver_request (messages dF).
  Proof. now apply messages_good. Qed.

  Lemma seqs_taken d : subseq (flat_map seq_of (messages d)) (map ur_seq (taken d)).
  Proof.
    unfold messages, taken. induction (dr_taken d) as [|[r j] l IH]; cbn [map flat_map fst]; [constructor|].
    unfold msg_of at 1. cbn [fst snd]. destruct (ur_what r) as [u|].
    - destruct (junk_submit (dr_devid d) (ur_seq r) j u) as (ep & fl & st & pk & iv & n & se & da & ->). cbn [seq_of app]. now apply sub_keep.
    - cbn [seq_of app]. now apply sub_skip.
  Qed.

  Lemma count_nodup n : NoDup (count_to n) /\ ~ In 0 (count_to n).
  Proof.
    unfold count_to. split.
    - apply FinFun.Injective_map_NoDup; [intros a b; apply Nat2N.inj|apply seq_NoDup].
    - intro I. apply in_map_iff in I. destruct I as (x & E & I). apply in_seq in I. lia.
  Qed.

  Lemma uniqueF : NoDup (flat_map seq_of (messages dF)).
  Proof. eapply subseq_NoDup; [apply seqs_taken|]. destruct okF as (_ & -> & _). apply count_nodup. Qed.

  Lemma nonzeroF : ~ In 0 (flat_map seq_of (messages dF)).
  Proof.
    intro I. apply (subseq_incl _ _ (seqs_taken dF)) in I. destruct okF as (_ & E & _). rewrite E in I. now apply count_nodup in I.
  Qed.

  Lemma block_message q id u : numbered_block dF q id u -> exists ep flags start packets interval n setup d,
    In (MSubmit q devid (if moves_in u then 1 else 0) ep flags start packets interval n setup d) (messages dF).
  Proof.
    intros (r & j & I & Q & _ & U). destruct (junk_submit devid q j u) as (ep & fl & st & pk & iv & n & se & da & E).
    exists ep, fl, st, pk, iv, n, se, da. rewrite <- E. unfold messages. apply in_map_iff. exists (r, j). split; [|exact I].
    unfold msg_of. cbn [fst snd]. now rewrite U, Q, devF.
  Qed.

  Lemma answersF : Forall (answers_one (messages dF)) rs.
  Proof.
    eapply Forall_impl; [|exact fair]. intros [q dir n payload|q removed] F.
    - destruct F as (id & u & B & -> & (Fr & _) & P).
      destruct (block_message _ _ _ B) as (ep & fl & st & pk & iv & m & se & da & I). split; [repeat eexists; eauto|].
      split; [lia|]. destruct (moves_in u); exact P.
    - destruct F as (r & j & I & <- & _). cbn. apply in_taken in I. now apply (taken_small dF).
  Qed.

  Lemma remembersF log : (exists x, logF = log ++ x) -> all_remembered (messages dF) log.
  Proof.
    intros (x & E) before q n packets after El (dv & dir & ep & fl & st & pk & iv & m & se & da & I & D).
    apply (remF before q n packets (after ++ x)); [rewrite E, El, <- app_assoc; reflexivity|].
    unfold messages in I. apply in_map_iff in I. destruct I as ([r j] & Em & I). unfold msg_of in Em. cbn [fst snd] in Em.
    destruct (ur_what r) as [u|] eqn:U; [|discriminate].
    destruct (junk_submit (dr_devid dF) (ur_seq r) j u) as (ep' & fl' & st' & pk' & iv' & n' & se' & da' & E').
    rewrite E' in Em. injection Em as <- _ Ed _ _ _ _ _ _ _ _. exists (ur_id r), u. split; [exists r, j; auto|].
    destruct (moves_in u); [reflexivity|congruence].
  Qed.

  Definition before_end (w : win) : Prop :=
    (exists x, dr_taken dF = dr_taken (wi_drv w) ++ x) /\
    prefix (pi_in (fw_rep (wi_fwd w))) (concat (map reply_wire rs)) /\ exists x, logF = fw_log (wi_fwd w) ++ x.

  Lemma before_step w l v : win_step w l = Some (Ok v) -> before_end v -> before_end w.
  Proof.
    intros E ((x & X) & Y & (z & Z)). destruct (step_taken _ _ _ E) as (x' & X'). split; [exists (x' ++ x); now rewrite X, X', app_assoc|].
    destruct (win_step_fwd _ _ _ E) as [(_ & <-)|(fl & _ & F)]; [eauto|].
    destruct (fwd_step_rep _ _ _ F) as ((a & A) & (b & B)). rewrite A in Y. apply prefix_app in Y.
    split; [exact Y|]. exists (b ++ z). now rewrite Z, B, app_assoc.
  Qed.

  Lemma rep_pipe w subs cs n : win_inv devid w subs cs n -> (forall side, calm bl side (wi_steps w)) -> before_end w ->
    pipe_ok (map rep_item rs) (fw_rep (wi_fwd w)).
  Proof.
    intros (I1 & _ & I3 & _ & I5 & _ & I7 & _) C ((x & X) & Y & Z).
    destruct (rep_run (messages dF) rs goodF uniqueF nonzeroF answersF mx bl smallF smallR mx48 room _ _ C I1) as (_ & _ & H).
    apply H; [|exact Y|now apply remembersF].
    destruct I3 as (_ & _ & _ & _ & _ & E & _). unfold messages in *. rewrite X, map_app, map_app, concat_app, devF, <- I5, E, <- I7.
    eexists. rewrite <- !app_assoc. reflexivity.
  Qed.

  Definition sound (d : drv) (gv : list reply) (subs : list (nat * urb)) (cs : list nat) : Prop :=
    forall id o, In (id, o) (dr_done d) -> exists u, In (id, u) subs /\
      (In id cs /\ o = given_up Cancelled u \/
       exists q dir n payload, In (RSubmit q dir n payload) gv /\ numbered_block d q id u /\ o = spec_outcome u n payload).

  Definition answered (d : drv) (gv : list reply) : Prop :=
    forall q dir n payload, In (RSubmit q dir n payload) gv -> exists id u, numbered_block d q id u /\ In id (map fst (dr_done d)).

  Definition ends_ok (ls : list win_label) (w : win) : Prop :=
    prompt (fw_rep (wi_fwd w)) /\ exists gv rest, rs = gv ++ rest /\
      concat (pi_out (fw_rep (wi_fwd w))) ++ region (fw_rep (wi_fwd w)) = concat (map reply_host gv) /\
      sound (wi_drv w) gv (submitted ls) (cancelled ls) /\ (in_time devid ls rs -> answered (wi_drv w) gv).

  Lemma numbered_more d d' q id u : (exists x, dr_taken d' = dr_taken d ++ x) -> numbered_block d q id u -> numbered_block d' q id u.
  Proof. intros (x & X) (r & j & I & H). exists r, j. split; [rewrite X; apply in_or_app; now left|exact H]. Qed.

  Lemma sound_more d d' gv gv' subs subs' cs cs' : sound d gv subs cs -> dr_done d' = dr_done d ->
    (exists x, dr_taken d' = dr_taken d ++ x) -> incl gv gv' -> incl subs subs' -> incl cs cs' -> sound d' gv' subs' cs'.
  Proof.
    intros S D T G I C id o H. rewrite D in H. destruct (S id o H) as (u & Iu & Hc). exists u. split; [auto|].
    destruct Hc as [(Hc & E)|(q & dir & n & payload & Hq & Hn & E)]; [left; auto|right].
    exists q, dir, n, payload. split; [auto|]. split; [eapply numbered_more; eauto|exact E].
  Qed.

  Lemma answered_more d d' gv : answered d gv -> (exists x, dr_taken d' = dr_taken d ++ x) ->
    incl (map fst (dr_done d)) (map fst (dr_done d')) -> answered d' gv.
  Proof. intros A T D q dir n payload I. destruct (A q dir n payload I) as (id & u & B & J). exists id, u. split; [eapply numbered_more; eauto|auto]. Qed.

  Lemma in_time_prefix ls l : in_time devid (ls ++ [l]) rs -> in_time devid ls rs.
  Proof. intros T before after w a q dir n payload b E. apply (T before (after ++ [l])). rewrite E, <- app_assoc. reflexivity. Qed.

  Lemma rits_good : Forall (item_ok false false) (map rep_item rs).
  Proof. apply Forall_map. eapply Forall_impl; [|exact answersF]. intros r A. exact (rep_ok _ r goodF A). Qed.

  Lemma outs_good : Forall (fun i => it_out i <> []) (map rep_item rs).
  Proof.
    eapply Forall_impl; [|exact rits_good]. intros i (_ & _ & H & _) E. unfold it_out in E. apply app_eq_nil in E.
    destruct E as (E & _). rewrite E in H. discriminate.
  Qed.

  (* the socket, and the requests *)
  Lemma step_rep f l g : fwd_step f l = Some (Ok g) -> pipe_ok (map rep_item rs) (fw_rep f) ->
    match l with
    | Iterate => True
    | ReadDone false _ => pi_writing (fw_rep f) = None -> prompt (fw_rep f) ->
        prompt (fw_rep g) /\ concat (pi_out (fw_rep g)) ++ region (fw_rep g) = concat (pi_out (fw_rep f)) ++ region (fw_rep f)
    | WriteDone false k => (forall b, pi_writing (fw_rep f) = Some b -> k = len b) -> prompt (fw_rep f) ->
        prompt (fw_rep g) /\ concat (pi_out (fw_rep g)) ++ region (fw_rep g) = concat (pi_out (fw_rep f)) ++ region (fw_rep f)
    | _ => fw_rep g = fw_rep f
    end.
  Proof.
    intros E (dn & rest & raw & _ & C). destruct l as [|[|] b|[|] k]; cbn [fwd_step] in E; [exact Logic.I| | | |].
    - destruct (fw_waiting f); [|discriminate]. destruct (read_done _ _); [|discriminate]. cbn [obind] in E. injection E as <-. reflexivity.
    - intros W K. destruct (fw_waiting f); [|discriminate]. cbn [pipe_of] in E. unfold read_done in E. destruct (pi_reading _); [|discriminate].
      destruct (_ || _); [discriminate|]. cbn [obind] in E. injection E as <-. cbn [with_pipe fw_rep].
      unfold prompt in *. cbn [pi_writing pi_out]. rewrite W in K |- *. destruct (region_nil _ _ C K) as (B & O).
      match goal with |- region ?q = [] /\ _ => assert (region q = []) as -> by (apply nil_region; [exact B|exact O]) end.
      rewrite K. auto.
    - destruct (fw_waiting f); [|discriminate]. destruct (write_done _ _); [|discriminate]. cbn [obind] in E. injection E as <-. reflexivity.
    - intros W K. destruct (fw_waiting f); [|discriminate]. cbn [pipe_of] in E. destruct (write_done (fw_rep f) k) as [q|] eqn:D; [|discriminate].
      cbn [obind] in E. injection E as <-. cbn [with_pipe fw_rep]. pose proof (consumer_written _ _ _ _ C D) as Cq.
      assert (concat (pi_out q) ++ region q = concat (pi_out (fw_rep f)) ++ region (fw_rep f)) as Es.
      { destruct Cq as (_ & _ & _ & Cq & _). destruct C as (_ & _ & _ & C & _). congruence. }
      split; [|exact Es]. unfold write_done in D. destruct (pi_writing (fw_rep f)) as [b|] eqn:Wb; [|discriminate].
      destruct (_ || _); [discriminate|]. injection D as <-. unfold prompt in *. rewrite Wb in K. cbn [pi_writing]. destruct K as (K & _).
      rewrite (W b eq_refl) in Es |- *. cbn [pi_out] in Es. rewrite concat_app, K in Es. cbn [concat] in Es. rewrite app_nil_r, takeN_all in Es by lia.
      apply (app_inv_head (concat (pi_out (fw_rep f)) ++ b)). rewrite app_nil_r. exact Es.
  Qed.

  Lemma last_of_done d (x : nat * outcome) : incl (map fst (dr_done d)) (map fst (dr_done d ++ [x])).
  Proof. rewrite map_app. apply incl_appl, incl_refl. Qed.

  Lemma ends_step ls l w v : win_inv devid w (submitted ls) (cancelled ls) (length ls) ->
    win_inv devid v (submitted (ls ++ [l])) (cancelled (ls ++ [l])) (length (ls ++ [l])) ->
    Forall (fun x => known (snd x)) (submitted (ls ++ [l])) ->
    NoDup (map fst (submitted (ls ++ [l]))) -> N.of_nat (length (ls ++ [l])) < 4294967296 ->
    (forall a, l <> WAbort a) -> (forall id r, l = WCancel id -> dr_partial (wi_drv w) = Holds r -> ur_id r <> id) ->
    (forall side, calm bl side (wi_steps v)) -> before_end v -> win_run (win0 devid) (ls ++ [l]) = Some (Ok v) ->
    win_step w l = Some (Ok v) -> ends_ok ls w -> ends_ok (ls ++ [l]) v.
  Proof.
    intros I Iv Kn Nd Wd Ab Ca C Be Rv E (K & gv & rest & Er & Eo & So & An).
    pose proof (before_step _ _ _ E Be) as Bw.
    assert (forall side, calm bl side (wi_steps w)) as Cw by (intro side; eapply part_calm; [eapply win_step_fwd; exact E|apply C]).
    pose proof (rep_pipe _ _ _ _ I Cw Bw) as P. pose proof (rep_pipe _ _ _ _ Iv C Be) as Pv.
    pose proof (step_taken _ _ _ E) as Tk.
    assert (incl (submitted ls) (submitted (ls ++ [l]))) as Is by (rewrite submitted_app; apply incl_appl, incl_refl).
    assert (incl (cancelled ls) (cancelled (ls ++ [l]))) as Ic by (unfold cancelled; rewrite flat_map_app; apply incl_appl, incl_refl).
    (* nothing ended *)
    assert (prompt (fw_rep (wi_fwd v)) -> dr_done (wi_drv v) = dr_done (wi_drv w) ->
      concat (pi_out (fw_rep (wi_fwd v))) ++ region (fw_rep (wi_fwd v)) = concat (pi_out (fw_rep (wi_fwd w))) ++ region (fw_rep (wi_fwd w)) ->
      ends_ok (ls ++ [l]) v) as Same.
    { intros Kv D Eq. split; [exact Kv|]. exists gv, rest. split; [exact Er|]. split; [congruence|].
      split; [eapply sound_more; eauto; apply incl_refl|]. intro T. apply in_time_prefix in T. eapply answered_more; eauto. rewrite D. apply incl_refl. }
    pose proof I as (_ & I2 & I3 & I4 & _ & I6 & _).
    rewrite app_length in Wd. cbn [length] in Wd.
    assert (N.of_nat (length (taken (wi_drv w))) + 1 < 4294967296) as Wt by lia.
    destruct l as [id u|id|a|junk| | |data|k].
    - cbn [win_step] in E. destruct (submit_block (wi_drv w) id u) as [d' b] eqn:B. injection E as <-.
      rewrite submitted_app in Kn, Nd. apply Forall_app in Kn. destruct Kn as (_ & Kn). inversion Kn as [|? ? Ku _]. subst. cbn [snd] in Ku.
      destruct (submit_hist _ _ _ _ _ _ _ I4 I3 Ku Nd Wt B) as (_ & _ & _ & _ & _ & D & _). now apply Same.
    - cbn [win_step] in E. destruct (cancel_block (wi_drv w) id) as [[d' b]|] eqn:B; [|discriminate]. cbn [obind] in E. injection E as <-.
      assert (NoDup (map fst (submitted ls))) as N0 by (rewrite submitted_app, map_app in Nd; now apply NoDup_left in Nd).
      destruct (cancel_hist _ _ _ _ _ _ I4 I3 N0 (fun r => Ca id r eq_refl) Wt B) as (_ & _ & _ & _ & _ & _ & r & u & U & Ri & Ir & _ & D).
      split; [exact K|]. exists gv, rest. split; [exact Er|]. split; [exact Eo|]. cbn [wi_drv] in *.
      assert (In (id, u) (submitted ls)) as Iu.
      { rewrite <- Ri. apply in_app_or in Ir. eapply entry_known; eauto. apply in_or_app. destruct Ir as [Ir|Ir]; [now right|left].
        destruct I4 as (_ & _ & _ & _ & _ & I4). apply I4, in_or_app. now left. }
      split.
      + intros i o J. rewrite D in J. apply in_app_or in J. destruct J as [J|[[=<- <-]|[]]].
        * assert (sound (finish (wi_drv w) 0 (mk_outcome Success 0 [])) gv (submitted ls) (cancelled ls) -> True) as _ by auto.
          destruct (So i o J) as (u' & Iu' & Hc). exists u'. split; [auto|].
          destruct Hc as [(Hc & Eq)|(q & dir & n & payload & Hq & Hn & Eq)]; [left; auto|right].
          exists q, dir, n, payload. split; [auto|]. split; [eapply numbered_more; eauto|exact Eq].
        * exists u. split; [auto|]. left. split; [|reflexivity]. unfold cancelled. rewrite flat_map_app. apply in_or_app. right. now left.
      + intro T. apply in_time_prefix in T. eapply answered_more; eauto. rewrite D. apply last_of_done.
    - destruct (Ab a eq_refl).
    - (* the loop *)
      cbn [win_step] in E. rewrite I2 in E. destruct (_ && _); [discriminate|].
      destruct (fwd_step (wi_fwd w) Iterate) as [[g|]|] eqn:F; cbn [obind rbind] in E; try discriminate. injection E as E.
      destruct (match starts (pi_reading _) _ with Some n => _ | None => _ end) as [[d1 rr]|] eqn:R; cbn [rbind] in E; [|discriminate].
      destruct (match starts (pi_writing _) _ with Some b => _ | None => _ end) as [d2|] eqn:Wr; cbn [rbind] in E; [|discriminate].
      injection E as <-. cbn [wi_drv wi_fwd] in *.
      assert (rr <> Fails) as Nf by (destruct Iv as (_ & Iv & _); cbn [wi_ended] in Iv; destruct rr; congruence).
      assert (dr_done d1 = dr_done (wi_drv w) /\ (exists x, dr_taken d1 = dr_taken (wi_drv w) ++ x) /\
        incl (dr_sent d1 ++ in_slot (dr_partial d1)) (taken d1)) as (D1 & T1 & S1).
      { assert (incl (dr_sent (wi_drv w) ++ in_slot (dr_partial (wi_drv w))) (taken (wi_drv w))) as S0 by apply I4.
        destruct (starts (pi_reading _) _) in R.
        - destruct (read_facts _ _ _ _ _ R Nf) as (D1 & _ & T1 & S1). auto.
        - injection R as <- _. split; [reflexivity|]. split; [exists []; now rewrite app_nil_r|exact S0]. }
      assert (same_reads d1 d2) as Sr.
      { destruct (starts (pi_writing _) _) in Wr; [now apply write_same in Wr|]. injection Wr as <-. repeat split. }
      cbn [fwd_step] in F. injection F as F. destruct (iterate_parts _ _ F) as (c1 & _ & T2 & _ & _).
      destruct (turn_prompt _ _ _ _ _ P Pv K T2) as (Kv & Ov & Hw).
      destruct Hw as [(W1 & W2)|(W1 & b & W2)].
      + assert (starts (pi_writing (fw_rep (wi_fwd w))) (pi_writing (fw_rep g)) = None) as Sn by (rewrite W1; destruct (pi_writing _); reflexivity).
        rewrite Sn in Wr. injection Wr as <-. apply Same; [exact Kv|exact D1|]. now rewrite Ov, W2.
      + rewrite W1, W2 in Wr. cbn [starts] in Wr.
        assert (region (fw_rep (wi_fwd w)) = []) as Rg by (unfold prompt in K; now rewrite W1 in K).
        assert (pi_in (fw_rep g) = pi_in (fw_rep (wi_fwd w))) as Eq by (now destruct (turn_ends _ _ _ _ T2)).
        destruct (rep_new _ _ _ _ _ _ rits_good P Pv Eq Ov Rg W2 Kv) as (dn & i & rest' & Ei & Ed & Eb & Ein).
        rewrite Rg, app_nil_r in Eo.
        assert (dn = map rep_item gv) as ->.
        { eapply (prefix_items _ outs_good); [exact Ei|rewrite Er, map_app; reflexivity|]. now rewrite rep_out_map, <- Ed. }
        rewrite Er, map_app in Ei. apply app_inv_head in Ei. destruct rest as [|r rest]; [discriminate|]. cbn [map] in Ei. injection Ei as <- _.
        rewrite rep_out in Eb. subst b.
        assert (fair_one dF r) as Fr.
        { pose proof fair as Fa. rewrite Forall_forall in Fa. apply Fa. rewrite Er. apply in_or_app. right. now left. }
        assert (incl (taken d1) (taken dF)) as Tf.
        { destruct Be as ((x & X) & _). cbn [wi_drv] in X. destruct Sr as (_ & _ & _ & _ & _ & Et & _). rewrite Et in X.
          unfold taken. rewrite X, map_app. apply incl_appl, incl_refl. }
        assert (incl (dr_sent d1) (taken d1)) as Ss by (intros y Y; apply S1, in_or_app; now left).
        destruct (write_reply dF d1 r okF lenF (incl_tran Ss Tf) Fr) as (d2' & Ew & Cp & Cq). rewrite Wr in Ew. injection Ew as <-.
        assert (exists x, dr_taken d2 = dr_taken d1 ++ x) as T12.
        { destruct Sr as (_ & _ & _ & _ & _ & Et & _). rewrite Et. exists []. now rewrite app_nil_r. }
        assert (incl (map fst (dr_done d1)) (map fst (dr_done d2))) as D12.
        { destruct Cp as [->|(x & u & q & dir & n & payload & _ & _ & _ & _ & ->)]; [apply incl_refl|apply last_of_done]. }
        split; [exact Kv|]. exists (gv ++ [r]), rest. split; [rewrite Er, <- app_assoc; reflexivity|].
        split.
        { cbn [wi_fwd]. rewrite Ov, Eo, map_app, concat_app. cbn [map concat]. rewrite app_nil_r. f_equal.
          unfold prompt in Kv. rewrite W2 in Kv. tauto. }
        cbn [wi_drv]. split.
        * intros id o J. assert (In (id, o) (dr_done (wi_drv w)) -> exists u, In (id, u) (submitted (ls ++ [WLoop junk])) /\
            (In id (cancelled (ls ++ [WLoop junk])) /\ o = given_up Cancelled u \/
             exists q dir n payload, In (RSubmit q dir n payload) (gv ++ [r]) /\ numbered_block d2 q id u /\ o = spec_outcome u n payload)) as Old.
          { intro J'. destruct (So id o J') as (u' & Iu' & Hc). exists u'. split; [auto|].
            destruct Hc as [(Hc & Eq')|(q & dir & n & payload & Hq & Hn & Eq')]; [left; auto|right].
            exists q, dir, n, payload. split; [apply in_or_app; now left|]. split; [eapply numbered_more; [exact Tk|exact Hn]|exact Eq']. }
          rewrite <- D1 in Old. destruct Cp as [Cp|(x & u & q & dir & n & payload & -> & Ix & Qx & Ux & Cp)]; [rewrite Cp in J; auto|].
          rewrite Cp in J. apply in_app_or in J. destruct J as [J|[[=<- <-]|[]]]; [auto|].
          exists u. assert (In x (taken d2)) as Ix2.
          { destruct Sr as (_ & _ & _ & _ & _ & Et & _). unfold taken. rewrite Et. apply Ss, Ix. }
          split.
          { destruct Iv as (_ & _ & _ & Iv & _). eapply entry_known; [exact Iv| |exact Ux]. apply in_or_app. now left. }
          right. exists q, dir, n, payload. split; [apply in_or_app; right; now left|]. split; [|reflexivity].
          unfold taken in Ix2. apply in_map_iff in Ix2. destruct Ix2 as ([x' j] & Ex & Ix2). cbn [fst] in Ex. subst x'. exists x, j. auto.
        * intro T. pose proof (in_time_prefix _ _ T) as T0. intros q dir n payload J. apply in_app_or in J. destruct J as [J|[->|[]]].
          -- assert (answered d1 gv) as A1 by (eapply answered_more; [now apply An|exact T1|rewrite D1; apply incl_refl]).
             apply (answered_more _ d2) in A1; auto. exact (A1 _ _ _ _ J).
          -- destruct (T (ls ++ [WLoop junk]) [] _ gv q dir n payload rest (eq_sym (app_nil_r _)) Rv Er) as ((id & u & Nb) & Nh).
             { cbn [wi_fwd]. rewrite Ein, map_app. cbn [map]. rewrite <- (rep_in (RSubmit q dir n payload)).
               rewrite !concat_app, <- rep_in_map, map_app, !concat_app. cbn [map concat]. lia. }
             cbn [wi_drv] in Nb, Nh. exists id, u. split; [exact Nb|]. destruct Nb as (x & j & Ix & Qx & Idx & Ux).
             pose proof (in_taken _ _ _ Ix) as It.
             destruct (live devid _ _ _ x u Iv Nd Rv It Ux) as [L|L]; cbn [wi_drv] in L; [|now rewrite Idx in L].
             apply in_app_or in L. destruct L as [L|L].
             ++ apply write_same in Wr. destruct Wr as (_ & Si). rewrite <- Idx. eapply Cq; [reflexivity|apply Si; exact L|exact Qx].
             ++ destruct (dr_partial d2) as [|y|] eqn:Pd; cbn [in_slot] in L; [destruct L| |destruct L]. destruct L as [->|[]].
                destruct (Nh x eq_refl Qx).
    - cbn [win_step] in E. rewrite I2 in E. destruct (wi_ready w) as [b|]; [|discriminate]. cbn [obind] in E. unfold fwd_does in E.
      destruct (fwd_step _ _) as [[g|]|] eqn:F; cbn [obind rbind] in E; try discriminate. injection E as <-.
      pose proof (step_rep _ _ _ F P) as Eq. cbn [wi_fwd wi_drv] in *. apply Same; rewrite ?Eq; auto.
    - cbn [win_step] in E. rewrite I2 in E. destruct (pi_writing _) as [b|] eqn:W; [|discriminate]. cbn [obind] in E. unfold fwd_does in E.
      destruct (fwd_step _ _) as [[g|]|] eqn:F; cbn [obind rbind] in E; try discriminate. injection E as <-.
      destruct (step_rep _ _ _ F P) as (Kv & Eq); [intros b'; rewrite W; now intros [=->]|exact K|]. now apply Same.
    - cbn [win_step] in E. rewrite I2 in E. destruct (pi_writing _) as [b|] eqn:W; [discriminate|]. unfold fwd_does in E.
      destruct (fwd_step _ _) as [[g|]|] eqn:F; cbn [obind rbind] in E; try discriminate. injection E as <-.
      destruct (step_rep _ _ _ F P W K) as (Kv & Eq). now apply Same.
    - cbn [win_step] in E. rewrite I2 in E. unfold fwd_does in E.
      destruct (fwd_step _ _) as [[g|]|] eqn:F; cbn [obind rbind] in E; try discriminate. injection E as <-.
      pose proof (step_rep _ _ _ F P) as Eq. cbn [wi_fwd wi_drv] in *. apply Same; rewrite ?Eq; auto.
  Qed.

  Theorem ends_run ls : forall w, Forall (fun x => known (snd x)) (submitted ls) ->
    Forall (fun x => len (buffer (snd x)) + 48 <= mx) (submitted ls) ->
    NoDup (map fst (submitted ls)) -> orderly devid ls -> N.of_nat (length ls) < 4294967296 ->
    win_run (win0 devid) ls = Some (Ok w) -> (forall side, calm bl side (wi_steps w)) -> before_end w -> ends_ok ls w.
  Proof.
    induction ls as [|l ls IH] using rev_ind; intros v K S N O W R C B.
    - injection R as <-. split; [reflexivity|]. exists [], rs. split; [reflexivity|]. split; [reflexivity|].
      split; [intros id o []|intros _ q dir n payload []].
    - pose proof (run_inv devid mx bl _ v d32 mx48 room K S N O W R (C true)) as Iv.
      destruct (win_run_snoc _ _ _ _ R) as (w & Rw & E).
      assert (forall side, calm bl side (wi_steps w)) as Cw by (intro side; eapply part_calm; [eapply win_step_fwd; exact E|apply C]).
      assert (Forall (fun x => known (snd x)) (submitted ls) /\ Forall (fun x => len (buffer (snd x)) + 48 <= mx) (submitted ls) /\
        NoDup (map fst (submitted ls))) as (K' & S' & N').
      { rewrite submitted_app in K, S, N. rewrite map_app in N. apply Forall_app in K, S. apply NoDup_left in N. tauto. }
      pose proof (orderly_prefix _ _ _ O) as O'. assert (N.of_nat (length ls) < 4294967296) as W' by (rewrite app_length in W; lia).
      pose proof (run_inv devid mx bl _ w d32 mx48 room K' S' N' O' W' Rw (Cw true)) as Iw.
      pose proof (before_step _ _ _ E B) as Bw. destruct O as (O1 & O2).
      apply (ends_step ls l w v); auto.
      + intros a ->. apply (O1 a), in_or_app. right. now left.
      + intros id r -> P. apply (O2 ls id [] w r); auto.
  Qed.
End Answers.
