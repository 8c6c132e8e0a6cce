(* The life of the whole device is a history of requests, and everything on the wire is
   explained by it. *)
From Verif Require Import Base M_Util M_Usb M_ReqBuf M_Usbip M_Hid M_Crypto M_Cose M_State M_Client M_Ctap M_U2f M_History
  M_Device S_ReqBuf S_Usbip S_UsbipSys S_Hid S_Device P_Usbip2 P_Usbip3 P_Hid2 P_Device1 P_Device2.
From Coq Require Import Lia.

Lemma since_start_new h p : since_start (h ++ [HStart p]) = [].
Proof.
  induction h as [|e h IH]; [reflexivity|]. cbn [app since_start].
  rewrite existsb_app. cbn [existsb is_start]. rewrite orb_true_r. exact IH.
Qed.

Lemma since_start_more h e : existsb is_start h = true -> is_start e = false ->
  since_start (h ++ [e]) = since_start h ++ [e].
Proof.
  intros H He. induction h as [|x h IH]; [discriminate H|]. cbn [app since_start existsb] in *.
  rewrite existsb_app. cbn [existsb]. rewrite He, !orb_false_r.
  destruct (existsb is_start h) eqn:X; [now apply IH|].
  rewrite orb_false_r in H. rewrite H. reflexivity.
Qed.

Lemma up_started E h w up : history E h up w -> up = true -> existsb is_start h = true.
Proof.
  induction 1; intro U; try discriminate U; rewrite existsb_app.
  - cbn. now rewrite orb_true_r.
  - now rewrite IHhistory.
Qed.

Lemma starts_app a b : starts_of (a ++ b) = starts_of a ++ starts_of b.
Proof. apply flat_map_app. Qed.

Record dev_ok (h : list entry) (d : dev) : Prop := mk_dev_ok {
  dk_wire : wire_inv (de_sys d);
  dk_untouched : untouched (de_sys d);
  dk_waiting : waiting (sy_delegate (de_sys d)) (de_srv d);
  dk_queue : forall p, In p (de_queue d) -> explained (sy_delegate (de_sys d)) h p;
  dk_made : forall p, made (de_sys d) p -> explained (sy_delegate (de_sys d)) h p;
  dk_nodup : NoDup (de_taken d);
  dk_taken : forall i, In i (de_taken d) -> (i < length (sy_delegate (de_sys d)))%nat;
  dk_count : (length (filter is_request h) <= length (de_taken d))%nat;
  dk_from : Forall (came_from (sy_delegate (de_sys d))) h }.

Lemma came_from_mono w w' e : incl w w' -> came_from w e -> came_from w' e.
Proof.
  intros I. destruct e as [| |[] |[]|[]]; cbn; auto; intros [ch H]; eauto using requested_mono.
Qed.

Lemma explained_written w h p : explained w h p -> w <> [].
Proof.
  intros X ->. destruct X as [ch m H|ch f c H|n m i H|ch d H|ch m r H|ch m r H]; try destruct H as (f & l & [] & _); destruct H.
Qed.

Lemma dev_ok_init s w : Forall wfb s -> dev_ok [] (dev_init s w).
Proof.
  intro W. constructor; cbn [dev_init de_sys de_srv de_queue de_taken sys_init sy_delegate]; try (now auto); try easy.
  - now apply wire_init.
  - right. auto.
  - exact waiting_new.
  - constructor.
Qed.

(* steps of the USB side other than responses *)
Lemma delegate_grows s l s' : wire_inv s -> sys_step s l = Some s' -> exists x, sy_delegate s' = sy_delegate s ++ x.
Proof.
  intros I E. rewrite (wi_delegate s I), (wi_delegate s' (wire_step _ _ _ I E)).
  destruct (sys_step_log _ _ _ E) as [x ->]. rewrite written_app. eauto.
Qed.

Definition not_respond (l : sys_label) : Prop := match l with SRespond _ _ => False | _ => True end.

Lemma made_same s l s' : not_respond l -> sys_step s l = Some s' -> forall p, made s' p -> made s p.
Proof.
  unfold made. intros NR E p. destruct l as [| |choice data|j|j]; cbn [sys_step] in E.
  - destruct (sy_pending s); [discriminate|]. destruct (conn_step _ _) as [c a].
    destruct a as [|r|d h st b|d h t].
    + now injection E as <-.
    + now injection E as <-.
    + destruct (hd_ep h =? 0); [destruct (handle_control_message _); now injection E as <-|].
      destruct (hd_ep h =? 1).
      * cbn [in_step] in E. destruct (rb_request _ _ _) as [bf now]. cbn [obind] in E. injection E as <-.
        cbn [sy_in in_trace]. intro H. apply in_app_or in H as [H|[H|H]]; [exact H|discriminate H|].
        destruct now; [destruct H as [H|[]]; discriminate H|destruct H].
      * destruct (hd_ep h =? 2); now injection E as <-.
    + cbn [in_step] in E. destruct (rb_cancel _ _) as [bf rm]. cbn [obind] in E. injection E as <-.
      cbn [sy_in in_trace]. intro H. apply in_app_or in H as [H|[H|[]]]; [exact H|discriminate H].
  - destruct (sy_pending s); [|discriminate]. now injection E as <-.
  - destruct NR.
  - destruct (nth_error (in_flight (sy_in s)) j) as [f|] eqn:F; [|discriminate]. cbn [obind] in E.
    destruct (nth_error (sy_subs s) (fl_key f)) as [[h b]|]; [|discriminate]. cbn [obind] in E.
    cbn [in_step] in E. rewrite F in E. injection E as <-.
    cbn [sy_in in_trace]. intro H. apply in_app_or in H as [H|[H|[]]]; [exact H|discriminate H].
  - cbn [in_step] in E. destruct (nth_error _ _) as [[id k]|]; [|discriminate].
    destruct (rb_cancel _ _) as [bf rm]. cbn [obind] in E. injection E as <-.
    cbn [sy_in in_trace]. intro H. apply in_app_or in H as [H|[H|[]]]; [exact H|discriminate H].
Qed.

Lemma made_respond s c dt s' : sys_step s (SRespond c dt) = Some s' -> forall p, made s' p -> made s p \/ p = dt.
Proof.
  unfold made. cbn [sys_step in_step]. intros E p.
  destruct (rb_respond _ _ _) as [[bf cb]|]; [|discriminate]. cbn [obind] in E. injection E as <-.
  cbn [sy_in in_trace]. intro H. apply in_app_or in H as [H|[H|[]]]; [now left|right; now injection H as <-].
Qed.

Lemma incl_app_l {A} (a b : list A) : incl a (a ++ b).
Proof. intros x H. apply in_or_app. now left. Qed.

Lemma dev_ok_sys h d l s' q : dev_ok h d -> sys_step (de_sys d) l = Some s' ->
  match l with SRespond _ dt => exists rest, de_queue d = dt :: rest /\ q = rest | _ => q = de_queue d end ->
  dev_ok h (mk_dev s' (de_taken d) (de_srv d) (de_world d) q).
Proof.
  intros K E Hq. pose proof (dk_wire _ _ K) as I.
  pose proof (wire_step _ _ _ I E) as I'. destruct (delegate_grows _ _ _ I E) as [x X].
  constructor; cbn [de_sys de_srv de_queue de_taken]; rewrite ?X.
  - exact I'.
  - eapply untouched_step; [exact I|apply K|exact E|]. destruct l; try exact Logic.I.
    destruct Hq as (rest & Q & _). intro Z. apply (explained_written _ _ data (dk_queue _ _ K data ltac:(rewrite Q; now left))).
    rewrite (wi_delegate _ I). unfold written_of. now rewrite Z.
  - eapply waiting_mono; [apply incl_app_l|apply K].
  - intros p Hp. eapply explained_mono; [apply incl_app_l|apply incl_refl|]. apply (dk_queue _ _ K).
    destruct l; try (now subst q). destruct Hq as (rest & Q & ->). rewrite Q. now right.
  - intros p Hp. eapply explained_mono; [apply incl_app_l|apply incl_refl|].
    destruct l; try (apply (dk_made _ _ K); eapply made_same; [|exact E|exact Hp]; exact Logic.I).
    apply (made_respond _ _ _ _ E) in Hp as [Hp| ->]; [now apply (dk_made _ _ K)|].
    apply (dk_queue _ _ K). destruct Hq as (rest & -> & _). now left.
  - apply K.
  - intros i Hi. rewrite app_length. apply (dk_taken _ _ K) in Hi. lia.
  - apply K.
  - eapply Forall_impl; [|apply K]. intros e. apply came_from_mono, incl_app_l.
Qed.

Lemma nodup_bound l n : NoDup l -> (forall i, In i l -> (i < n)%nat) -> (length l <= n)%nat.
Proof.
  intros H B. rewrite <- (seq_length n 0). apply NoDup_incl_length; [exact H|].
  intros i Hi. apply in_seq. apply B in Hi. lia.
Qed.

Lemma handle_ctap E m w w' r : ctap_handle E m w = (w', r) ->
  handle E (ICtap m) w = (w', match r with Ok b => Ok (OBytes b) | Panic => Panic end).
Proof. intro H. unfold handle, fmapM, bind. rewrite H. destruct r; reflexivity. Qed.

Lemma handle_u2f E m w w' r : u2f_handle E m w = (w', r) ->
  handle E (IU2f m) w = (w', match r with Ok b => Ok (OBytes b) | Panic => Panic end).
Proof. intro H. unfold handle, fmapM, bind. rewrite H. destruct r; reflexivity. Qed.

(* One step: nothing happens to the authenticator, or one request is handled. *)
Inductive did (E : Env) (d : dev) (m : moved) (h : list entry) : Prop :=
| Did_nothing : world_after m = de_world d ->
    match m with Running d' => dev_ok h d' | Dead _ => True end -> did E d m h
| Did_request i o : good_input i -> handle E i (de_world d) = (world_after m, o) ->
    match m, o with
    | Running d', Ok r => dev_ok (h ++ [HDone i r]) d'
    | Dead _, Panic => True
    | _, _ => False
    end -> did E d m h.

Lemma dev_ok_handled h d i o es : dev_ok h d -> nth_error (sy_delegate (de_sys d)) i <> None ->
  existsb (Nat.eqb i) (de_taken d) = false -> waiting (sy_delegate (de_sys d)) (o_srv o) ->
  (forall p, In p (o_packets o) -> explained (sy_delegate (de_sys d)) (h ++ es) p) ->
  (length (filter is_request es) <= 1)%nat -> Forall (came_from (sy_delegate (de_sys d))) es ->
  dev_ok (h ++ es) (mk_dev (de_sys d) (i :: de_taken d) (o_srv o) (o_app o) (de_queue d ++ o_packets o)).
Proof.
  intros K Hi Ht Hw Hp Hc Hf. constructor; cbn [de_sys de_srv de_queue de_taken].
  - apply K.
  - apply K.
  - exact Hw.
  - intros p H. apply in_app_or in H as [H|H]; [|now apply Hp].
    eapply explained_mono; [apply incl_refl|apply incl_app_l|]. now apply (dk_queue _ _ K).
  - intros p H. eapply explained_mono; [apply incl_refl|apply incl_app_l|]. now apply (dk_made _ _ K).
  - constructor; [|apply K]. intro H. assert (existsb (Nat.eqb i) (de_taken d) = true) as X.
    { apply existsb_exists. exists i. split; [exact H|apply Nat.eqb_refl]. }
    rewrite X in Ht. discriminate Ht.
  - intros j [<-|H]; [now apply nth_error_Some|now apply (dk_taken _ _ K)].
  - rewrite filter_app, app_length. pose proof (dk_count _ _ K). cbn [length]. lia.
  - apply Forall_app. split; [apply K|exact Hf].
Qed.

Lemma step_did E h d l m : dev_ok h d -> label_ok l -> dev_step E d l = Some m -> did E d m h.
Proof.
  intros K L S.
  assert (SY : forall l', not_respond l' -> in_sys d l' = Some m -> did E d m h).
  { intros l' NR H. unfold in_sys in H. destruct (sys_step (de_sys d) l') as [s'|] eqn:E1; [|discriminate H].
    cbn [obind] in H. injection H as <-. apply Did_nothing; [reflexivity|].
    apply (dev_ok_sys h d l'); auto. destruct l'; auto. destruct NR. }
  destruct l as [| |i|i|i ka|choice|i|s]; cbn [dev_step] in S.
  - now apply (SY SRead).
  - now apply (SY SWrite).
  - now apply (SY (SRun i)).
  - now apply (SY (STimeout i)).
  - destruct (existsb (Nat.eqb i) (de_taken d)) eqn:T; [discriminate S|].
    destruct (nth_error (sy_delegate (de_sys d)) i) as [msg|] eqn:Nt; [|discriminate S]. cbn [obind] in S.
    destruct (hid_handle_called (device_apps E) (sy_delegate (de_sys d)) (de_srv d) (de_world d) ka msg
      (wi_wfb _ (dk_wire _ _ K)) (nth_error_In _ _ Nt) (dk_waiting _ _ K)) as [C W].
    set (o := hid_handle (device_apps E) (de_srv d) (de_world d) ka msg) in *.
    assert (Ni : nth_error (sy_delegate (de_sys d)) i <> None) by (rewrite Nt; discriminate).
    destruct C as [C1 C2|ch q r Q1 Q2 Q3 Q4|ch q r Q1 Q2 Q3 Q4].
    + destruct (o_res o) as [u|]; injection S as <-; (apply Did_nothing; [exact C1|]); [|exact Logic.I].
      rewrite <- (app_nil_r h). apply dev_ok_handled; auto.
    + change (ctap_handle E q (de_world d) = (o_app o, r)) in Q3. apply handle_ctap in Q3.
      destruct r as [b|].
      * destruct Q4 as [R Q4]. rewrite R in S. injection S as <-.
        eapply Did_request; [|exact Q3|]; [exact Q2|]. apply dev_ok_handled; auto.
        -- intros p Hp. apply Q4; [|exact Hp]. apply in_or_app. right. now left.
        -- constructor; [|constructor]. cbn. eauto.
      * rewrite Q4 in S. injection S as <-. eapply Did_request; [|exact Q3|]; [exact Q2|]. exact Logic.I.
    + change (u2f_handle E q (de_world d) = (o_app o, r)) in Q3. apply handle_u2f in Q3.
      destruct r as [b|].
      * destruct Q4 as [R Q4]. rewrite R in S. injection S as <-.
        eapply Did_request; [|exact Q3|]; [exact Q2|]. apply dev_ok_handled; auto.
        -- intros p Hp. apply Q4; [|exact Hp]. apply in_or_app. right. now left.
        -- constructor; [|constructor]. cbn. eauto.
      * rewrite Q4 in S. injection S as <-. eapply Did_request; [|exact Q3|]; [exact Q2|]. exact Logic.I.
  - destruct (de_queue d) as [|p rest] eqn:Q; [discriminate S|].
    destruct (respond_idle (sy_in (de_sys d))); [|discriminate S].
    destruct (sys_step (de_sys d) (SRespond choice p)) as [s'|] eqn:E1; [|discriminate S].
    cbn [obind] in S. injection S as <-. apply Did_nothing; [reflexivity|].
    apply (dev_ok_sys h d (SRespond choice p)); auto. rewrite Q. eauto.
  - destruct (local_input i) eqn:LI; [|discriminate S].
    destruct (handle E i (de_world d)) as [w [o|]] eqn:Hh; injection S as <-;
      (eapply Did_request; [exact L|exact Hh|]); [|exact Logic.I].
    destruct K. constructor; cbn [de_sys de_srv de_queue de_taken]; auto.
    + intros p H. eapply explained_mono; [apply incl_refl|apply incl_app_l|]. auto.
    + intros p H. eapply explained_mono; [apply incl_refl|apply incl_app_l|]. auto.
    + rewrite filter_app, app_length. destruct i; try discriminate LI; cbn; lia.
    + apply Forall_app. split; [assumption|]. constructor; [|constructor]. destruct i; try discriminate LI; exact Logic.I.
  - destruct (cn_phase (sy_conn (de_sys d))) eqn:P; try discriminate S. injection S as <-.
    apply Did_nothing; [reflexivity|].
    destruct (dk_untouched _ _ K) as [(x & X)|(U1 & U2 & U3)]; [rewrite P in X; discriminate X|].
    assert (D : sy_delegate (de_sys d) = []).
    { rewrite (wi_delegate _ (dk_wire _ _ K)). unfold written_of. now rewrite U1. }
    rewrite U2, U3, D. destruct K. rewrite D in *. constructor; cbn [de_sys de_srv de_queue de_taken sy_delegate]; auto.
    + apply (wire_init s L).
    + right. auto.
    + intros p [].
Qed.

(* Death between two requests: as a request arrives. *)
Lemma kill_idle E H w : history E H true w ->
  history E (H ++ [HCrash (ICtap [])]) false {| w_client := w_client w; w_tick := w_tick w; w_trace := w_trace w |}.
Proof.
  intro Hh. rewrite <- (app_nil_r (w_trace w)) at 1.
  refine (H_crash E H w (ICtap []) w Panic [] [] Hh _ _ _).
  - constructor.
  - reflexivity.
  - cbn. now rewrite app_nil_r.
Qed.

Lemma life_history E ps s : life E ps s -> exists H, history E H (is_up s) (world_of s) /\ starts_of H = ps /\
  match s with Up d => dev_ok (since_start H) d | Down _ => True end.
Proof.
  induction 1 as [c t|ps w p w' s L (H & A & B & _) W St|ps w p w' L (H & A & B & _) St
    |ps d l d' L (H & A & B & C) Lo St|ps d l w L (H & A & B & C) Lo St|ps d l m es rest L (H & A & B & C) Lo St Tr];
    cbn [is_up world_of] in *.
  - exists []. split; [constructor|]. split; [reflexivity|exact Logic.I].
  - exists (H ++ [HStart p]). split; [eapply H_start; eauto|]. split; [now rewrite starts_app, B|].
    rewrite since_start_new. now apply dev_ok_init.
  - exists (H ++ [HStartFailed p]). split; [eapply H_start_failed; eauto|]. split; [now rewrite starts_app, B|exact Logic.I].
  - destruct (step_did _ _ _ _ _ C Lo St) as [D1 D2|i o G D1 D2]; cbn [world_after] in D1.
    + exists H. rewrite D1. auto.
    + destruct o as [r|]; [|destruct D2]. exists (H ++ [HDone i r]). split; [eapply H_done; eauto|].
      split; [rewrite starts_app, B; apply app_nil_r|].
      rewrite since_start_more; [exact D2|eapply up_started; eauto|reflexivity].
  - destruct (step_did _ _ _ _ _ C Lo St) as [D1 D2|i o G D1 D2]; cbn [world_after] in D1.
    + subst w. exists (H ++ [HCrash (ICtap [])]). split; [|split; [rewrite starts_app, B; apply app_nil_r|exact Logic.I]].
      apply kill_idle in A. destruct (de_world d). exact A.
    + destruct o as [r|]; [destruct D2|]. exists (H ++ [HPanic i]). split; [eapply H_panic; eauto|].
      split; [rewrite starts_app, B; apply app_nil_r|exact Logic.I].
  - destruct (step_did _ _ _ _ _ C Lo St) as [D1 D2|i o G D1 D2].
    + rewrite D1 in *. exists (H ++ [HCrash (ICtap [])]).
      split; [|split; [rewrite starts_app, B; apply app_nil_r|exact Logic.I]].
      assert (es = []) as ->.
      { rewrite <- (app_nil_r (w_trace (de_world d))) in Tr at 1. apply app_inv_head in Tr.
        symmetry in Tr. now apply app_eq_nil in Tr. }
      rewrite app_nil_r. now apply kill_idle.
    + exists (H ++ [HCrash i]). split; [|split; [rewrite starts_app, B; apply app_nil_r|exact Logic.I]].
      eapply H_crash; eauto.
Qed.

(* In the words of S_Device. *)
Lemma device_history E ps s : life E ps s -> exists h, history E h (is_up s) (world_of s) /\ starts_of h = ps /\
  match s with
  | Down _ => True
  | Up d =>
    let log := sy_log (de_sys d) in let now := since_start h in
    Forall (came_from (written_of log)) now /\
    (length (filter is_request now) <= length (written_of log))%nat /\
    Forall (on_wire log (explained (written_of log) now)) (sy_out (de_sys d))
  end.
Proof.
  intro L. destruct (life_history _ _ _ L) as (H & A & B & C). exists H. split; [exact A|]. split; [exact B|].
  destruct s as [w|d]; [exact Logic.I|]. cbv zeta. rewrite <- (wi_delegate _ (dk_wire _ _ C)).
  split; [apply C|]. split.
  - pose proof (dk_count _ _ C). pose proof (nodup_bound _ _ (dk_nodup _ _ C) (dk_taken _ _ C)). lia.
  - eapply all_imp; [|apply C]. apply C.
Qed.
