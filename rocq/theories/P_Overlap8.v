(* Playing scripts of overlapping requests. *)
From Verif Require Import Base M_Cbor M_Crypto M_Cose M_State M_Client M_Ctap M_U2f M_History M_Overlap.
From Verif Require Import S_Cbor S_Cose S_State S_Client S_Ctap S_U2f S_History S_Overlap.
From Verif Require Import P_Client P_History2 P_Toy P_ToyHist P_Overlap1.

Inductive omove : Type :=
| OmStart (p : params)
| OmBegin (i : input)
| OmAnswer (k : nat)          (* the user answers the k-th question *)
| OmKill.

Fixpoint oplay (E : Env) (m : list omove) (h : list oentry) (l : option (list waiting)) (w : world) :
  option (list oentry * option (list waiting) * world) :=
  match m with
  | [] => Some (h, l, w)
  | OmStart p :: m =>
    match l with
    | Some _ => None
    | None =>
      match start E p (saved_in (w_trace w)) w with
      | (w', Ok tt) => oplay E m (h ++ [OStart p]) (Some []) w'
      | (w', Panic) => oplay E m (h ++ [OStartFailed p]) None w'
      end
    end
  | OmBegin i :: m =>
    match l, good_inputb i with
    | Some q, true =>
      match begin E i w with
      | (w', Ok (inr p)) => oplay E m (h ++ [OBegin (length h) i]) (Some (refreshed w' q ++ [mk_waiting (length h) i p])) w'
      | (w', Ok (inl o)) => oplay E m (h ++ [OBegin (length h) i; ODone (length h) i o]) (Some (refreshed w' q)) w'
      | (w', Panic) => oplay E m (h ++ [OBegin (length h) i; OPanic (length h) i]) None w'
      end
    | _, _ => None
    end
  | OmAnswer k :: m =>
    match l with
    | Some q =>
      match skipn k q with
      | x :: q2 =>
        match resume E (wt_state x) w with
        | (w', Ok r) => oplay E m (h ++ [ODone (wt_no x) (wt_input x) (OBytes r)]) (Some (refreshed w' (firstn k q ++ q2))) w'
        | (w', Panic) => oplay E m (h ++ [OPanic (wt_no x) (wt_input x)]) None w'
        end
      | [] => None
      end
    | None => None
    end
  | OmKill :: m =>
    match l with Some _ => oplay E m (h ++ [OKill]) None w | None => None end
  end.

Lemma oplay_ok E m : forall h l w h' l' w', ohistory E h l w -> oplay E m h l w = Some (h', l', w') -> ohistory E h' l' w'.
Proof.
  induction m as [|[p|i|k|] m IH]; intros h l w h' l' w' H P; cbn [oplay] in P.
  - injection P as <- <- <-. exact H.
  - destruct l; [discriminate|]. destruct (start E p _ w) as [w1 [[]|]] eqn:S; eapply IH; try exact P; econstructor; eauto.
  - destruct l as [q|]; [|discriminate]. destruct (good_inputb i) eqn:G; [|discriminate]. apply good_inputb_ok in G.
    destruct (begin E i w) as [w1 [[o|x]|]] eqn:B; eapply IH; try exact P.
    + eapply O_quick; eauto.
    + eapply O_wait; eauto.
    + eapply O_panic; eauto.
  - destruct l as [q|]; [|discriminate]. destruct (skipn k q) as [|x q2] eqn:K; [discriminate|].
    rewrite <- (firstn_skipn k q), K in H.
    destruct (resume E (wt_state x) w) as [w1 [r|]] eqn:R; eapply IH; try exact P.
    + eapply O_resume; eauto.
    + eapply O_panic_later; eauto.
  - destruct l as [q|]; [|discriminate]. eapply IH; try exact P. eapply O_kill; eauto.
Qed.

Definition oplayed (m : list omove) : option (list oentry * option (list waiting) * world) := oplay (toyE true) m [] None blank.
Definition ohist (m : list omove) : list oentry := match oplayed m with Some (h, _, _) => h | None => [] end.
Definition owait (m : list omove) : option (list waiting) := match oplayed m with Some (_, l, _) => l | None => None end.
Definition oworld (m : list omove) : world := match oplayed m with Some (_, _, w) => w | None => blank end.
Definition oout (h : list oentry) (k : nat) : bytes :=
  match nth_error h k with Some (ODone _ _ (OBytes r)) => r | _ => [] end.

Lemma oplayed_ok m h : match oplayed m with Some _ => true | None => false end = true -> ohist m = h ->
  ohistory (toyE true) h (owait m) (oworld m).
Proof.
  unfold ohist, owait, oworld. intros X Q. destruct (oplayed m) as [[[h' l] w]|] eqn:P; [|discriminate]. subst h'.
  eapply oplay_ok; [|exact P]. apply O_new.
Qed.

Lemma ostarts_toy h : Forall (fun e => match e with OStart p | OStartFailed p => p = toyP false \/ p = toyP true | _ => True end) h ->
  ostarts_ok (toyE true) h.
Proof. rewrite Forall_forall. intros H p [I|I]; destruct (H _ I) as [-> | ->]; apply toyP_ok. Qed.
