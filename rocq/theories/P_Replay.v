From Coq Require Import Lia.
From Verif Require Import Base M_Str M_Cbor M_Crypto M_Cose M_State M_Client M_Ctap M_U2f M_History.
From Verif Require Import S_Crypto S_Cose S_State S_Client S_Ctap S_Secret S_Replay.

Definition able (w : world) : Prop := (0 < cl_retries (w_client w) <= 8)%Z.

(* What a request for the token does. *)
Definition token_answer (E : Env) (c : client) (a : cp_args) : option (Z * res bytes) :=
  match pn_hash a, pn_key a with
  | Some enc, Some k =>
    match e2_x k with
    | None => None
    | Some _ =>
      match shared_secret E c k with
      | Panic => None
      | Ok s =>
        match decrypt_cbc (e_C E) s enc with
        | Panic => None
        | Ok h =>
          if bytes_eqb h (or_nil (cl_hash c)) then
            match encrypt_cbc (e_C E) s (cl_token c) with
            | Ok t => Some (8%Z, Ok (st_success :: marshal_cbor (cp_response None (Some t) None)))
            | Panic => None
            end
          else Some ((-1)%Z, Ok [st_pin_invalid])
        end
      end
    end
  | _, _ => None
  end.

Lemma session_answer E c1 c2 a : same_session c1 c2 -> token_answer E c1 a = token_answer E c2 a.
Proof. intros []. unfold token_answer, shared_secret. rewrite ss_ka, ss_hash, ss_token. reflexivity. Qed.

Lemma retries_get (w : world) {B} (k : Z -> M B) :
  bind pin_retries k w = if ((0 <? cl_retries (w_client w)) && (cl_retries (w_client w) <=? 8))%Z then k (cl_retries (w_client w)) w else (w, Panic).
Proof. unfold pin_retries, bind, get. destruct (_ && _)%Z; reflexivity. Qed.

Lemma able_test w : able w -> ((0 <? cl_retries (w_client w)) && (cl_retries (w_client w) <=? 8))%Z = true.
Proof. intros [A B]. apply andb_true_iff. split; [apply Z.ltb_lt|apply Z.leb_le]; assumption. Qed.

(* Done when it is answered. *)
Lemma token_done E w data a d r : unmarshal dec_cp data = Some a -> pn_sub a = 5 -> pn_protocol a = 1 ->
  cl_pin (w_client w) = true -> able w -> token_answer E (w_client w) a = Some (d, r) ->
  ctap_handle E (6 :: data) w = (with_guesses w (if (d =? 8)%Z then 8 else cl_retries (w_client w) - 1)%Z, r).
Proof.
  intros U B P Pn A T. cbn [ctap_handle].
  change (6 =? 1) with false. change (6 =? 4) with false. change (6 =? 2) with false. change (6 =? 6) with true. cbn iota.
  unfold client_pin. unfold bind at 1. unfold get at 1. cbn iota. rewrite Pn, U, P, B.
  change (1 =? 1) with true. change (5 =? 1) with false. change (5 =? 2) with false. change (5 =? 3) with false.
  change (5 =? 4) with false. change (5 =? 5) with true. cbn iota.
  unfold token_answer in T. unfold get_pin_token. destruct (pn_hash a) as [enc|]; [|discriminate].
  destruct (pn_key a) as [k|]; [|discriminate]. destruct (e2_x k) as [x|]; [|discriminate].
  rewrite retries_get, (able_test w A). destruct (cl_retries (w_client w) <=? 0)%Z eqn:Z0; [apply Z.leb_le in Z0; unfold able in A; lia|].
  unfold bind at 1. unfold get at 1. cbn iota.
  destruct (shared_secret E (w_client w) k) as [s|]; [|discriminate]. unfold bind at 1. unfold lift at 1. cbn iota.
  rewrite retries_get, (able_test w A).
  destruct (decrypt_cbc (e_C E) s enc) as [h|]; [|discriminate].
  unfold set_pin_retries, bind, get, put, lift, ret, status. cbn -[Z.sub].
  destruct (bytes_eqb h (or_nil (cl_hash (w_client w)))).
  - destruct (encrypt_cbc (e_C E) s (cl_token (w_client w))) as [t|]; [|discriminate]. injection T as <- <-. reflexivity.
  - injection T as <- <-. reflexivity.
Qed.

(* And the other way round: when there is an answer with success or PIN_INVALID, it is that one. *)
Lemma token_back E w data a w1 b r : unmarshal dec_cp data = Some a -> pn_sub a = 5 ->
  ctap_handle E (6 :: data) w = (w1, Ok (b :: r)) -> (b = 0 \/ b = 49) ->
  pn_protocol a = 1 /\ cl_pin (w_client w) = true /\ able w /\
  token_answer E (w_client w) a = Some ((if (b =? 0)%N then 8 else -1)%Z, Ok (b :: r)).
Proof.
  intros U B H Hb. cbn [ctap_handle] in H.
  change (6 =? 1) with false in H. change (6 =? 4) with false in H. change (6 =? 2) with false in H.
  change (6 =? 6) with true in H. cbn iota in H.
  unfold client_pin in H. unfold bind at 1 in H. unfold get at 1 in H. cbn iota in H.
  destruct (cl_pin (w_client w)); [|unfold status, ret in H; injection H as _ <- _; destruct Hb; discriminate].
  rewrite U in H. destruct (pn_protocol a =? 1) eqn:P; [|unfold status, ret in H; injection H as _ <- _; destruct Hb; discriminate].
  apply N.eqb_eq in P. rewrite B in H.
  change (5 =? 1) with false in H. change (5 =? 2) with false in H. change (5 =? 3) with false in H.
  change (5 =? 4) with false in H. change (5 =? 5) with true in H. cbn iota in H.
  unfold get_pin_token in H. unfold token_answer.
  destruct (pn_hash a) as [enc|]; [|unfold status, ret in H; injection H as _ <- _; destruct Hb; discriminate].
  destruct (pn_key a) as [k|]; [|unfold fail in H; discriminate].
  destruct (e2_x k) as [x|]; [|unfold status, ret in H; injection H as _ <- _; destruct Hb; discriminate].
  rewrite retries_get in H. destruct ((0 <? cl_retries (w_client w)) && (cl_retries (w_client w) <=? 8))%Z eqn:R; [|discriminate].
  assert (A : able w) by (apply andb_true_iff in R as [R1 R2]; split; [now apply Z.ltb_lt|now apply Z.leb_le]).
  destruct (cl_retries (w_client w) <=? 0)%Z eqn:Z0; [apply Z.leb_le in Z0; unfold able in A; lia|].
  unfold bind at 1 in H. unfold get at 1 in H. cbn iota in H.
  destruct (shared_secret E (w_client w) k) as [s|]; [|unfold bind, lift in H; discriminate].
  unfold bind at 1 in H. unfold lift at 1 in H. cbn iota in H.
  rewrite retries_get, R in H. unfold set_pin_retries, bind, get, put, lift, ret, status in H. cbn -[Z.sub] in H.
  destruct (decrypt_cbc (e_C E) s enc) as [h|]; [|discriminate].
  destruct (bytes_eqb h (or_nil (cl_hash (w_client w)))).
  - destruct (encrypt_cbc (e_C E) s (cl_token (w_client w))) as [t|]; [|discriminate].
    injection H as _ <- <-. repeat split; auto; apply A.
  - injection H as _ <- <-. repeat split; auto; apply A.
Qed.

Theorem replayed E m w w1 b r v : asks_token m -> ctap_handle E m w = (w1, Ok (b :: r)) -> (b = 0 \/ b = 49) ->
  same_session (w_client w) (w_client v) -> (0 < cl_retries (w_client v) <= 8)%Z ->
  ctap_handle E m v = (with_guesses v (if (b =? 0)%N then 8 else cl_retries (w_client v) - 1)%Z, Ok (b :: r)).
Proof.
  intros (data & a & -> & U & B) H Hb SS A. destruct (token_back E w data a w1 b r U B H Hb) as (P & Pn & Aw & T).
  rewrite (session_answer E _ _ a SS) in T.
  assert (Pv : cl_pin (w_client v) = true) by (rewrite <- (ss_pin _ _ SS); exact Pn).
  rewrite (token_done E v data a _ _ U B P Pv A T). destruct (b =? 0); reflexivity.
Qed.

Lemma handle_ctap E m w w1 r : ctap_handle E m w = (w1, Ok r) -> handle E (ICtap m) w = (w1, Ok (OBytes r)).
Proof. intros H. cbn [handle]. unfold fmapM, bind. now rewrite H. Qed.

Lemma session_guesses w n : same_session (w_client w) (w_client (with_guesses w n)).
Proof. constructor; reflexivity. Qed.

Lemma session_trans a b c : same_session a b -> same_session b c -> same_session a c.
Proof. intros [] []. constructor; congruence. Qed.

(* One recorded request, and as many wrong guesses as one likes. *)
Theorem no_limit E m w w1 r gs : asks_token m -> ctap_handle E m w = (w1, Ok (0 :: r)) ->
  Forall (fun g => asks_token g /\ snd (ctap_handle E g w) = Ok [49]) gs ->
  talk E (flat_map (fun g => [ICtap g; ICtap m]) gs) w1 =
    (flat_map (fun _ => [Ok (OBytes [49]); Ok (OBytes (0 :: r))]) gs, w1) /\
  cl_retries (w_client w1) = 8%Z.
Proof.
  intros Am H F.
  assert (Hw : w1 = with_guesses w 8).
  { destruct Am as (data & a & -> & U & B).
    destruct (token_back E w data a w1 0 r U B H (or_introl eq_refl)) as (P & Pn & Aw & T).
    rewrite (token_done E w data a _ _ U B P Pn Aw T) in H. cbn in H. injection H as <-. reflexivity. }
  split; [|subst w1; reflexivity].
  induction gs as [|g gs IH]; [reflexivity|]. apply Forall_cons_iff in F as ((Ag & G) & F').
  cbn [flat_map app talk].
  destruct (ctap_handle E g w) as [wg rg] eqn:Hg. cbn [snd] in G. subst rg.
  assert (S1 : same_session (w_client w) (w_client w1)) by (subst w1; apply session_guesses).
  pose proof (replayed E g w wg 49 [] w1 Ag Hg (or_intror eq_refl) S1) as Q1.
  assert (A1 : (0 < cl_retries (w_client w1) <= 8)%Z) by (subst w1; cbn; lia).
  specialize (Q1 A1). change (49 =? 0) with false in Q1. cbn iota in Q1.
  rewrite (handle_ctap _ _ _ _ _ Q1).
  set (v := with_guesses w1 (cl_retries (w_client w1) - 1)) in *.
  assert (S2 : same_session (w_client w) (w_client v)) by (eapply session_trans; [exact S1|apply session_guesses]).
  assert (A2 : (0 < cl_retries (w_client v) <= 8)%Z) by (unfold v; subst w1; cbn; lia).
  pose proof (replayed E m w w1 0 r v Am H (or_introl eq_refl) S2 A2) as Q2. change (0 =? 0) with true in Q2. cbn iota in Q2.
  rewrite (handle_ctap _ _ _ _ _ Q2).
  assert (V : with_guesses v 8 = w1) by (unfold v; subst w1; destruct w as [[] ? ?]; reflexivity).
  rewrite V, IH by exact F'. reflexivity.
Qed.
