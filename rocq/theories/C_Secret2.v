(* C126 with PINs set by the owner during the conversation. *)
From Verif Require Import Base M_Str M_Cbor M_Crypto M_Cose M_State M_Client M_Ctap M_U2f M_History.
From Verif Require Import S_Crypto S_Cbor S_Cose S_State S_Client S_Ctap S_CtapReq S_Pin S_Secret S_Secret2.
From Verif Require Import P_Crypto P_Client P_Toy P_Secret P_Secret2 C_History C_Secret.

(* ---------------------------------------------------------------- C126 *)
(* Two devices with different PINs, whose owners set other PINs at any time, answer and ask alike as
   long as nobody offers the PIN of the time or proves knowledge of a token. *)
Theorem C126_pin_set : forall E ps w1 w2 h1 h2, env_ok E ->
  client_ok E (w_client w1) -> client_ok E (w_client w2) -> w_tick w1 = w_tick w2 ->
  same_but_pin (w_client w1) (w_client w2) ->
  cl_hash (w_client w1) = Some h1 -> cl_hash (w_client w2) = Some h2 ->
  unguessed E (cl_ka (w_client w1)) (cl_token (w_client w1)) (cl_token (w_client w2)) h1 h2 ps ->
  alike2 E (map fst ps) (map snd ps) w1 w2.
Proof. exact pin_set_secret. Qed.
Print Assumptions C126_pin_set.

(* Nothing shows which PIN the owner of a device sets, whether or not it had one before. *)
Theorem C126_first_pin : forall E p1 p2 ps w, env_ok E -> client_ok E (w_client w) ->
  unguessed E (cl_ka (w_client w)) (cl_token (w_client w)) (cl_token (w_client w)) (kept_of E p1) (kept_of E p2) ps ->
  alike2 E (ISetPin p1 :: map fst ps) (ISetPin p2 :: map snd ps) w w.
Proof. exact pin_first_secret. Qed.
Print Assumptions C126_first_pin.

Definition unguessed_step (ka : N) (t1 t2 h1 h2 m : bytes) : bool :=
  triesb ka h1 m && triesb ka h2 m && provesb t1 m && provesb t2 m.
Fixpoint unguessedb (ka : N) (t1 t2 h1 h2 : bytes) (ps : list (input * input)) : bool :=
  match ps with
  | [] => true
  | (ISetPin p1, ISetPin p2) :: r => unguessedb ka t1 t2 (kept_of (toyE true) p1) (kept_of (toyE true) p2) r
  | (ICtap m, ICtap m') :: r => bytes_eqb m m' && unguessed_step ka t1 t2 h1 h2 m && unguessedb ka t1 t2 h1 h2 r
  | _ => false
  end.

Lemma unguessedb_ok ka t1 t2 ps : forall h1 h2, unguessedb ka t1 t2 h1 h2 ps = true -> unguessed (toyE true) ka t1 t2 h1 h2 ps.
Proof.
  induction ps as [|[i j] ps IH]; intros h1 h2 H; [exact I|]. cbn [unguessedb] in H.
  destruct i as [m|m|b|p1|id]; try discriminate H; destruct j as [m'|m'|b'|p2|id']; try discriminate H; cbn [unguessed].
  - unfold unguessed_step in H. rewrite !andb_true_iff in H. destruct H as ((Q & ((A & B) & C) & D) & U).
    apply bytes_eqb_eq in Q as ->. auto 10 using triesb_ok, provesb_ok.
  - auto.
Qed.

(* The first device is at [pin1], the second at [pin2].  A wrong guess; the owners set other PINs; the
   old PINs are offered; a registration with a wrong proof, one without; the retries that are left;
   the owners set PINs again. *)
Definition pin4 : bytes := [52; 52; 52; 52].
Definition pin5 : bytes := [53; 53; 53; 53; 53; 53].
Definition twice (m : bytes) : input * input := (ICtap m, ICtap m).
Definition conv_set : list (input * input) :=
  [twice (msg_token far pin3); (ISetPin pin4, ISetPin pin5); twice (msg_token far pin1); twice (msg_token far pin2);
   twice (msg_mc rpA (Some (be 16 5))); twice (msg_mc rpA None); twice (msg_cp 1 None None None None);
   (ISetPin pin1, ISetPin pin2); twice (msg_token far pin4)].

Definition statuses (os : list (res output)) : list N :=
  map (fun r => match r with Ok (OBytes (s :: _)) => s | Ok OUnit => 254 | _ => 255 end) os.

Example C126_set_applies :
  unguessed (toyE true) (cl_ka (w_client devP1)) (cl_token (w_client devP1)) (cl_token (w_client devP2)) hash1 hash2 conv_set /\
  cl_hash (w_client devP1) = Some hash1 /\ cl_hash (w_client devP2) = Some hash2 /\
  statuses (fst (talk (toyE true) (map fst conv_set) devP1)) = [49; 254; 49; 49; 51; 54; 0; 254; 49] /\
  (* the PIN of the time tells them apart *)
  ~ alike2 (toyE true) [ISetPin pin4; ICtap (msg_token far pin4)] [ISetPin pin5; ICtap (msg_token far pin4)] devP1 devP2.
Proof.
  split; [apply unguessedb_ok; vm_compute; reflexivity|]. split; [reflexivity|]. split; [reflexivity|].
  split; [vm_compute; reflexivity|].
  intros (os & qs & (A & _) & (B & _)). rewrite <- A in B. revert B. vm_compute. discriminate.
Qed.

(* A device without a PIN. *)
Example C126_first_applies :
  client_ok (toyE true) (w_client (dev true)) /\ cl_hash (w_client (dev true)) = None /\
  unguessed (toyE true) (cl_ka (w_client (dev true))) (cl_token (w_client (dev true))) (cl_token (w_client (dev true)))
    (kept_of (toyE true) pin4) (kept_of (toyE true) pin5) (skipn 2 conv_set) /\
  kept_of (toyE true) pin4 <> kept_of (toyE true) pin5.
Proof.
  split; [apply dev_ok|]. split; [reflexivity|]. split; [apply unguessedb_ok; vm_compute; reflexivity|]. vm_compute. discriminate.
Qed.
