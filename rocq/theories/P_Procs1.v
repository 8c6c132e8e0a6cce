(* Handlers do not look at the trace, and other facts needed for several processes. *)
From Verif Require Import Base M_Str M_Cbor M_Crypto M_Cose M_State M_Client M_Ctap M_U2f M_History M_Procs.

Definition onto (tr : list event) (w : world) : world :=
  {| w_client := w_client w; w_tick := w_tick w; w_trace := tr ++ w_trace w |}.
Definition framed {A} (m : M A) : Prop := forall tr w, m (onto tr w) = (onto tr (fst (m w)), snd (m w)).

Lemma onto_app a b w : onto (a ++ b) w = onto a (onto b w).
Proof. unfold onto. cbn. now rewrite app_assoc. Qed.
Lemma fr_ret A (a : A) : framed (ret a). Proof. intros tr w. reflexivity. Qed.
Lemma fr_fail A : framed (@fail A). Proof. intros tr w. reflexivity. Qed.
Lemma fr_lift A (r : res A) : framed (lift r). Proof. intros tr w. reflexivity. Qed.
Lemma fr_get : framed get. Proof. intros tr w. reflexivity. Qed.
Lemma fr_put c : framed (put c). Proof. intros tr w. reflexivity. Qed.
Lemma fr_emit e : framed (emit e).
Proof. intros tr w. unfold emit, onto. cbn. now rewrite app_assoc. Qed.
Lemma fr_tick : framed tick. Proof. intros tr w. reflexivity. Qed.
Lemma fr_bind A B (m : M A) (f : A -> M B) : framed m -> (forall a, framed (f a)) -> framed (bind m f).
Proof.
  intros H F tr w. unfold bind. rewrite H. destruct (m w) as [w1 [a|]]; cbn [fst snd]; [apply F|reflexivity].
Qed.

Ltac fr := repeat first
  [ apply fr_ret | apply fr_fail | apply fr_lift | apply fr_get | apply fr_put | apply fr_emit | apply fr_tick
  | apply fr_bind; [|intro]
  | match goal with |- framed (match ?x with _ => _ end) => destruct x end
  | progress unfold random, new_scalar, sign_random, ask, save_data, export_data, set_pin_hash, set_pin_retries, pin_retries,
      next_counter, make_certificate, approve_creation, approve_login, approve_u2f_registration, approve_u2f_authentication,
      status, seal_handle, get_assertion_source, new_credential_source, new_identity
  | progress cbv zeta ].

Lemma fr_ctap E msg : framed (ctap_handle E msg).
Proof.
  unfold ctap_handle, make_credential, get_info, get_assertion, client_pin, get_retries, get_key_agreement, ctap_set_pin,
    change_pin, get_pin_token. fr.
Qed.
Lemma fr_u2f E msg : framed (u2f_handle E msg).
Proof. unfold u2f_handle, u2f_register, u2f_authenticate. fr. Qed.
Lemma fr_handle E i : framed (handle E i).
Proof.
  destruct i; cbn [handle]; unfold fmapM; (apply fr_bind; [|intro; apply fr_ret]).
  - apply fr_ctap.
  - apply fr_u2f.
  - unfold enable_pin. fr.
  - unfold set_pin_api. fr.
  - unfold delete_identity_api. fr.
Qed.
Lemma fr_start E p d : framed (start E p d).
Proof. unfold start. fr. Qed.

(* [start] does not look at the client either. *)
Lemma start_client E p d c c' t tr :
  start E p d {| w_client := c; w_tick := t; w_trace := tr |} = 
  let (w, r) := start E p d {| w_client := c'; w_tick := t; w_trace := tr |} in
  ({| w_client := match r with Ok _ => w_client w | Panic => c end; w_tick := w_tick w; w_trace := w_trace w |}, r).
Proof.
  unfold start, bind, random, new_scalar, tick, put, lift, ret, bind. cbn [w_client w_tick w_trace].
  destruct d as [d|]; [|reflexivity]. destruct (import_data _ _ _); reflexivity.
Qed.
Lemma start_quiet E p d w w' r : start E p d w = (w', r) -> w_trace w' = w_trace w.
Proof.
  unfold start, bind, random, new_scalar, tick, put, lift, ret, bind. cbn [w_client w_tick w_trace].
  destruct d as [d|]; [|now intros [= <- _]]. destruct (import_data _ _ _); now intros [= <- _].
Qed.

Lemma with_own_pass E : with_pass E (e_pass E) = E. Proof. now destruct E. Qed.
