(* What the history properties talk about: what relying parties read in the answers. *)
From Verif Require Import Base M_Cbor S_Cbor M_Crypto M_Cose S_Cose M_State M_Client M_Ctap M_U2f S_Client S_Ctap S_U2f M_History.

(* A registration answer: credential id and public key. *)
Definition registered (r id : bytes) (x y : N) : Prop :=
  exists auth sig cert ad key xb yb, response (attestation_doc auth sig cert) r /\ has_auth_data auth ad /\
    attested (ad_rest ad) the_aaguid id key /\ canonical (cose_es256 xb yb) key /\ x = be_dec xb /\ y = be_dec yb.

(* An assertion answer: credential id and signature counter. *)
Definition asserted (r id : bytes) (n : N) : Prop :=
  exists auth sig ad, response (assertion_doc id auth sig) r /\ has_auth_data auth ad /\ ad_count ad = n.

(* All starts have usable parameters. *)
Definition starts_ok (E : Env) (h : list entry) : Prop :=
  forall p, In (HStart p) h \/ In (HStartFailed p) h -> params_ok E p.

(* No two 16-byte draws made so far coincide: credential ids do not collide. *)
Definition fresh (E : Env) (w : world) : Prop :=
  forall t t', t < w_tick w -> t' < w_tick w -> e_rand E t 16 = e_rand E t' 16 -> t = t'.

(* A process that is never restarted. *)
Definition no_start (h : list entry) : Prop := forall p, ~ In (HStart p) h.

(* A U2F authentication answer: its counter. *)
Definition u2f_counter (e : entry) (n : N) : Prop :=
  exists msg r p sig, e = HDone (IU2f msg) (OBytes r) /\ nth_error msg 1 = Some 2 /\
    r = authentication_reply p n sig /\ n < 4294967296.

(* PIN_INVALID: the device compared a PIN and it was wrong. *)
Definition wrong_guess (e : entry) : bool :=
  match e with
  | HDone (ICtap (c :: _)) (OBytes [s]) => (c =? 6) && (s =? 49)
  | _ => false
  end.

(* The platform showed that it knows the PIN, or set the first one: SetPIN, ChangePIN or
   GetPINToken succeeded, or ChangePIN got as far as refusing the new PIN. *)
Definition right_pin (e : entry) : Prop :=
  exists data a r, e = HDone (ICtap (6 :: data)) (OBytes r) /\ unmarshal dec_cp data = Some a /\
    (((pn_sub a = 3 \/ pn_sub a = 4 \/ pn_sub a = 5) /\ exists b, r = 0 :: b) \/ (pn_sub a = 4 /\ r = [55])).

(* The request may change the PIN. *)
Definition may_change_pin (i : input) : Prop :=
  match i with
  | ISetPin _ => True
  | ICtap msg => exists data a, msg = 6 :: data /\ unmarshal dec_cp data = Some a /\ (pn_sub a = 3 \/ pn_sub a = 4)
  | _ => False
  end.

Definition input_of (e : entry) : option input :=
  match e with HStart _ | HStartFailed _ => None | HDone i _ | HPanic i | HCrash i => Some i end.

(* The number of wrong PINs compared. *)
Definition wrong_count (h : list entry) : Z := Z.of_nat (length (filter wrong_guess h)).

(* The data saver holds the state [c]. *)
Definition saved_client (E : Env) (w : world) (c : client) : Prop :=
  exists d, saved_in (w_trace w) = Some d /\ stored E d c.
