(* Concrete histories. *)
From Verif Require Import Base M_Str M_Util M_Utf8 M_Cbor M_Json M_Crypto M_Cose M_State M_Client M_Ctap M_U2f M_HidConc M_History M_Race.
From Verif Require Import S_Crypto S_Cbor S_Cose S_State S_Client S_Ctap S_CtapReq S_Pin S_U2f S_History.
From Verif Require Import P_Crypto P_Cbor P_Cbor2 P_Cbor3 P_State P_Client P_Ctap P_History P_History2 P_Toy.

(* ------------------------------------------------------------------ *)
(* Reading concrete answers                                            *)

Definition checked {A} (b : bool) (x : A) : option A := if b then Some x else None.
Lemma checked_ok {A} b (x y : A) : checked b x = Some y -> b = true /\ x = y.
Proof. unfold checked. destruct b; intro H; [injection H as ->; auto|discriminate]. Qed.

Definition auth_of (auth : bytes) : authenticator_data :=
  {| ad_rp_hash := takeN 32 auth; ad_flags := be_dec (takeN 1 (dropN 32 auth));
     ad_count := be_dec (takeN 4 (dropN 33 auth)); ad_rest := dropN 37 auth |}.

Definition auth_ok (auth : bytes) : bool :=
  let a := auth_of auth in
  (bytes_eqb auth (ad_rp_hash a ++ [ad_flags a] ++ be 4 (ad_count a) ++ ad_rest a) && (len (ad_rp_hash a) =? 32) &&
   (ad_flags a <? 256) && (ad_count a <? 4294967296))%bool.

Lemma auth_ok_true auth : auth_ok auth = true -> has_auth_data auth (auth_of auth).
Proof.
  unfold auth_ok, has_auth_data. intro H. apply andb_prop in H as [H D]. apply andb_prop in H as [H C]. apply andb_prop in H as [A B].
  apply bytes_eqb_eq in A. apply N.eqb_eq in B. apply N.ltb_lt in C, D. auto.
Qed.

(* Total readers; what they return is checked against the encoding. *)
Definition root (b : bytes) : cbor := match parse_top b with POk v _ => v | _ => CNull end.
Definition at_key (v : cbor) (k : nat) : cbor := match v with CMap l => snd (nth k l (CNull, CNull)) | _ => CNull end.
Definition as_bytes (v : cbor) : bytes := match v with CBytes b => b | _ => [] end.
Definition first_of (v : cbor) : cbor := match v with CArr (x :: _) => x | _ => CNull end.

Ltac bools H := repeat (apply andb_prop in H as [H ?]).
Ltac eqs := repeat match goal with
  | H : bytes_eqb _ _ = true |- _ => apply bytes_eqb_eq in H
  | H : (_ <? _) = true |- _ => apply N.ltb_lt in H
  | H : (_ =? _) = true |- _ => apply N.eqb_eq in H
  end.

Definition read_reg (r : bytes) : option (bytes * N * N) :=
  let v := root (tl r) in
  let auth := as_bytes (at_key v 1) in
  let sig := as_bytes (at_key (at_key v 2) 1) in
  let cert := as_bytes (first_of (at_key (at_key v 2) 2)) in
  let rest := ad_rest (auth_of auth) in
  let id := takeN 16 (dropN 18 rest) in
  let key := dropN 34 rest in
  let xb := as_bytes (at_key (root key) 3) in
  let yb := as_bytes (at_key (root key) 4) in
  checked (bytes_eqb r (0 :: cenc (attestation_doc auth sig cert)) && cgoodb (attestation_doc auth sig cert) &&
           auth_ok auth && bytes_eqb rest (the_aaguid ++ be 2 (len id) ++ id ++ key) && (len id <? 65536) &&
           cgoodb (cose_es256 xb yb) && bytes_eqb key (cenc (cose_es256 xb yb)))%bool
    (id, be_dec xb, be_dec yb).

Lemma read_reg_ok r id x y : read_reg r = Some (id, x, y) -> registered r id x y.
Proof.
  unfold read_reg. cbv zeta. set (v := root (tl r)). generalize (as_bytes (at_key v 1)) (as_bytes (at_key (at_key v 2) 1)) (as_bytes (first_of (at_key (at_key v 2) 2))).
  intros auth sig cert H. set (rest := ad_rest (auth_of auth)) in *. set (id' := takeN 16 (dropN 18 rest)) in *. set (key := dropN 34 rest) in *.
  revert H. generalize (as_bytes (at_key (root key) 3)) (as_bytes (at_key (root key) 4)). intros xb yb H.
  apply checked_ok in H as [H Q]. injection Q as <- <- <-. bools H. eqs.
  exists auth, sig, cert, (auth_of auth), key, xb, yb.
  split; [eexists; split; [eassumption|now apply canon]|]. split; [now apply auth_ok_true|].
  split; [split; [assumption|split; [reflexivity|assumption]]|]. split; [|auto].
  match goal with Q : key = _ |- _ => rewrite Q end. now apply canon.
Qed.

Definition read_ga (r : bytes) : option (bytes * N) :=
  let v := root (tl r) in
  let id := as_bytes (at_key (at_key v 0) 0) in
  let auth := as_bytes (at_key v 1) in
  let sig := as_bytes (at_key v 2) in
  checked (bytes_eqb r (0 :: cenc (assertion_doc id auth sig)) && cgoodb (assertion_doc id auth sig) && auth_ok auth)%bool
    (id, ad_count (auth_of auth)).

Lemma read_ga_ok r id n : read_ga r = Some (id, n) -> asserted r id n.
Proof.
  unfold read_ga. cbv zeta. set (v := root (tl r)). generalize (as_bytes (at_key (at_key v 0) 0)) (as_bytes (at_key v 1)) (as_bytes (at_key v 2)).
  intros id' auth sig H. apply checked_ok in H as [H Q]. injection Q as <- <-. bools H. eqs.
  exists auth, sig, (auth_of auth). split; [eexists; split; [eassumption|now apply canon]|]. split; [now apply auth_ok_true|reflexivity].
Qed.

Definition blank : world := {| w_client := w_client (dev false); w_tick := 0; w_trace := [] |}.

Definition played (ok : bool) (l : list move) : option (list entry * bool * world) := play (toyE ok) l false blank.

(* Every start in a script uses the toy parameters. *)
Definition toy_starts (h : list entry) : bool :=
  forallb (fun e => match e with HStart p | HStartFailed p =>
    (bytes_eqb (pa_cert p) [48; 0] && bytes_eqb (pa_key p) (be 32 9))%bool | _ => true end) h.

Lemma toy_fresh ok w : w_tick w < 1000000 -> fresh (toyE ok) w.
Proof.
  intros T a b A B H. cbn [e_rand toyE] in H. apply (f_equal be_dec) in H.
  rewrite !be_dec_be_small in H by (change (256 ^ N.of_nat 16) with 340282366920938463463374607431768211456; lia). lia.
Qed.

Definition right_pinb (e : entry) : bool :=
  match e with
  | HDone (ICtap (c :: _)) (OBytes (s :: _)) => ((c =? 6) && ((s =? 0) || (s =? 55)))%bool
  | _ => false
  end.

Lemma right_pin_bool e : right_pin e -> right_pinb e = true.
Proof. intros (data & a & r & -> & _ & [(_ & b & ->)|(_ & ->)]); reflexivity. Qed.

Lemma no_right_pin h : forallb (fun e => negb (right_pinb e)) h = true -> forall e, In e h -> ~ right_pin e.
Proof.
  intros H e I R. apply right_pin_bool in R. rewrite forallb_forall in H. specialize (H e I). rewrite R in H. discriminate.
Qed.
