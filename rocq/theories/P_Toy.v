(* A concrete environment and device, on the toy cryptography of P_Crypto, for the examples
   that stand beside the theorems and for the counterexamples. *)
From Verif Require Import Base M_Cbor S_Cbor P_Cbor P_Cbor2 M_Crypto S_Crypto P_Crypto M_Cose S_Cose P_Cose M_Str M_State S_State P_State
  M_Client S_Client P_Client M_Ctap S_Ctap P_Ctap P_Ctap2 P_Ctap3 S_CtapReq P_CtapReq S_Pin P_Pin.
From Coq Require Import Sorting.Sorted.
From Verif Require Import M_Utf8.

(* Deciding that a document has a canonical encoding. *)
Fixpoint cgoodb (v : cbor) : bool :=
  match v with
  | CUint n | CNint n => n <? 18446744073709551616
  | CBytes b => wfbb b && (len b <? 18446744073709551616)
  | CText b => utf8_valid b && (len b <? 18446744073709551616)
  | CArr l => (len l <? 18446744073709551616) && forallb cgoodb l
  | CMap l => (len l <? 18446744073709551616) && forallb (fun p => cgoodb (fst p) && cgoodb (snd p)) l &&
      increasing (map ekey l)
  | CTag _ _ => false
  | CSimple n => (n =? 20) || (n =? 21) || (n =? 22)
  | CFloat _ => false
  end.

Lemma cgoodb_ok v : cgoodb v = true -> cgood v.
Proof.
  induction v using cbor_ind'; cbn [cgoodb cgood]; intro X; try discriminate; p64;
    repeat match goal with Y : (_ && _)%bool = true |- _ => apply andb_prop in Y as [? ?] end;
    repeat match goal with Y : (_ <? _) = true |- _ => apply N.ltb_lt in Y end; auto.
  - split; auto. now apply wfbb_iff.
  - split; auto. now apply utf8_valid_iff.
  - split; auto. clear H0. induction H as [|v l Hv Hl IH]; cbn in *; auto.
    apply andb_prop in H1 as [? ?]. split; auto.
  - split; auto. split; [|now apply increasing_sorted].
    clear H0 H1. induction H as [|v l Hv Hl IH]; cbn in *; auto.
    apply andb_prop in H2 as [A B]. apply andb_prop in A as [A1 A2]. destruct Hv. auto.
  - apply orb_prop in X as [X|X]; [apply orb_prop in X as [X|X]|]; apply N.eqb_eq in X; auto.
Qed.

Lemma canon v : cgoodb v = true -> canonical v (cenc v).
Proof. intro H. apply cenc_canonical, cgoodb_ok, H. Qed.

(* [ok] is what the approver always answers. *)
Definition toyE (ok : bool) : Env := {|
  e_C := toy;
  e_rand := fun t n => be n (t + 1);
  e_scalar := fun t => 1 + t mod 1000;
  e_approve := fun _ _ _ _ => ok;
  e_pass := [];
  e_cert_ok := fun _ => true;
  e_make_cert := fun _ _ _ _ => Some [48; 0]
|}.

Lemma toyE_ok ok : env_ok (toyE ok).
Proof.
  constructor; cbn [e_C e_rand e_scalar e_make_cert toyE].
  - apply toy_laws.
  - intros. apply be_len.
  - intros. apply be_wf.
  - intro t. unfold valid_scalar. unfold p256_order. lia.
  - intros t ca k p b H. injection H as <-. split; [apply wfbb_iff; reflexivity|reflexivity].
Qed.

Definition toyP (pin : bool) : params := {|
  pa_cert := [48; 0]; pa_certkey := priv_ec (ec_key toy 5); pa_key := be 32 9; pa_pin := pin |}.


Lemma toyP_ok ok pin : params_ok (toyE ok) (toyP pin).
Proof.
  split; [split; [right; right; reflexivity|apply be_wf]|].
  split; [split; [apply wfbb_iff; reflexivity|reflexivity]|].
  apply ec_stable; [apply toy_laws|split; reflexivity].
Qed.

(* The device just after its first start, with or without PIN support. *)
Definition dev (pin : bool) : world :=
  {| w_client := new_client (toyP pin) (be 16 1) 2; w_tick := 2; w_trace := [] |}.

Lemma dev_start ok pin c t : start (toyE ok) (toyP pin) None {| w_client := c; w_tick := 0; w_trace := t |} =
  ({| w_client := w_client (dev pin); w_tick := 2; w_trace := t |}, Ok tt).
Proof. destruct pin; reflexivity. Qed.

Lemma dev_ok ok pin : client_ok (toyE ok) (w_client (dev pin)).
Proof.
  apply new_client_ok; [apply toyE_ok|apply toyP_ok|reflexivity|apply be_wf|split; reflexivity].
Qed.

(* Responses to a list of messages, up to and including the first panic. *)
Fixpoint run (E : Env) (l : list bytes) (w : world) : world * list (res bytes) :=
  match l with
  | [] => (w, [])
  | m :: r =>
    match ctap_handle E m w with
    | (w, Ok b) => let (w, bs) := run E r w in (w, Ok b :: bs)
    | (w, Panic) => (w, [Panic])
    end
  end.

Lemma run_ok E l : env_ok E -> Forall wfb l ->
  forall w, client_ok E (w_client w) -> client_ok E (w_client (fst (run E l w))).
Proof.
  intros L. induction 1 as [|m r Hm Hr IH]; intros w K; cbn [run]; auto.
  destruct (ctap_handle E m w) as [w' [b|]] eqn:X.
  - pose proof (ctap_effect E m w w' _ L K Hm X) as (K' & _). specialize (IH _ K').
    destruct (run E r w') as [w2 bs]. exact IH.
  - pose proof (ctap_effect E m w w' _ L K Hm X) as (K' & _). exact K'.
Qed.

(* Two relying parties and a user. *)
Definition rpA : bytes := [97; 46; 99; 111; 109].
Definition rpB : bytes := [98; 46; 99; 111; 109].
Definition the_hash : bytes := be 32 99.
Definition es256 : list (bytes * Z) := [(text_public_key, (-7)%Z)].

Definition msg_mc (rp : bytes) (auth : option bytes) : bytes :=
  1 :: cenc (mc_request the_hash rp [65; 66] [1; 2; 3] [98; 111; 98] [66; 111; 98] es256 None auth).
Definition msg_ga (rp : bytes) (allow : option (list bytes)) (up : option bool) (auth : option bytes) : bytes :=
  2 :: cenc (ga_request rp the_hash allow up auth).
Definition msg_cp (sub : N) (key : option (bytes * bytes)) (auth new hash : option bytes) : bytes :=
  6 :: cenc (cp_request sub key auth new hash).

(* After registering with both relying parties. *)
Definition two : world := fst (run (toyE true) [msg_mc rpA None; msg_mc rpB None] (dev false)).

Lemma client_ok_any a b c : client_ok (toyE a) c -> client_ok (toyE b) c.
Proof. intros [A1 A2 A3 A4 A5 A6 A7 A8 A9]. constructor; assumption. Qed.

Lemma two_ok ok : client_ok (toyE ok) (w_client two).
Proof.
  apply (client_ok_any true). apply run_ok; [apply toyE_ok| |apply dev_ok].
  repeat constructor; apply wfbb_iff; vm_compute; reflexivity.
Qed.

(* A platform with scalar 2^254 and the device just started (scalar 2) share x = 2^255;
   one with scalar 3 shares x = 6, which has leading zero bytes. *)
Definition far : N := 2 ^ 254.
Definition secret (p : N) : bytes := toy_hash (be 32 ((p * 2) mod 2 ^ 256)).
Definition toy_enc (s plain : bytes) : bytes := match encrypt_cbc toy s plain with Ok c => c | Panic => [] end.
Definition pad_pin (pin : bytes) : bytes := pin ++ repeat 0 (64 - length pin).
Definition pin1 : bytes := [49; 50; 51; 52].
Definition pin2 : bytes := [53; 54; 55; 56; 57].

Definition doc_set (p : N) (pin : bytes) : cbor :=
  let e := toy_enc (secret p) (pad_pin pin) in
  cp_request 3 (Some (platform_key toy p)) (Some (half (hmac256 toy (secret p) e))) (Some e) None.
Definition doc_change (p : N) (old pin : bytes) : cbor :=
  let e := toy_enc (secret p) (pad_pin pin) in
  let h := toy_enc (secret p) (half (toy_hash old)) in
  cp_request 4 (Some (platform_key toy p)) (Some (half (hmac256 toy (secret p) (e ++ h)))) (Some e) (Some h).
Definition doc_token (p : N) (pin : bytes) : cbor :=
  cp_request 5 (Some (platform_key toy p)) None None (Some (toy_enc (secret p) (half (toy_hash pin)))).
Definition msg_set p pin : bytes := 6 :: cenc (doc_set p pin).
Definition msg_change p old pin : bytes := 6 :: cenc (doc_change p old pin).
Definition msg_token p pin : bytes := 6 :: cenc (doc_token p pin).

Definition statuses (l : list (res bytes)) : list (option N) :=
  map (fun r => match r with Ok (s :: _) => Some s | _ => None end) l.
