(* What may be read in the log, independently of the handlers. *)
From Verif Require Import Base M_Cbor S_Cbor M_Crypto S_Crypto S_Ctap S_CtapReq S_Pin M_Client S_Client M_Ctap M_U2f S_U2f M_Logged.

(* The lines that reach the output unless the level is lowered to "unsafe": util/log.go:13-18. *)
Definition visible (l : list entry) : list entry := filter (fun e => negb (en_level e =? 0)) l.

(* A visible line shows this value. *)
Definition shows (l : list entry) (v : shown) : Prop := exists e, In e (visible l) /\ In v (en_shown e).

(* A handler whose visible log is determined by what the two ends of the connection know anyway:
   the message and the answer (or the crash).  [P] restricts the exchanges. *)
Definition discreet (handler : Env -> bytes -> L bytes) (P : bytes -> res bytes -> Prop) : Prop :=
  exists pub : bytes -> res bytes -> list entry,
    forall E w msg w' l r, env_ok E -> client_ok E (w_client w) -> wfb msg ->
      handler E msg w = (w', l, r) -> P msg r -> visible l = pub msg r.

(* A request for the PIN token by someone who knows the stored hash but not the PIN. *)
Definition hash_request (C : Crypto) (p : N) (s h : bytes) (v : cbor) : Prop :=
  exists enc, enciphers C s h enc /\ v = cp_request 5 (Some (platform_key C p)) None None (Some enc).

(* A PIN is set, or a PIN is tried (and found right or wrong). *)
Definition pin_exchange (msg : bytes) (r : res bytes) : Prop :=
  exists data a, msg = 6 :: data /\ unmarshal dec_cp data = Some a /\
    (pn_sub a = 3 /\ r = Ok [0] \/ pn_sub a = 5 /\ (r = Ok [49] \/ exists b, r = Ok (0 :: b))).

(* A registration that is refused or crashes, or an authentication that is answered with "wrong
   data" although the handle is a box. *)
Definition handle_exchange (msg : bytes) (r : res bytes) : Prop :=
  (nth_error msg 1 = Some 1 /\ (r = Ok refused \/ r = Panic)) \/
  (exists control chal app h bx, asks msg control chal app h /\ nth_error msg 1 = Some 2 /\
     unmarshal dec_box h = Some bx /\ r = Ok wrong_data).
