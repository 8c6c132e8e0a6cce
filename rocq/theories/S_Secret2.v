(* C126 when the owner sets the PIN during the conversation. *)
From Verif Require Import Base M_Cbor M_Crypto M_Cose M_State M_Client M_Ctap M_History S_Ctap S_Secret.

(* Two conversations, with different inputs, that look alike. *)
Definition alike2 (E : Env) (is1 is2 : list input) (w1 w2 : world) : Prop :=
  exists os qs, seen E is1 w1 os qs /\ seen E is2 w2 os qs.

(* What the device keeps of a PIN: half of its hash (CTAP 2.0, 5.5.5). *)
Definition kept_of (E : Env) (pin : bytes) : bytes := firstn 16 (sha256 (e_C E) pin).

(* Two conversations that are the same but for the PINs that the owner sets, in which nobody offers
   the PIN that is set at the time, [h1] in one and [h2] in the other to begin with, or proves
   knowledge of a PIN token, [t1] or [t2]. *)
Fixpoint unguessed (E : Env) (ka : N) (t1 t2 h1 h2 : bytes) (ps : list (input * input)) : Prop :=
  match ps with
  | [] => True
  | (ISetPin p1, ISetPin p2) :: r => unguessed E ka t1 t2 (kept_of E p1) (kept_of E p2) r
  | (i, j) :: r =>
    i = j /\
    match i with
    | ICtap m => ~ tries E ka m h1 /\ ~ tries E ka m h2 /\ ~ proves E t1 m /\ ~ proves E t2 m
    | _ => True
    end /\ unguessed E ka t1 t2 h1 h2 r
  end.
