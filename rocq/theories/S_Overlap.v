(* What the properties of overlapping requests talk about. *)
From Verif Require Import Base M_Cbor S_Cbor M_Crypto M_Cose S_Cose M_State M_Client M_Ctap M_U2f S_Client S_Ctap S_U2f M_History S_History M_Overlap.

(* All starts have usable parameters. *)
Definition ostarts_ok (E : Env) (h : list oentry) : Prop :=
  forall p, In (OStart p) h \/ In (OStartFailed p) h -> params_ok E p.

Definition oinput (e : oentry) : option input :=
  match e with OBegin _ i | ODone _ i _ | OPanic _ i | OCrash _ i => Some i | _ => None end.

(* A process that is never restarted. *)
Definition no_ostart (h : list oentry) : Prop := forall p, ~ In (OStart p) h.

(* The answers, in the order in which they were given. *)
Definition answers_in (h : list oentry) : list entry :=
  flat_map (fun e => match e with ODone _ i o => [HDone i o] | _ => [] end) h.

(* The numbers of the requests answered. *)
Definition answered_numbers (h : list oentry) : list nat :=
  flat_map (fun e => match e with ODone n _ _ => [n] | _ => [] end) h.

(* An answer that the user must have approved, and the question. *)
Definition needs_yes (a : action) (i : input) (o : output) : bool :=
  match a, i, o with
  | ActMakeCredential, ICtap (1 :: _), OBytes (0 :: _) => true
  | ActGetAssertion, ICtap (2 :: d), OBytes (0 :: _) =>
    match unmarshal dec_ga d with
    | Some g => match op_up (ga_options g) with Some false => false | _ => true end
    | None => false
    end
  | ActU2FRegister, IU2f (_ :: 1 :: _), OBytes r => negb (len r =? 2)
  | ActU2FAuthenticate, IU2f (_ :: 2 :: 3 :: _), OBytes r => negb (len r =? 2)
  | _, _, _ => false
  end.
Definition approved (a : action) (h : list oentry) : nat :=
  length (filter (fun e => match e with ODone _ i o => needs_yes a i o | _ => false end) h).

(* The times the user said yes to that question. *)
Definition said_yes (a : action) (t : list event) : nat :=
  length (filter (fun e => match e with
                           | EvAsk b _ _ true =>
                             match a, b with
                             | ActMakeCredential, ActMakeCredential | ActGetAssertion, ActGetAssertion
                             | ActU2FRegister, ActU2FRegister | ActU2FAuthenticate, ActU2FAuthenticate => true
                             | _, _ => false
                             end
                           | _ => false
                           end) t).

(* A history of requests one after the other, as one of M_History. *)
Inductive serial : list entry -> list oentry -> Prop :=
| Se_nil : serial [] []
| Se_start h o p : serial h o -> serial (h ++ [HStart p]) (o ++ [OStart p])
| Se_failed h o p : serial h o -> serial (h ++ [HStartFailed p]) (o ++ [OStartFailed p])
| Se_done h o i r : serial h o -> serial (h ++ [HDone i r]) (o ++ [OBegin (length o) i; ODone (length o) i r])
| Se_panic h o i : serial h o -> serial (h ++ [HPanic i]) (o ++ [OBegin (length o) i; OPanic (length o) i]).
