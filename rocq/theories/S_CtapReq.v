(* The requests a platform sends (CTAP 2.0 section 5), as CBOR documents. *)
From Verif Require Import Base M_Cbor S_Cbor M_State S_Ctap.

Definition text_name : bytes := [110; 97; 109; 101].
Definition text_display : bytes := [100; 105; 115; 112; 108; 97; 121; 78; 97; 109; 101].

Definition opt {A B} (o : option A) (f : A -> list B) : list B := match o with Some a => f a | None => [] end.

Definition int_doc (z : Z) : cbor := if (z <? 0)%Z then CNint (Z.to_N (- z - 1)) else CUint (Z.to_N z).

Definition rp_doc (id name : bytes) : cbor := CMap [(CText text_id, CText id); (CText text_name, CText name)].
Definition user_doc (id name display : bytes) : cbor :=
  CMap [(CText text_id, CBytes id); (CText text_name, CText name); (CText text_display, CText display)].
Definition param_doc (p : bytes * Z) : cbor :=
  CMap [(CText text_alg, int_doc (snd p)); (CText text_type, CText (fst p))].
Definition descriptor_doc (id : bytes) : cbor :=
  CMap [(CText text_id, CBytes id); (CText text_type, CText text_public_key)].

(* authenticatorMakeCredential *)
Definition mc_request (hash rpid rpname uid uname udisplay : bytes) (ps : list (bytes * Z))
    (exclude : option (list bytes)) (auth : option bytes) : cbor :=
  CMap ([(CUint 1, CBytes hash); (CUint 2, rp_doc rpid rpname); (CUint 3, user_doc uid uname udisplay);
         (CUint 4, CArr (map param_doc ps))] ++
        opt exclude (fun l => [(CUint 5, CArr (map descriptor_doc l))]) ++
        opt auth (fun p => [(CUint 8, CBytes p); (CUint 9, CUint 1)])).

(* authenticatorGetAssertion *)
Definition ga_request (rpid hash : bytes) (allow : option (list bytes)) (up : option bool) (auth : option bytes) : cbor :=
  CMap ([(CUint 1, CText rpid); (CUint 2, CBytes hash)] ++
        opt allow (fun l => [(CUint 3, CArr (map descriptor_doc l))]) ++
        opt up (fun b => [(CUint 5, CMap [(CText text_up, if b : bool then yes else no)])]) ++
        opt auth (fun p => [(CUint 6, CBytes p); (CUint 7, CUint 1)])).

(* authenticatorClientPIN: subcommand, key agreement key, pinAuth, newPinEnc, pinHashEnc *)
Definition agreement_key (x y : bytes) : cbor :=
  CMap [(CUint 1, CUint 2); (CUint 3, CNint 24); (CNint 0, CUint 1); (CNint 1, CBytes x); (CNint 2, CBytes y)].
Definition cp_request (sub : N) (key : option (bytes * bytes)) (auth new hash : option bytes) : cbor :=
  CMap ([(CUint 1, CUint 1); (CUint 2, CUint sub)] ++
        opt key (fun k => [(CUint 3, agreement_key (fst k) (snd k))]) ++
        opt auth (fun p => [(CUint 4, CBytes p)]) ++
        opt new (fun p => [(CUint 5, CBytes p)]) ++
        opt hash (fun p => [(CUint 6, CBytes p)])).

(* The same requests with everything a platform may add: descriptors with transports, extensions and
   options. *)
Definition text_transports : bytes := [116; 114; 97; 110; 115; 112; 111; 114; 116; 115].
Definition text_uv : bytes := [117; 118].
Definition truth (b : bool) : cbor := if b then yes else no.

Definition descriptor_full (d : bytes * bytes * option (list bytes)) : cbor :=
  CMap ([(CText text_id, CBytes (fst (fst d))); (CText text_type, CText (snd (fst d)))] ++
        opt (snd d) (fun l => [(CText text_transports, CArr (map CText l))])).
Definition options_doc (rk up uv : option bool) : cbor :=
  CMap (opt rk (fun b => [(CText text_rk, truth b)]) ++ opt up (fun b => [(CText text_up, truth b)]) ++
        opt uv (fun b => [(CText text_uv, truth b)])).

(* Every key of every map in the document is an integer or a text. *)
Definition simple_key (k : cbor) : Prop := match k with CUint _ | CNint _ | CText _ => True | _ => False end.
Fixpoint simple_keys (v : cbor) : Prop :=
  match v with
  | CArr l => fold_right (fun x P => simple_keys x /\ P) True l
  | CMap l => fold_right (fun p P => simple_key (fst p) /\ simple_keys (snd p) /\ P) True l
  | _ => True
  end.

Definition mc_request_full (hash rpid rpname uid uname udisplay : bytes) (ps : list (bytes * Z))
    (exclude : option (list (bytes * bytes * option (list bytes)))) (exts : list (bytes * cbor))
    (rk up uv : option bool) (auth : option bytes) : cbor :=
  CMap ([(CUint 1, CBytes hash); (CUint 2, rp_doc rpid rpname); (CUint 3, user_doc uid uname udisplay);
         (CUint 4, CArr (map param_doc ps))] ++
        opt exclude (fun l => [(CUint 5, CArr (map descriptor_full l))]) ++
        [(CUint 6, CMap (map (fun p => (CText (fst p), snd p)) exts)); (CUint 7, options_doc rk up uv)] ++
        opt auth (fun p => [(CUint 8, CBytes p); (CUint 9, CUint 1)])).

Definition ga_request_full (rpid hash : bytes) (allow : option (list (bytes * bytes * option (list bytes))))
    (ext : cbor) (rk up uv : option bool) (auth : option bytes) : cbor :=
  CMap ([(CUint 1, CText rpid); (CUint 2, CBytes hash)] ++
        opt allow (fun l => [(CUint 3, CArr (map descriptor_full l))]) ++
        [(CUint 4, ext); (CUint 5, options_doc rk up uv)] ++
        opt auth (fun p => [(CUint 6, CBytes p); (CUint 7, CUint 1)])).
(* An option is on if it is given as true. *)
Definition on (b : option bool) : bool := match b with Some true => true | _ => false end.
