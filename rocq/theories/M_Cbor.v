(* Model of the parts of fxamacker/cbor v2.4.0 that /repo uses: the encoder in
   CTAP2 mode (util/util.go:163-170, MarshalCBOR) and the default decoder
   (cbor.Unmarshal in ctap/ctap.go:205,328,462, cose/cose.go:181,218,255,274,305,333,
   369,404, u2f/u2f.go:135,141).  Library behaviour, taken from its documentation. *)
From Verif Require Import Base M_Utf8.

(* ------------------------------------------------------------------ *)
(* Data items                                                          *)

(* A CBOR data item.  [CNint n] is the integer -1-n.  [CSimple] covers false (20),
   true (21), null (22), undefined (23) and the unassigned values.  [CFloat] keeps
   the raw bytes: no Go type of /repo receives a float. *)
Inductive cbor : Type :=
| CUint (n : N)
| CNint (n : N)
| CBytes (b : bytes)
| CText (b : bytes)
| CArr (l : list cbor)
| CMap (l : list (cbor * cbor))
| CTag (t : N) (v : cbor)
| CSimple (n : N)
| CFloat (raw : bytes).

Definition CNull := CSimple 22.
Definition CBool (b : bool) := CSimple (if b then 21 else 20).
Definition CInt (z : Z) : cbor :=
  if (z <? 0)%Z then CNint (Z.to_N (- z - 1)) else CUint (Z.to_N z).

(* ------------------------------------------------------------------ *)
(* Encoder                                                             *)

(* The head of an item: major type and argument in the shortest form. *)
Definition chead (mt n : N) : bytes :=
  if n <? 24 then [mt * 32 + n]
  else if n <? 256 then [mt * 32 + 24; n]
  else if n <? 65536 then (mt * 32 + 25) :: be 2 n
  else if n <? 4294967296 then (mt * 32 + 26) :: be 4 n
  else (mt * 32 + 27) :: be 8 n.

Fixpoint cenc (v : cbor) : bytes :=
  match v with
  | CUint n => chead 0 n
  | CNint n => chead 1 n
  | CBytes b => chead 2 (len b) ++ b
  | CText b => chead 3 (len b) ++ b
  | CArr l => chead 4 (len l) ++ flat_map cenc l
  | CMap l => chead 5 (len l) ++ flat_map (fun p => cenc (fst p) ++ cenc (snd p)) l
  | CTag t v => chead 6 t ++ cenc v
  | CSimple n => chead 7 n
  | CFloat raw => (7 * 32 + (if len raw =? 2 then 25 else if len raw =? 4 then 26 else 27)) :: raw
  end.

Fixpoint lex_le (a b : bytes) : bool :=
  match a, b with
  | [], _ => true
  | _ :: _, [] => false
  | x :: a', y :: b' => (x <? y) || ((x =? y) && lex_le a' b')
  end.

Fixpoint insert_pair (p : cbor * cbor) (l : list (cbor * cbor)) : list (cbor * cbor) :=
  match l with
  | [] => [p]
  | q :: r => if lex_le (cenc (fst p)) (cenc (fst q)) then p :: l else q :: insert_pair p r
  end.

(* SortCTAP2 is SortBytewiseLexical: struct fields in the order of their encoded
   keys. *)
Fixpoint sort_pairs (l : list (cbor * cbor)) : list (cbor * cbor) :=
  match l with
  | [] => []
  | p :: r => insert_pair p (sort_pairs r)
  end.

(* A struct field: key, value, and whether omitempty drops it. *)
Definition cfield : Type := option (cbor * cbor).
Definition fld (k v : cbor) : cfield := Some (k, v).
Definition omit (c : bool) (f : cfield) : cfield := if c then None else f.

Fixpoint present (l : list cfield) : list (cbor * cbor) :=
  match l with
  | [] => []
  | Some p :: r => p :: present r
  | None :: r => present r
  end.

(* Marshalling a struct. *)
Definition cstruct (l : list cfield) : cbor := CMap (sort_pairs (present l)).

(* A Go []byte: nil is null. *)
Definition cbytes (b : option bytes) : cbor :=
  match b with None => CNull | Some b => CBytes b end.

(* util/util.go:163-170, MarshalCBOR. *)
Definition marshal_cbor (v : cbor) : bytes := cenc v.

(* ------------------------------------------------------------------ *)
(* Parser: well-formedness as checked by Unmarshal before it decodes    *)

Inductive pres (A : Type) : Type :=
| POk (a : A) (rest : bytes)
| PErr
| PFuel.
Arguments POk {A} a rest.
Arguments PErr {A}.
Arguments PFuel {A}.

Definition pbind {A B} (x : pres A) (f : A -> bytes -> pres B) : pres B :=
  match x with POk a r => f a r | PErr => PErr | PFuel => PFuel end.

(* The argument of a head. *)
Definition carg (ai : N) (r : bytes) : pres N :=
  let get (n : nat) :=
    if len r <? N.of_nat n then PErr else POk (be_dec (firstn n r)) (skipn n r) in
  if ai <? 24 then POk ai r
  else if ai =? 24 then get 1%nat
  else if ai =? 25 then get 2%nat
  else if ai =? 26 then get 4%nat
  else if ai =? 27 then get 8%nat
  else PErr.

Definition max_nested : nat := 32.
Definition max_elems : N := 131072.

(* The chunks of an indefinite-length string, up to the break. *)
Fixpoint parse_chunks (f : nat) (mt : N) (bs : bytes) {struct f} : pres bytes :=
  match f with
  | O => PFuel
  | S f =>
    match bs with
    | [] => PErr
    | b :: r =>
      if b =? 255 then POk [] r
      else if (b / 32 =? mt) && negb (b mod 32 =? 31) then
        pbind (carg (b mod 32) r) (fun n r =>
          if len r <? n then PErr
          else pbind (parse_chunks f mt (dropN n r)) (fun s r' => POk (takeN n r ++ s) r'))
      else PErr
    end
  end.

(* One item.  [f] is fuel, [d] the number of array or map levels still allowed
   (MaxNestedLevels 32, MaxArrayElements and MaxMapPairs 131072).  Simplified:
   the chunks of an indefinite-length text string are checked for UTF-8 together,
   not one by one. *)
Fixpoint parse_item (f d : nat) (bs : bytes) {struct f} : pres cbor :=
  match f with
  | O => PFuel
  | S f =>
    match bs with
    | [] => PErr
    | b :: r =>
      let mt := b / 32 in
      let ai := b mod 32 in
      if ai =? 31 then
        if mt =? 2 then pbind (parse_chunks f 2 r) (fun s r => POk (CBytes s) r)
        else if mt =? 3 then pbind (parse_chunks f 3 r) (fun s r => POk (CText s) r)
        else if mt =? 4 then
          match d with
          | O => PErr
          | S d => pbind (parse_items_indef f d r) (fun l r => POk (CArr l) r)
          end
        else if mt =? 5 then
          match d with
          | O => PErr
          | S d => pbind (parse_pairs_indef f d r) (fun l r => POk (CMap l) r)
          end
        else PErr
      else pbind (carg ai r) (fun n r =>
        if mt =? 0 then POk (CUint n) r
        else if mt =? 1 then POk (CNint n) r
        else if mt =? 2 then if len r <? n then PErr else POk (CBytes (takeN n r)) (dropN n r)
        else if mt =? 3 then if len r <? n then PErr else POk (CText (takeN n r)) (dropN n r)
        else if mt =? 4 then
          match d with
          | O => PErr
          | S d => if max_elems <? n then PErr
                   else pbind (parse_items f d n r) (fun l r => POk (CArr l) r)
          end
        else if mt =? 5 then
          match d with
          | O => PErr
          | S d => if max_elems <? n then PErr
                   else pbind (parse_pairs f d n r) (fun l r => POk (CMap l) r)
          end
        else if mt =? 6 then pbind (parse_item f d r) (fun v r => POk (CTag n v) r)
        else if ai <? 24 then POk (CSimple n) r
        else if ai =? 24 then if n <? 32 then PErr else POk (CSimple n) r
        else POk (CFloat (be (if ai =? 25 then 2%nat else if ai =? 26 then 4%nat else 8%nat) n)) r)
    end
  end
with parse_items (f d : nat) (n : N) (bs : bytes) {struct f} : pres (list cbor) :=
  match f with
  | O => PFuel
  | S f =>
    if n =? 0 then POk [] bs
    else pbind (parse_item f d bs) (fun v r =>
         pbind (parse_items f d (n - 1) r) (fun l r => POk (v :: l) r))
  end
with parse_pairs (f d : nat) (n : N) (bs : bytes) {struct f} : pres (list (cbor * cbor)) :=
  match f with
  | O => PFuel
  | S f =>
    if n =? 0 then POk [] bs
    else pbind (parse_item f d bs) (fun k r =>
         pbind (parse_item f d r) (fun v r =>
         pbind (parse_pairs f d (n - 1) r) (fun l r => POk ((k, v) :: l) r)))
  end
with parse_items_indef (f d : nat) (bs : bytes) {struct f} : pres (list cbor) :=
  match f with
  | O => PFuel
  | S f =>
    match bs with
    | [] => PErr
    | b :: r0 =>
      if b =? 255 then POk [] r0
      else pbind (parse_item f d bs) (fun v r =>
           pbind (parse_items_indef f d r) (fun l r => POk (v :: l) r))
    end
  end
with parse_pairs_indef (f d : nat) (bs : bytes) {struct f} : pres (list (cbor * cbor)) :=
  match f with
  | O => PFuel
  | S f =>
    match bs with
    | [] => PErr
    | b :: r0 =>
      if b =? 255 then POk [] r0
      else pbind (parse_item f d bs) (fun k r =>
           pbind (parse_item f d r) (fun v r =>
           pbind (parse_pairs_indef f d r) (fun l r => POk ((k, v) :: l) r)))
    end
  end.

Definition parse_fuel (bs : bytes) : nat := S (2 * length bs).

(* The first item of the input.  v2.4.0 ignores what follows it. *)
Definition parse_top (bs : bytes) : pres cbor := parse_item (parse_fuel bs) max_nested bs.

(* ------------------------------------------------------------------ *)
(* Decoding an item into a Go value: None is an UnmarshalTypeError or    *)
(* SemanticError                                                        *)

(* Tag numbers are stripped.  Simplified: tags 0 to 3 (dates and bignums) are
   treated as errors for every target type. *)
Fixpoint untag (v : cbor) : option cbor :=
  match v with
  | CTag t v => if t <? 4 then None else untag v
  | _ => Some v
  end.

Definition is_null (v : cbor) : bool :=
  match v with CSimple n => (n =? 22) || (n =? 23) | _ => false end.

(* Null leaves the zero value in every target. *)
Definition dec_nullable {A} (zero : A) (f : cbor -> option A) (v : cbor) : option A :=
  let! v := untag v in if is_null v then Some zero else f v.

(* Unassigned simple values decode as non-negative integers. *)
Definition dec_z (lo hi : Z) : cbor -> option Z :=
  dec_nullable 0%Z (fun v =>
    let fits z := if ((lo <=? z) && (z <? hi))%Z then Some z else None in
    match v with
    | CUint n => fits (Z.of_N n)
    | CNint n => fits (- Z.of_N n - 1)%Z
    | CSimple n => if (n =? 20) || (n =? 21) then None else fits (Z.of_N n)
    | _ => None
    end).

Definition dec_int8 := dec_z (-128) 128.
Definition dec_int32 := dec_z (-2147483648) 2147483648.
Definition dec_uint (bound : N) (v : cbor) : option N :=
  let! z := dec_z 0 (Z.of_N bound) v in Some (Z.to_N z).
Definition dec_uint32 := dec_uint 4294967296.
Definition dec_uint8 := dec_uint 256.

Fixpoint mapo {A B} (f : A -> option B) (l : list A) : option (list B) :=
  match l with
  | [] => Some []
  | a :: r => let! b := f a in let! bs := mapo f r in Some (b :: bs)
  end.

(* []byte: a byte string, or an array of small integers; null is nil. *)
Definition dec_bytes : cbor -> option (option bytes) :=
  dec_nullable None (fun v =>
    match v with
    | CBytes b => Some (Some b)
    | CArr l => let! b := mapo dec_uint8 l in Some (Some b)
    | _ => None
    end).

Definition dec_text : cbor -> option bytes :=
  dec_nullable [] (fun v =>
    match v with
    | CText b => if utf8_valid b then Some b else None
    | _ => None
    end).

Definition dec_bool : cbor -> option bool :=
  dec_nullable false (fun v =>
    match v with
    | CSimple n => if n =? 20 then Some false else if n =? 21 then Some true else None
    | _ => None
    end).

(* A pointer: null is nil, otherwise a new value. *)
Definition dec_ptr {A} (f : cbor -> option A) : cbor -> option (option A) :=
  dec_nullable None (fun v => let! a := f v in Some (Some a)).

(* A slice of non-bytes: null is nil. *)
Definition dec_list {A} (f : cbor -> option A) : cbor -> option (option (list A)) :=
  dec_nullable None (fun v =>
    match v with
    | CArr l => let! l := mapo f l in Some (Some l)
    | _ => None
    end).

Definition int_key (z : Z) (k : cbor) : bool :=
  match k with
  | CUint n => (Z.of_N n =? z)%Z
  | CNint n => (- Z.of_N n - 1 =? z)%Z
  | _ => false
  end.

(* A text key names a field if it has the same number of bytes and equals the field's name
   without regard to case. *)
Definition text_key (s : bytes) (k : cbor) : bool :=
  match k with CText t => Nat.eqb (length t) (length s) && equal_fold t s | _ => false end.

Definition key_ok (k : cbor) : bool :=
  match k with
  | CUint n => n <? 9223372036854775808
  | CNint n => n <? 9223372036854775808
  | CText t => utf8_valid t
  | _ => false
  end.

(* The entries that a struct is decoded from; null leaves every field zero. *)
Definition dec_entries : cbor -> option (list (cbor * cbor)) :=
  dec_nullable [] (fun v =>
    match v with
    | CMap l => if forallb (fun p => key_ok (fst p)) l then Some l else None
    | _ => None
    end).

(* The first entry with a matching key; an absent field keeps its zero value, which
   is also what null gives. *)
Fixpoint lookup (m : cbor -> bool) (l : list (cbor * cbor)) : cbor :=
  match l with
  | [] => CNull
  | (k, v) :: r => if m k then v else lookup m r
  end.

Definition get_int {A} (z : Z) (f : cbor -> option A) (l : list (cbor * cbor)) : option A :=
  f (lookup (int_key z) l).
Definition get_text {A} (s : bytes) (f : cbor -> option A) (l : list (cbor * cbor)) : option A :=
  f (lookup (text_key s) l).

(* Decoding into interface{}: every text must be valid UTF-8 and map keys
   hashable.  Only success matters (ctap/ctap.go:177, Extensions is never read). *)
Definition hashable (v : cbor) : bool :=
  match v with CBytes _ | CArr _ | CMap _ => false | _ => true end.

Fixpoint any_ok (v : cbor) : bool :=
  match v with
  | CText t => utf8_valid t
  | CArr l => forallb any_ok l
  | CMap l => forallb (fun p => hashable (fst p) && any_ok (fst p) && any_ok (snd p)) l
  | CTag t v => any_ok v
  | _ => true
  end.

(* map[string]interface{}. *)
Definition dec_ext : cbor -> option unit :=
  dec_nullable tt (fun v =>
    match v with
    | CMap l =>
      if forallb (fun p => match dec_text (fst p) with Some _ => any_ok (snd p) | None => false end) l
      then Some tt else None
    | _ => None
    end).

(* cbor.Unmarshal into a type with decoder [f]. *)
Definition unmarshal {A} (f : cbor -> option A) (bs : bytes) : option A :=
  match parse_top bs with
  | POk v _ => f v
  | _ => None
  end.
