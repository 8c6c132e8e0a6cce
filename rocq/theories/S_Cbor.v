(* Specification of CTAP2 canonical CBOR and of UTF-8, independent of the model's
   encoder, parser and validity check. *)
From Coq Require Import Sorting.Sorted.
From Verif Require Import Base M_Cbor.

(* Unicode scalar values and their UTF-8 form. *)
Definition scalar (c : N) : Prop := c < 55296 \/ (57344 <= c /\ c < 1114112).

Definition utf8_enc (c : N) : bytes :=
  if c <? 128 then [c]
  else if c <? 2048 then [192 + c / 64; 128 + c mod 64]
  else if c <? 65536 then [224 + c / 4096; 128 + (c / 64) mod 64; 128 + c mod 64]
  else [240 + c / 262144; 128 + (c / 4096) mod 64; 128 + (c / 64) mod 64; 128 + c mod 64].

Definition utf8_text (s : bytes) : Prop :=
  exists cs, Forall scalar cs /\ s = flat_map utf8_enc cs.

(* The head of an item: a major type and the argument in the fewest bytes. *)
Inductive Head (mt n : N) : bytes -> Prop :=
| Head0 : n < 24 -> Head mt n [32 * mt + n]
| Head1 : 24 <= n -> n < 256 -> Head mt n (32 * mt + 24 :: be 1 n)
| Head2 : 256 <= n -> n < 256 ^ 2 -> Head mt n (32 * mt + 25 :: be 2 n)
| Head4 : 256 ^ 2 <= n -> n < 256 ^ 4 -> Head mt n (32 * mt + 26 :: be 4 n)
| Head8 : 256 ^ 4 <= n -> n < 256 ^ 8 -> Head mt n (32 * mt + 27 :: be 8 n).

(* Strict bytewise lexicographic order. *)
Definition lex_lt (a b : bytes) : Prop :=
  (exists x r, b = a ++ x :: r) \/
  (exists p x y r s, a = p ++ x :: r /\ b = p ++ y :: s /\ x < y).

(* Definite lengths, shortest heads, sorted distinct keys, no tags, no floats. *)
Inductive canonical : cbor -> bytes -> Prop :=
| can_uint n h : Head 0 n h -> canonical (CUint n) h
| can_nint n h : Head 1 n h -> canonical (CNint n) h
| can_bytes b h : wfb b -> Head 2 (len b) h -> canonical (CBytes b) (h ++ b)
| can_text b h : utf8_text b -> Head 3 (len b) h -> canonical (CText b) (h ++ b)
| can_arr l bs h :
    Head 4 (len l) h -> Forall2 canonical l bs -> canonical (CArr l) (h ++ concat bs)
| can_map l ks vs h :
    Head 5 (len l) h ->
    Forall2 canonical (map fst l) ks -> Forall2 canonical (map snd l) vs ->
    StronglySorted lex_lt ks ->
    canonical (CMap l) (h ++ concat (map (fun p => fst p ++ snd p) (combine ks vs)))
| can_false : canonical (CSimple 20) [244]
| can_true : canonical (CSimple 21) [245]
| can_null : canonical (CSimple 22) [246].
