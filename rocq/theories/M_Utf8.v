(* Model of Go's utf8.Valid and of the case folding used to match field names.
   Library behaviour (Go standard library), not code of /repo; used by
   util/util.go:163-170 (CBOR) and identities/saved_state.go:41-112 (JSON). *)
From Verif Require Import Base.

Definition cont (b : N) : bool := (128 <=? b) && (b <? 192).

(* utf8.Valid: no overlong forms, no surrogates, nothing above U+10FFFF. *)
Fixpoint utf8_valid (s : bytes) : bool :=
  match s with
  | [] => true
  | b0 :: r0 =>
    if b0 <? 128 then utf8_valid r0
    else match r0 with
    | [] => false
    | b1 :: r1 =>
      if (194 <=? b0) && (b0 <? 224) then cont b1 && utf8_valid r1
      else match r1 with
      | [] => false
      | b2 :: r2 =>
        if (224 <=? b0) && (b0 <? 240) then
          cont b1 && cont b2 &&
          (if b0 =? 224 then 160 <=? b1 else if b0 =? 237 then b1 <? 160 else true) &&
          utf8_valid r2
        else match r2 with
        | [] => false
        | b3 :: r3 =>
          (240 <=? b0) && (b0 <? 245) && cont b1 && cont b2 && cont b3 &&
          (if b0 =? 240 then 144 <=? b1 else if b0 =? 244 then b1 <? 144 else true) &&
          utf8_valid r3
        end
      end
    end
  end.

(* The part of strings.EqualFold (fxamacker/cbor, encoding/json) which matters for
   the ASCII field names of /repo: ASCII letters, U+212A (folds to k) and
   U+017F (folds to s). *)
Fixpoint fold_case (s : bytes) : bytes :=
  match s with
  | [] => []
  | b0 :: r0 =>
    if (65 <=? b0) && (b0 <=? 90) then (b0 + 32) :: fold_case r0
    else match r0 with
    | b1 :: r1 =>
      if (b0 =? 197) && (b1 =? 191) then 115 :: fold_case r1
      else match r1 with
      | b2 :: r2 =>
        if (b0 =? 226) && (b1 =? 132) && (b2 =? 170) then 107 :: fold_case r2
        else b0 :: fold_case r0
      | _ => b0 :: fold_case r0
      end
    | _ => b0 :: fold_case r0
    end
  end.

Definition equal_fold (a b : bytes) : bool := bytes_eqb (fold_case a) (fold_case b).
