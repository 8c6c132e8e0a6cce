(* What the demo's commands should do. *)
From Coq Require Import Permutation.
From Verif Require Import Base M_Str M_Json M_Crypto M_Cose M_State M_Client M_Demo.

(* A proper prefix. *)
Definition torn (f data : bytes) : Prop := exists b r, data = f ++ b :: r.

(* [h] is the lower case hexadecimal text of [id]. *)
Definition nibble (c n : N) : Prop := (n < 10 /\ c = 48 + n) \/ (10 <= n < 16 /\ c = 97 + (n - 10)).
Inductive hex_text : bytes -> bytes -> Prop :=
| Hex_nil : hex_text [] []
| Hex_cons b r c1 c2 h : b < 256 -> nibble c1 (b / 16) -> nibble c2 (b mod 16) -> hex_text r h ->
    hex_text (b :: r) (c1 :: c2 :: h).

(* The identity is named by the prefix. *)
Definition named (prefix : bytes) (s : source) : Prop := exists h r, hex_text (cs_id s) h /\ h = prefix ++ r.

(* [l] are the identities of [v] for which [P] holds, in order. *)
Inductive those {A} (P : A -> Prop) : list A -> list A -> Prop :=
| Th_nil : those P [] []
| Th_in x v l : P x -> those P v l -> those P (x :: v) (x :: l)
| Th_out x v l : ~ P x -> those P v l -> those P (x :: v) l.

(* [w] occurs in [s]. *)
Definition mentions (s w : bytes) : Prop := exists a b, s = a ++ w ++ b.

(* A decimal number without leading zeros. *)
Definition plain_number (s : bytes) : Prop :=
  Forall (fun b => 48 <= b <= 57) s /\ match s with b :: _ => b <> 48 | [] => False end.

(* The number that digits of a base say. *)
Definition value (base : N) (s : bytes) : N := fold_left (fun a b => base * a + (b - 48)) s 0.

(* Blanks around a word of one's own choice of case. *)
Definition blanks (s : bytes) : Prop := Forall (fun b => b = 32 \/ 9 <= b <= 13) s.
Definition says_yes (line : bytes) : Prop := exists a m b, line = a ++ m ++ b /\ blanks a /\ blanks b /\
  (In m [[121]; [89]] \/ exists y e s, m = [y; e; s] /\ (y = 121 \/ y = 89) /\ (e = 101 \/ e = 69) /\ (s = 115 \/ s = 83)).
