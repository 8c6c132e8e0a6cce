(* Model of the parts of encoding/json and encoding/base64 (Go 1.19 standard library)
   used by identities/saved_state.go:63, 73, 90, 107 (json.Marshal, json.Unmarshal).
   Library behaviour, taken from its documentation and specification. *)
From Verif Require Import Base M_Utf8 M_Cbor.

(* ------------------------------------------------------------------ *)
(* UTF-8 decoding and encoding of single runes                          *)

(* utf8.DecodeRune on [b0 :: r0]: the rune, or None for RuneError of width 1, and the
   remaining bytes. *)
Definition decode_rune (b0 : N) (r0 : bytes) : option N * bytes :=
  if b0 <? 128 then (Some b0, r0)
  else match r0 with
  | [] => (None, r0)
  | b1 :: r1 =>
    if (194 <=? b0) && (b0 <? 224) && cont b1 then (Some ((b0 - 192) * 64 + (b1 - 128)), r1)
    else match r1 with
    | [] => (None, r0)
    | b2 :: r2 =>
      if (224 <=? b0) && (b0 <? 240) && cont b1 && cont b2 &&
         (if b0 =? 224 then 160 <=? b1 else if b0 =? 237 then b1 <? 160 else true)
      then (Some ((b0 - 224) * 4096 + (b1 - 128) * 64 + (b2 - 128)), r2)
      else match r2 with
      | [] => (None, r0)
      | b3 :: r3 =>
        if (240 <=? b0) && (b0 <? 245) && cont b1 && cont b2 && cont b3 &&
           (if b0 =? 240 then 144 <=? b1 else if b0 =? 244 then b1 <? 144 else true)
        then (Some ((b0 - 240) * 262144 + (b1 - 128) * 4096 + (b2 - 128) * 64 + (b3 - 128)), r3)
        else (None, r0)
      end
    end
  end.

(* utf8.EncodeRune. *)
Definition encode_rune (c : N) : bytes :=
  if c <? 128 then [c]
  else if c <? 2048 then [192 + c / 64; 128 + c mod 64]
  else if (1114112 <=? c) || ((55296 <=? c) && (c <? 57344)) then [239; 191; 189]
  else if c <? 65536 then [224 + c / 4096; 128 + c / 64 mod 64; 128 + c mod 64]
  else [240 + c / 262144; 128 + c / 4096 mod 64; 128 + c / 64 mod 64; 128 + c mod 64].

Definition rune_error : N := 65533.
Definition or_error (r : option N) : N := match r with Some c => c | None => rune_error end.

(* ------------------------------------------------------------------ *)
(* Values                                                              *)

(* A JSON value.  [JReal] is any number that is not an integer literal. *)
Inductive json : Type :=
| JNull
| JBool (b : bool)
| JInt (z : Z)
| JReal
| JStr (s : bytes)
| JArr (l : list json)
| JObj (l : list (bytes * json)).

(* ------------------------------------------------------------------ *)
(* Encoder                                                             *)

Definition hex_digit (n : N) : N := if n <? 10 then 48 + n else 87 + n.
Definition uesc (c : N) : bytes :=
  [92; 117; hex_digit (c / 4096 mod 16); hex_digit (c / 256 mod 16); hex_digit (c / 16 mod 16);
   hex_digit (c mod 16)].

(* encodeState.string with escapeHTML: quotes, backslash, control characters, the HTML
   characters, U+2028 and U+2029 are escaped, invalid bytes become the escape of U+FFFD. *)
Definition esc_rune (r : option N) : bytes :=
  match r with
  | None => uesc rune_error
  | Some c =>
    if (c =? 34) || (c =? 92) then [92; c]
    else if c =? 10 then [92; 110]
    else if c =? 13 then [92; 114]
    else if c =? 9 then [92; 116]
    else if (c <? 32) || (c =? 60) || (c =? 62) || (c =? 38) then uesc c
    else if (c =? 8232) || (c =? 8233) then uesc c
    else encode_rune c
  end.

Fixpoint runes (f : nat) (s : bytes) : list (option N) :=
  match f, s with
  | S f, b :: r => let (c, r') := decode_rune b r in c :: runes f r'
  | _, _ => []
  end.

Definition enc_string (s : bytes) : bytes := 34 :: flat_map esc_rune (runes (length s) s) ++ [34].

(* strconv.AppendInt in base 10; [f] bounds the number of digits. *)
Fixpoint digits (f : nat) (n : N) : bytes :=
  match f with
  | O => []
  | S f => if n <? 10 then [48 + n] else digits f (n / 10) ++ [48 + n mod 10]
  end.
Definition enc_nat (n : N) : bytes := digits (S (N.to_nat (N.size n))) n.
Definition enc_int (z : Z) : bytes :=
  if (z <? 0)%Z then 45 :: enc_nat (Z.to_N (- z)) else enc_nat (Z.to_N z).

Fixpoint sep (l : list bytes) : bytes :=
  match l with
  | [] => []
  | [a] => a
  | a :: r => a ++ 44 :: sep r
  end.

Fixpoint jenc (v : json) : bytes :=
  match v with
  | JNull => [110; 117; 108; 108]
  | JBool true => [116; 114; 117; 101]
  | JBool false => [102; 97; 108; 115; 101]
  | JInt z => enc_int z
  | JReal => []
  | JStr s => enc_string s
  | JArr l => 91 :: sep (map jenc l) ++ [93]
  | JObj l => 123 :: sep (map (fun p => enc_string (fst p) ++ 58 :: jenc (snd p)) l) ++ [125]
  end.

(* ------------------------------------------------------------------ *)
(* Parser                                                              *)

Definition is_ws (b : N) : bool := (b =? 32) || (b =? 9) || (b =? 10) || (b =? 13).
Fixpoint skip_ws (s : bytes) : bytes :=
  match s with
  | b :: r => if is_ws b then skip_ws r else s
  | [] => []
  end.

Definition hex_val (b : N) : option N :=
  if (48 <=? b) && (b <=? 57) then Some (b - 48)
  else if (97 <=? b) && (b <=? 102) then Some (b - 87)
  else if (65 <=? b) && (b <=? 70) then Some (b - 55)
  else None.

Definition hex4 (s : bytes) : option (N * bytes) :=
  match s with
  | a :: b :: c :: d :: r =>
    let! a := hex_val a in let! b := hex_val b in let! c := hex_val c in let! d := hex_val d in
    Some (a * 4096 + b * 256 + c * 16 + d, r)
  | _ => None
  end.

(* unquoteBytes on \uXXXX: a surrogate pair is combined, a lone surrogate is replaced. *)
Definition unescape_u (s : bytes) : option (N * bytes) :=
  let! (u, r) := hex4 s in
  if (55296 <=? u) && (u <? 57344) then
    match r with
    | 92 :: 117 :: r1 =>
      match hex4 r1 with
      | Some (u2, r2) =>
        if (u <? 56320) && (56320 <=? u2) && (u2 <? 57344)
        then Some ((u - 55296) * 1024 + (u2 - 56320) + 65536, r2)
        else Some (rune_error, r)
      | None => Some (rune_error, r)
      end
    | _ => Some (rune_error, r)
    end
  else Some (u, r).

(* The rest of a string literal, after the opening quote. *)
Fixpoint parse_str (f : nat) (s : bytes) : pres bytes :=
  match f with
  | O => PFuel
  | S f =>
    let go (c : bytes) (r : bytes) := pbind (parse_str f r) (fun t r => POk (c ++ t) r) in
    match s with
    | [] => PErr
    | b :: r =>
      if b =? 34 then POk [] r
      else if b =? 92 then
        match r with
        | [] => PErr
        | e :: r1 =>
          if (e =? 34) || (e =? 92) || (e =? 47) then go [e] r1
          else if e =? 98 then go [8] r1
          else if e =? 102 then go [12] r1
          else if e =? 110 then go [10] r1
          else if e =? 114 then go [13] r1
          else if e =? 116 then go [9] r1
          else if e =? 117 then
            match unescape_u r1 with
            | Some (c, r2) => go (encode_rune c) r2
            | None => PErr
            end
          else PErr
        end
      else if b <? 32 then PErr
      else let (c, r') := decode_rune b r in go (encode_rune (or_error c)) r'
    end
  end.

Definition is_digit (b : N) : bool := (48 <=? b) && (b <=? 57).
Fixpoint span_digits (s : bytes) : bytes * bytes :=
  match s with
  | b :: r => if is_digit b then let (d, r') := span_digits r in (b :: d, r') else ([], s)
  | [] => ([], [])
  end.

Definition digits_val (d : bytes) : N := fold_left (fun a b => 10 * a + (b - 48)) d 0.

(* An optional fraction: whether there is one, and the rest. *)
Definition parse_frac (r : bytes) : option (bool * bytes) :=
  match r with
  | 46 :: r1 => match span_digits r1 with ([], _) => None | (_, r2) => Some (true, r2) end
  | _ => Some (false, r)
  end.

(* An unsigned number: digits without a leading zero, then an optional fraction and
   exponent, either of which makes it a non-integer. *)
Definition parse_unsigned (s : bytes) : pres (option N) :=
  let (d, r) := span_digits s in
  match d with
  | [] => PErr
  | d0 :: d' =>
    let (d, r) := if d0 =? 48 then ([d0], d' ++ r) else (d, r) in
    match parse_frac r with
    | None => PErr
    | Some (isf, r) =>
      match r with
      | e :: r1 =>
        if (e =? 101) || (e =? 69) then
          let r1 := match r1 with s :: r2 => if (s =? 43) || (s =? 45) then r2 else r1 | [] => r1 end in
          match span_digits r1 with ([], _) => PErr | (_, r2) => POk None r2 end
        else POk (if isf : bool then None else Some (digits_val d)) r
      | [] => POk (if isf : bool then None else Some (digits_val d)) r
      end
    end
  end.

Fixpoint eat (w s : bytes) : option bytes :=
  match w, s with
  | [], _ => Some s
  | a :: w', b :: s' => if a =? b then eat w' s' else None
  | _, [] => None
  end.

(* One value.  Simplified: no nesting limit (Go: 10000). *)
Fixpoint parse_val (f : nat) (s : bytes) : pres json :=
  match f with
  | O => PFuel
  | S f =>
    match skip_ws s with
    | [] => PErr
    | b :: r =>
      if b =? 123 then
        match eat [125] (skip_ws r) with
        | Some r' => POk (JObj []) r'
        | None => pbind (parse_members f (skip_ws r)) (fun l r => POk (JObj l) r)
        end
      else if b =? 91 then
        match eat [93] (skip_ws r) with
        | Some r' => POk (JArr []) r'
        | None => pbind (parse_elems f (skip_ws r)) (fun l r => POk (JArr l) r)
        end
      else if b =? 34 then pbind (parse_str (S (length r)) r) (fun s r => POk (JStr s) r)
      else if b =? 110 then match eat [117; 108; 108] r with Some r => POk JNull r | None => PErr end
      else if b =? 116 then match eat [114; 117; 101] r with Some r => POk (JBool true) r | None => PErr end
      else if b =? 102 then match eat [97; 108; 115; 101] r with Some r => POk (JBool false) r | None => PErr end
      else if b =? 45 then
        pbind (parse_unsigned r) (fun n r =>
          POk (match n with Some n => JInt (- Z.of_N n) | None => JReal end) r)
      else if is_digit b then
        pbind (parse_unsigned (b :: r)) (fun n r =>
          POk (match n with Some n => JInt (Z.of_N n) | None => JReal end) r)
      else PErr
    end
  end
with parse_members (f : nat) (s : bytes) : pres (list (bytes * json)) :=
  match f with
  | O => PFuel
  | S f =>
    match s with
    | b :: r =>
      if b =? 34 then
        pbind (parse_str (S (length r)) r) (fun k r =>
          match skip_ws r with
          | 58 :: r =>
            pbind (parse_val f r) (fun v r =>
              match skip_ws r with
              | c :: r => if c =? 44 then pbind (parse_members f (skip_ws r)) (fun l r => POk ((k, v) :: l) r)
                          else if c =? 125 then POk [(k, v)] r
                          else PErr
              | [] => PErr
              end)
          | _ => PErr
          end)
      else PErr
    | [] => PErr
    end
  end
with parse_elems (f : nat) (s : bytes) : pres (list json) :=
  match f with
  | O => PFuel
  | S f =>
    pbind (parse_val f s) (fun v r =>
      match skip_ws r with
      | c :: r => if c =? 44 then pbind (parse_elems f r) (fun l r => POk (v :: l) r)
                  else if c =? 93 then POk [v] r
                  else PErr
      | [] => PErr
      end)
  end.

(* A whole document: nothing but white space may follow. *)
Definition parse_json (s : bytes) : option json :=
  match parse_val (S (2 * length s)) s with
  | POk v r => match skip_ws r with [] => Some v | _ => None end
  | _ => None
  end.

(* ------------------------------------------------------------------ *)
(* Base64, standard alphabet                                           *)

Definition b64_char (n : N) : N :=
  if n <? 26 then 65 + n else if n <? 52 then 71 + n else if n <? 62 then n - 4
  else if n =? 62 then 43 else 47.

Definition b64_val (c : N) : option N :=
  if (65 <=? c) && (c <=? 90) then Some (c - 65)
  else if (97 <=? c) && (c <=? 122) then Some (c - 71)
  else if (48 <=? c) && (c <=? 57) then Some (c + 4)
  else if c =? 43 then Some 62
  else if c =? 47 then Some 63
  else None.

Fixpoint b64_enc (s : bytes) : bytes :=
  match s with
  | [] => []
  | [a] => [b64_char (a / 4); b64_char (a mod 4 * 16); 61; 61]
  | [a; b] => [b64_char (a / 4); b64_char (a mod 4 * 16 + b / 16); b64_char (b mod 16 * 4); 61]
  | a :: b :: c :: r =>
    b64_char (a / 4) :: b64_char (a mod 4 * 16 + b / 16) :: b64_char (b mod 16 * 4 + c / 64) ::
    b64_char (c mod 64) :: b64_enc r
  end.

Fixpoint b64_groups (s : bytes) : option bytes :=
  match s with
  | [] => Some []
  | a :: b :: c :: d :: r =>
    let! a := b64_val a in
    let! b := b64_val b in
    if c =? 61 then
      if d =? 61 then match r with [] => Some [a * 4 + b / 16] | _ => None end else None
    else
      let! c := b64_val c in
      if d =? 61 then match r with [] => Some [a * 4 + b / 16; b mod 16 * 16 + c / 4] | _ => None end
      else
        let! d := b64_val d in
        let! t := b64_groups r in
        Some (a * 4 + b / 16 :: b mod 16 * 16 + c / 4 :: c mod 4 * 64 + d :: t)
  | _ => None
  end.

(* Decode skips carriage returns and newlines. *)
Definition b64_dec (s : bytes) : option bytes :=
  b64_groups (filter (fun b => negb ((b =? 10) || (b =? 13))) s).

(* ------------------------------------------------------------------ *)
(* Go values                                                           *)

(* []byte: nil is null. *)
Definition jbytes (b : option bytes) : json :=
  match b with None => JNull | Some b => JStr (b64_enc b) end.

Definition jdec_int (lo hi : Z) (v : json) : option Z :=
  match v with
  | JNull => Some 0%Z
  | JInt z => if ((lo <=? z) && (z <? hi))%Z then Some z else None
  | _ => None
  end.

Definition jdec_bytes (v : json) : option (option bytes) :=
  match v with
  | JNull => Some None
  | JStr s => let! b := b64_dec s in Some (Some b)
  | JArr l => let! b := mapo (jdec_int 0 256) l in Some (Some (map Z.to_N b))
  | _ => None
  end.

Definition jdec_text (v : json) : option bytes :=
  match v with JNull => Some [] | JStr s => Some s | _ => None end.

Definition jdec_bool (v : json) : option bool :=
  match v with JNull => Some false | JBool b => Some b | _ => None end.

Definition jdec_list {A} (f : json -> option A) (v : json) : option (list A) :=
  match v with JNull => Some [] | JArr l => mapo f l | _ => None end.

Definition jdec_fields (v : json) : option (list (bytes * json)) :=
  match v with JNull => Some [] | JObj l => Some l | _ => None end.

(* The last member whose name matches without regard to case.  Simplified: an earlier
   duplicate leaves no trace (in Go a null after a string or number keeps the earlier
   value, and nested structs are merged). *)
Definition jfield {A} (name : bytes) (f : json -> option A) (l : list (bytes * json)) : option A :=
  f (fold_left (fun acc p => if equal_fold (fst p) name then snd p else acc) l JNull).

Definition junmarshal {A} (f : json -> option A) (s : bytes) : option A :=
  let! v := parse_json s in f v.
