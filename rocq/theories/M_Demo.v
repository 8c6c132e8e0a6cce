(* cmd/demo/demo.go and cmd/demo/server.go: the demo's vault file, its questions to the
   user and its delete, list and pin commands.  Not modelled: cobra (except how it reads the
   number of `pin set`), errors of the file system, starting usbip. *)
From Verif Require Import Base M_Str M_Json M_Crypto M_Cose M_State M_Client.

(* ---------------------------------------------------------------- the vault file *)
(* None: there is no file. *)
Definition file : Type := option bytes.

(* cmd/demo/server.go:52-57, SaveData: O_CREATE|O_TRUNC, then Write.  The file between two
   steps is what a process killed there leaves; a Write may have got any part of the data
   into the file. *)
Inductive save_state : Type :=
| SvBegin (f : file)                     (* before OpenFile *)
| SvOpen (done todo : bytes).            (* opened and truncated, [done] written *)

Definition write_step (data : bytes) (s : save_state) : save_state :=
  match s with
  | SvBegin _ => SvOpen [] data
  | SvOpen d (b :: r) => SvOpen (d ++ [b]) r
  | SvOpen d [] => SvOpen d []
  end.

Fixpoint write_steps (n : nat) (data : bytes) (s : save_state) : save_state :=
  match n with O => s | S n => write_steps n data (write_step data s) end.

Definition on_disk (s : save_state) : file :=
  match s with SvBegin f => f | SvOpen d _ => Some d end.

(* cmd/demo/server.go:59-68, RetrieveData: nil without a file, otherwise never nil
   (io.ReadAll makes its slice), which is just the file. *)
Definition retrieve (f : file) : option bytes := f.

(* ---------------------------------------------------------------- questions *)
(* cmd/demo/server.go:37-50, ApproveClientAction: the text of the question. *)
Definition quoted (s : bytes) : bytes := 34 :: s ++ [34].
Definition question (a : action) (rp user : bytes) : bytes :=
  match a with
  | ActGetAssertion =>
    str "Approve login for " ++ quoted rp ++ str " with identity " ++ quoted user ++ str " (Y/n)?"
  | ActMakeCredential => str "Approve account creation for " ++ quoted rp ++ str " (Y/n)?"
  | ActU2FAuthenticate => str "Approve registration of U2F device (Y/n)?"
  | ActU2FRegister => str "Approve use of U2F device (Y/n)?"
  end.

(* cmd/demo/server.go:16-30, prompt: the answer typed, as a line.  Simplified: only ASCII
   white space is trimmed, only ASCII letters are lowered. *)
Definition is_blank (b : N) : bool := (b =? 32) || ((9 <=? b) && (b <=? 13)).
Fixpoint trim_left (s : bytes) : bytes :=
  match s with b :: r => if is_blank b then trim_left r else s | [] => [] end.
Definition trim (s : bytes) : bytes := rev (trim_left (rev (trim_left s))).
Definition lower (b : N) : N := if (65 <=? b) && (b <=? 90) then b + 32 else b.
Definition answer (line : bytes) : bool :=
  let r := map lower (trim line) in bytes_eqb r (str "y") || bytes_eqb r (str "yes").

(* ---------------------------------------------------------------- commands *)
(* encoding/hex, EncodeToString. *)
Definition hex_encode (s : bytes) : bytes := flat_map (fun b => [hex_digit (b / 16); hex_digit (b mod 16)]) s.

(* strings.HasPrefix. *)
Definition has_prefix (s p : bytes) : bool := match eat p s with Some _ => true | None => false end.

(* What deleteIdentity prints. *)
Inductive delete_report : Type :=
| RepNone                                     (* No identity found *)
| RepSeveral (ids : list bytes)               (* Multiple identities, and their ids *)
| RepDeleted (id : bytes) (ok : bool).        (* Deleting identity: Done, or Could not find *)

Section Demo.
  Variable E : Env.

  (* cmd/demo/demo.go:42-47: the number of identities appended to targetIDs, and the loop
     variable at the end.  Every pointer in targetIDs is its address (Go 1.19). *)
  Fixpoint collect (ids : list source) (prefix : bytes) (n : nat) (var : option source) : nat * option source :=
    match ids with
    | [] => (n, var)
    | s :: r => collect r prefix (if has_prefix (hex_encode (cs_id s)) prefix then S n else n) (Some s)
    end.

  (* cmd/demo/demo.go:38-63, deleteIdentity, after createClient. *)
  Definition delete_command (prefix : bytes) : M delete_report :=
    do c <- get;
    match collect (identities c) prefix 0 None with
    | (O, _) | (_, None) => ret RepNone
    | (S O, Some s) => do ok <- delete_identity_api E (cs_id s); ret (RepDeleted (cs_id s) ok)
    | (n, Some s) => ret (RepSeveral (repeat (cs_id s) n))
    end.

  (* cmd/demo/demo.go:29-36, listIdentities, after createClient: the first eight hex digits
     of each id; source.ID[:4] panics if the id is shorter (Go: if its capacity is). *)
  Fixpoint list_lines (v : list source) : res (list (bytes * bytes * bytes)) :=
    match v with
    | [] => Ok []
    | s :: r =>
      let? h := (if len (cs_id s) <? 4 then Panic else Ok (firstn 4 (cs_id s))) in
      let? t := list_lines r in
      Ok ((hex_encode h, us_name (cs_user s), rp_name (cs_rp s)) :: t)
    end.
  Definition list_command : M (list (bytes * bytes * bytes)) := do c <- get; lift (list_lines (identities c)).

  (* pflag's int flag, strconv.ParseInt(s, 0, 64).  Simplified: '_' between digits is refused. *)
  Definition digit_of (b : N) : option N :=
    if (48 <=? b) && (b <=? 57) then Some (b - 48)
    else if (97 <=? lower b) && (lower b <=? 122) then Some (lower b - 87)
    else None.
  Fixpoint parse_digits (base : N) (s : bytes) (acc : N) : option N :=
    match s with
    | [] => Some acc
    | b :: r => let! d := digit_of b in if d <? base then parse_digits base r (acc * base + d) else None
    end.
  Definition parse_uint (s : bytes) : option N :=
    match s with
    | [] => None
    | 48 :: r =>
      match r with
      | x :: d :: t =>
        if lower x =? 98 then parse_digits 2 (d :: t) 0
        else if lower x =? 111 then parse_digits 8 (d :: t) 0
        else if lower x =? 120 then parse_digits 16 (d :: t) 0
        else parse_digits 8 r 0
      | _ => parse_digits 8 r 0
      end
    | _ => parse_digits 10 s 0
    end.
  Definition parse_flag (s : bytes) : option Z :=
    match s with
    | 45 :: r => let! n := parse_uint r in if n <=? 9223372036854775808 then Some (- Z.of_N n)%Z else None
    | 43 :: r => let! n := parse_uint r in if n <? 9223372036854775808 then Some (Z.of_N n) else None
    | _ => let! n := parse_uint s in if n <? 9223372036854775808 then Some (Z.of_N n) else None
    end.

  (* cmd/demo/demo.go:79-92, setPIN, with the flag's text; false is a refusal.  Simplified:
     createClient, which comes between the checks and SetPIN, has already been done. *)
  Definition pin_command (text : bytes) : M bool :=
    match parse_flag text with
    | None => ret false
    | Some n =>
      if (n <? 0)%Z then ret false
      else
        let s := enc_int n in
        if len s <? 4 then ret false
        else set_pin_api E s;; ret true
    end.
End Demo.
