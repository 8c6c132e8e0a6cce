(* Specification of what a host does with a device it has just found: it reads the
   descriptors over the control endpoint (USB 2.0, chapter 9), reads the HID report
   descriptor (HID 1.11, section 6.2.2) and looks for a FIDO authenticator (CTAP, 11.2.8
   "HID device implementation"). *)
From Coq Require Import ZArith.
From Verif Require Import Base S_Usb.
Open Scope N_scope.

(* ------------------------------------------------- report descriptors (HID 6.2.2) *)
(* The data of a short item as a number and as a two's complement number. *)
Definition signed (n u : N) : Z :=
  if (0 <? n) && (2 ^ (8 * n - 1) <=? u) then (Z.of_N u - 2 ^ Z.of_N (8 * n))%Z else Z.of_N u.

Record field := mk_field {
  fd_output : bool; fd_page : N; fd_usages : list N;
  fd_min : Z; fd_max : Z;                       (* as the HID specification reads them *)
  fd_max_unsigned : N;                          (* the maximum's data read as unsigned *)
  fd_size : N; fd_count : N }.

(* kind, usage page, usage *)
Definition collection := (N * N * N)%type.

Record reading := mk_reading {
  rd_page : N; rd_min : Z; rd_max : Z; rd_umax : N; rd_size : N; rd_count : N;
  rd_usages : list N; rd_depth : nat; rd_collections : list collection; rd_fields : list field }.

Definition reading0 : reading := mk_reading 0 0%Z 0%Z 0 0 0 [] 0 [] [].

Definition main_item (tag u : N) (r : reading) : option reading :=
  let clear d c f := Some (mk_reading (rd_page r) (rd_min r) (rd_max r) (rd_umax r) (rd_size r)
                             (rd_count r) [] d c f) in
  let fld out := mk_field out (rd_page r) (rd_usages r) (rd_min r) (rd_max r) (rd_umax r)
                   (rd_size r) (rd_count r) in
  if tag =? 8 then clear (rd_depth r) (rd_collections r) (rd_fields r ++ [fld false])
  else if tag =? 9 then clear (rd_depth r) (rd_collections r) (rd_fields r ++ [fld true])
  else if tag =? 10 then
    match rd_usages r with
    | us :: _ => clear (S (rd_depth r)) (rd_collections r ++ [(u, rd_page r, us)]) (rd_fields r)
    | [] => None
    end
  else if tag =? 12 then
    match rd_depth r with
    | S d => clear d (rd_collections r) (rd_fields r)
    | O => None
    end
  else None.

Definition global_item (tag n u : N) (r : reading) : option reading :=
  let set p mi ma um si co := Some (mk_reading p mi ma um si co (rd_usages r) (rd_depth r)
                                      (rd_collections r) (rd_fields r)) in
  if tag =? 0 then set u (rd_min r) (rd_max r) (rd_umax r) (rd_size r) (rd_count r)
  else if tag =? 1 then set (rd_page r) (signed n u) (rd_max r) (rd_umax r) (rd_size r) (rd_count r)
  else if tag =? 2 then set (rd_page r) (rd_min r) (signed n u) u (rd_size r) (rd_count r)
  else if tag =? 7 then set (rd_page r) (rd_min r) (rd_max r) (rd_umax r) u (rd_count r)
  else if tag =? 9 then set (rd_page r) (rd_min r) (rd_max r) (rd_umax r) (rd_size r) u
  else None.

Definition local_item (tag u : N) (r : reading) : option reading :=
  if tag =? 0 then
    Some (mk_reading (rd_page r) (rd_min r) (rd_max r) (rd_umax r) (rd_size r) (rd_count r)
            (rd_usages r ++ [u]) (rd_depth r) (rd_collections r) (rd_fields r))
  else None.

(* None: an item this host does not know, an item cut short, unbalanced collections. *)
Fixpoint items (fuel : nat) (b : bytes) (r : reading) : option (list collection * list field) :=
  match b, fuel with
  | [], _ => if Nat.eqb (rd_depth r) 0 then Some (rd_collections r, rd_fields r) else None
  | _, O => None
  | p :: t, S f =>
    let n := if p mod 4 =? 3 then 4 else p mod 4 in
    if len t <? n then None else
    let u := le_dec (takeN n t) in
    let typ := p / 4 mod 4 in
    let tag := p / 16 in
    match (if typ =? 0 then main_item tag u r
           else if typ =? 1 then global_item tag n u r
           else if typ =? 2 then local_item tag u r else None) with
    | Some r' => items f (dropN n t) r'
    | None => None
    end
  end.

Definition report (b : bytes) : option (list collection * list field) :=
  items (length b) b reading0.

(* CTAP 11.2.8.1: one application collection of usage page FIDO, usage authenticator; one
   input and one output report of 64 bytes. *)
Definition fido_report (b : bytes) : Prop :=
  exists i o, report b = Some ([(1, 0xF1D0, 1)], [i; o]) /\
    fd_output i = false /\ fd_page i = 0xF1D0 /\ fd_usages i = [0x20] /\
    fd_size i = 8 /\ fd_count i = 64 /\
    fd_output o = true /\ fd_page o = 0xF1D0 /\ fd_usages o = [0x21] /\
    fd_size o = 8 /\ fd_count o = 64.

(* Every byte is a value the field may have: by the HID specification, and by the rule
   of hosts that read the maximum as unsigned when the minimum is not negative. *)
Definition any_byte (f : field) : Prop := (fd_min f <= 0)%Z /\ (255 <= fd_max f)%Z.
Definition any_byte_lenient (f : field) : Prop := fd_min f = 0%Z /\ fd_max_unsigned f = 255.

Definition report_fields (b : bytes) : list field :=
  match report b with Some (_, fs) => fs | None => [] end.

(* ------------------------------------------------- enumeration (USB 2.0, 9.4) *)
(* transfer setup n: a control transfer with these eight setup bytes and n bytes of data
   from the device (n = 0: none); None when the device does not answer. *)
Definition get_desc (reqtype typ index n : N) : bytes :=
  [reqtype; 6; index; typ; 0; 0; n mod 256; n / 256].

Record endpoint := mk_endpoint { ep_number : N; ep_in : bool; ep_interrupt : bool; ep_size : N }.
Definition endpoint_of (d : bytes) : endpoint :=
  mk_endpoint (nth 2 d 0 mod 16) (128 <=? nth 2 d 0) (nth 3 d 0 mod 4 =? 3) (word d 4 mod 2048).

Record token := mk_token {
  tk_device : bytes; tk_config : bytes; tk_value : N; tk_interface : N;
  tk_endpoints : list endpoint; tk_report : bytes }.

Definition enumerate (transfer : bytes -> N -> option bytes) : option token :=
  let! dev := transfer (get_desc 0x80 1 0 18) 18 in
  if negb ((nth 0 dev 0 =? 18) && (nth 1 dev 0 =? 1) && (nth 17 dev 0 =? 1)) then None else
  let! c9 := transfer (get_desc 0x80 2 0 9) 9 in
  let total := word c9 2 in
  let! conf := transfer (get_desc 0x80 2 0 total) total in
  let! parts := walk (length conf) conf in
  match of_type 4 parts, of_type 33 parts with
  | [i], [h] =>
    if negb (nth 5 i 0 =? 3) then None else                          (* class HID *)
    let! _ := transfer [0; 9; nth 5 conf 0; 0; 0; 0; 0; 0] 0 in        (* SET_CONFIGURATION *)
    let! _ := transfer [0x21; 10; 0; 0; nth 2 i 0; 0; 0; 0] 0 in       (* SET_IDLE *)
    let! rep := transfer (get_desc 0x81 (nth 6 h 0) 0 (word h 7)) (word h 7) in
    Some (mk_token dev conf (nth 5 conf 0) (nth 2 i 0) (map endpoint_of (of_type 5 parts)) rep)
  | _, _ => None
  end.

(* What makes it a FIDO authenticator a driver can use: the report descriptor, one
   interrupt endpoint each way, with packets as long as the reports. *)
Definition authenticator (t : token) (i o : N) : Prop :=
  fido_report (tk_report t) /\
  tk_endpoints t = [mk_endpoint i true true 64; mk_endpoint o false true 64] /\
  i <> o /\ i <> 0 /\ o <> 0.

(* What the standards also ask for: a configuration that SET_CONFIGURATION can select (0
   takes the device back to the state without one, USB 2.0, 9.4.7) and reports that may
   contain any byte. *)
Definition conforming (t : token) : Prop :=
  tk_value t <> 0 /\ Forall any_byte (report_fields (tk_report t)).

(* ------------------------------------------------- string descriptors *)
Fixpoint utf16_text (b : bytes) : option (list N) :=
  match b with
  | [] => Some []
  | a :: c :: r => if (c =? 0) && (32 <=? a) && (a <? 127)
                   then match utf16_text r with Some t => Some (a :: t) | None => None end
                   else None
  | _ => None
  end.
