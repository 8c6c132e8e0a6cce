(* usb/usb.go and the control endpoint of usb/usb_device.go. *)
From Coq Require Import String Ascii.
From Verif Require Import Base M_Util.
Open Scope N_scope.

(* A Go struct of unsigned integers as (width in bytes, value) in field order. *)
Definition struct := list (nat * N).

(* util/util.go:70-74 ToLE on such a struct (encoding/binary has no padding) *)
Definition to_le (s : struct) : bytes := concat (map (fun f => le (fst f) (snd f)) s).

(* util/util.go:116-121 SizeOf, a uint8 *)
Definition size_of (s : struct) : N := len (to_le s) mod 256.

(* util/util.go:108-114 Utf16encode, for ASCII text, which is all it is used for *)
Definition utf16_ascii (s : string) : bytes :=
  concat (map (fun c => le 2 (N_of_ascii c)) (list_ascii_of_string s)).

(* usb/usb.go:148-154 type usbSetupPacket *)
Record setup := mk_setup {
  su_type : N; su_request : N; su_value : N; su_index : N; su_length : N }.

(* usb/usb_device.go:71 ReadLE of the eight setup bytes.  Callers pass exactly 8. *)
Definition read_setup (b : bytes) : setup :=
  mk_setup (nth 0 b 0) (nth 1 b 0) (le_dec (takeN 2 (dropN 2 b))) (le_dec (takeN 2 (dropN 4 b)))
    (le_dec (takeN 2 (dropN 6 b))).

(* usb/usb.go:177-202, on the byte BmRequestType *)
Definition direction (t : N) : N := N.land (N.shiftr t 7) 1.
Definition set_direction (t d : N) : N :=
  N.lor (N.land t 0x7F) (N.shiftl d 7 mod 256).
Definition request_class (t : N) : N := N.land (N.shiftr t 4) 3.
Definition set_request_class (t c : N) : N :=
  N.lor (N.land t 0xCF) (N.shiftl c 4 mod 256).
Definition recipient (t : N) : N := N.land t 15.
Definition set_recipient (t r : N) : N := N.lor (N.land t 0xF0) r.

(* usb/usb.go:278-282 getDescriptorTypeAndIndex *)
Definition descriptor_type_and_index (w : N) : N * N := (N.shiftr w 8, N.land w 0xFF).

(* usb/usb.go:37-48 *)
Definition d_device : N := 1.
Definition d_configuration : N := 2.
Definition d_string : N := 3.
Definition d_interface : N := 4.
Definition d_endpoint : N := 5.
Definition d_hid : N := 33.
Definition d_hid_report : N := 34.

(* usb/usb_device.go:248-251 getHIDReport *)
Definition hid_report : bytes :=
  [6; 208; 241; 9; 1; 161; 1; 9; 32; 20; 37; 255; 117; 8; 149; 64; 129; 2; 9; 33; 20; 37; 255;
   117; 8; 149; 64; 145; 2; 192].

(* usb/usb_device.go:189-206, usb/usb.go:212-227.  BLength is SizeOf of the type, which
   does not depend on the values. *)
Definition device_descriptor : struct :=
  let fields bl := [(1%nat, bl); (1%nat, d_device); (2%nat, 0x0110); (1%nat, 0); (1%nat, 0);
    (1%nat, 0); (1%nat, 64); (2%nat, 0); (2%nat, 0); (2%nat, 1); (1%nat, 1); (1%nat, 2);
    (1%nat, 3); (1%nat, 1)] in
  fields (size_of (fields 0)).

(* usb/usb_device.go:208-220, usb/usb.go:229-238 *)
Definition configuration_descriptor (config_length : N) : struct :=
  let fields bl total := [(1%nat, bl); (1%nat, d_configuration); (2%nat, total); (1%nat, 1);
    (1%nat, 0); (1%nat, 4); (1%nat, N.lor 0x80 0x40); (1%nat, 0)] in
  let size := size_of (fields 0 0) in
  fields size ((size + config_length) mod 65536).

(* usb/usb_device.go:222-234, usb/usb.go:240-250 *)
Definition interface_descriptor : struct :=
  let fields bl := [(1%nat, bl); (1%nat, d_interface); (1%nat, 0); (1%nat, 0); (1%nat, 2);
    (1%nat, 3); (1%nat, 0); (1%nat, 0); (1%nat, 5)] in
  fields (size_of (fields 0)).

(* usb/usb_device.go:236-246, usb/usb.go:254-262 *)
Definition hid_descriptor (report : bytes) : struct :=
  let fields bl := [(1%nat, bl); (1%nat, d_hid); (2%nat, 0x0101); (1%nat, 0); (1%nat, 1);
    (1%nat, d_hid_report); (2%nat, len report mod 65536)] in
  fields (size_of (fields 0)).

(* usb/usb_device.go:253-273, usb/usb.go:264-271 *)
Definition endpoint_descriptor (address : N) : struct :=
  let fields bl := [(1%nat, bl); (1%nat, d_endpoint); (1%nat, address); (1%nat, 3); (2%nat, 64);
    (1%nat, 255)] in
  fields (size_of (fields 0)).
Definition endpoint_descriptors : list struct :=
  [endpoint_descriptor 0x81; endpoint_descriptor 0x02].

(* usb/usb_device.go:275-293 getStringDescriptor *)
Definition string_descriptor (index : N) : res bytes :=
  match index with
  | 0 => Ok (le 2 0x0409)
  | 1 => Ok (utf16_ascii "No Company")
  | 2 => Ok (utf16_ascii "Virtual FIDO")
  | 3 => Ok (utf16_ascii "No Serial Number")
  | 4 => Ok (utf16_ascii "String 4")
  | 5 => Ok (utf16_ascii "Default Interface")
  | _ => Panic
  end.

(* usb/usb_device.go:152-187 getDescriptor *)
Definition get_descriptor (typ index : N) : res bytes :=
  if typ =? d_device then Ok (to_le device_descriptor)
  else if typ =? d_configuration then
    let config_bytes := to_le interface_descriptor ++ to_le (hid_descriptor hid_report) ++
                        concat (map to_le endpoint_descriptors) in
    Ok (to_le (configuration_descriptor (len config_bytes mod 65536)) ++ config_bytes)
  else if typ =? d_string then
    let? message := string_descriptor index in
    Ok (to_le [(1%nat, (2 + len message mod 256) mod 256); (1%nat, d_string)] ++ message)
  else Panic.

(* usb/usb_device.go:99-150; None is nil *)
Definition handle_device_request (s : setup) : res (option bytes) :=
  if su_request s =? 6 then
    let (typ, index) := descriptor_type_and_index (su_value s) in
    let? d := get_descriptor typ index in Ok (Some d)
  else if su_request s =? 9 then Ok None
  else if su_request s =? 0 then Ok (Some [1])
  else Panic.

Definition handle_interface_request (s : setup) : res (option bytes) :=
  if su_request s =? 10 then Ok None
  else if su_request s =? 11 then Ok None
  else if su_request s =? 6 then
    let (typ, index) := descriptor_type_and_index (su_value s) in
    if typ =? d_hid_report then Ok (Some hid_report) else Panic
  else Panic.

Definition handle_control_message (s : setup) : res (option bytes) :=
  if recipient (su_type s) =? 0 then handle_device_request s
  else if recipient (su_type s) =? 1 then handle_interface_request s
  else Panic.
