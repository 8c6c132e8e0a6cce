(* What packages usbip and usb write to the log about requests (usbip/usbip_server.go:12,
   usb/usb_device.go:12, level trace), as text.

   Sprintf with verbs %d, %x, %s and %v for numbers and strings: the format cut at its verbs.
   %#v of a struct of numbers and byte arrays is its Go literal, numbers in hexadecimal.
   Not here: the lines about lists of devices and attaching, and those of the handlers of
   control transfers, which depend on the setup packet only. *)
From Verif Require Import Base M_Str M_Util M_Json M_Usb M_Usbip.
Open Scope N_scope.

(* strconv.FormatUint for bases up to 16 *)
Fixpoint digits (base : N) (fuel : nat) (n : N) : bytes :=
  match fuel with
  | O => []
  | S f => if n <? base then [hex_digit n] else digits base f (n / base) ++ [hex_digit (n mod base)]
  end.
Definition d_text (n : N) : bytes := digits 10 20 n.
Definition x_text (n : N) : bytes := digits 16 16 n.

(* pieces of a format, each with the text of the verb after it, and the end of the format *)
Fixpoint filled (l : list (bytes * bytes)) (rest : bytes) : bytes :=
  match l with
  | [] => rest
  | (piece, value) :: r => piece ++ value ++ filled r rest
  end.

(* the elements of a byte array or slice in %#v: 0x1, 0x2, ... *)
Definition array_fields (first : bytes) (b : bytes) : list (bytes * bytes) :=
  match b with
  | [] => []
  | x :: r => (first ++ str "0x", x_text x) :: map (fun y => (str ", 0x", x_text y)) r
  end.

Definition lookup (n : N) (l : list (N * bytes)) : option bytes :=
  option_map snd (find (fun p => fst p =? n) l).
(* a map of Go gives "" for keys that it does not have *)
Definition name_of (n : N) (l : list (N * bytes)) : bytes :=
  match lookup n l with Some b => b | None => [] end.

(* usbip/usbip.go:18-21, 48-53 *)
Definition direction_names : list (N * bytes) := [(0, str "usbipDirOut"); (1, str "usbipDirIn")].
Definition command_names : list (N * bytes) :=
  [(1, str "usbipCmdSubmit"); (2, str "usbipCmdUnlink"); (3, str "usbipRetSubmit"); (4, str "usbipRetUnlink")].

(* usbip/usbip.go:127-136, usbipMessageHeader.String *)
Definition header_text (h : header) : bytes :=
  filled [(str "USBIPMessageHeader{ Command: ", name_of (hd_command h) command_names);
          (str ", SequenceNumber: ", d_text (hd_seq h));
          (str ", DeviceID: ", d_text (N.shiftr (hd_devid h) 16)); (str "-", d_text (N.land (hd_devid h) 255));
          (str ", Direction: ", name_of (hd_dir h) direction_names);
          (str ", Endpoint: ", d_text (hd_ep h))] (str " }").

(* %#v of the same type *)
Definition header_literal (h : header) : bytes :=
  filled [(str "usbip.usbipMessageHeader{Command:0x", x_text (hd_command h));
          (str ", SequenceNumber:0x", x_text (hd_seq h)); (str ", DeviceID:0x", x_text (hd_devid h));
          (str ", Direction:0x", x_text (hd_dir h)); (str ", Endpoint:0x", x_text (hd_ep h))] (str "}").

(* usbip/usbip.go:155-172, usbipCommandSubmitBody and its String, from the 28 bytes *)
Definition body_text (b : bytes) : bytes :=
  let f i := be_dec (takeN 4 (dropN i b)) in
  filled ([(str "USBIPCommandSubmitBody{ TransferFlags: 0x", x_text (f 0));
           (str ", TransferBufferLength: ", d_text (f 4)); (str ", StartFrame: ", d_text (f 8));
           (str ", NumberOfPackets: ", d_text (f 12)); (str ", Interval: ", d_text (f 16))]
          ++ array_fields (str ", Setup: [8]uint8{") (takeN 8 (dropN 20 b))) (str "} }").

(* usbip/usbip.go:183-186, usbipCommandUnlinkBody by %#v *)
Definition unlink_text (b : bytes) : bytes :=
  filled ([(str "usbip.usbipCommandUnlinkBody{UnlinkSequenceNumber:0x", x_text (be_dec (takeN 4 b)))]
          ++ array_fields (str ", Padding:[24]uint8{") (takeN 24 (dropN 4 b))) (str "}}").

Definition nl2 : bytes := [10; 10].

(* usbip/usbip_server.go:102-122, 153-155: the lines about one request, as far as it can be
   read; log.Printf ends a line that does not end with a newline *)
Definition command_lines (s : stream) : list bytes :=
  match read_full 20 s with
  | None => []
  | Some (b, s1) =>
    let h := parse_header b in
    (str "[MESSAGE HEADER] " ++ header_text h ++ nl2) ::
    (if hd_command h =? 1 then
       match read_full 28 s1 with
       | None => []
       | Some (c, _) => [str "[COMMAND SUBMIT] " ++ body_text c ++ nl2]
       end
     else if hd_command h =? 2 then
       match read_full 28 s1 with
       | None => []
       | Some (c, _) => [str "[COMMAND UNLINK] " ++ unlink_text c ++ nl2]
       end
     else [str "Unsupported Command: " ++ header_literal h ++ nl2])
  end.

(* usbip/usbip_server.go:129-147: the lines about the reply to a SUBMIT; %v of the header is
   its String, 138-153 of usbip/usbip.go makes it *)
Definition return_header (h : header) : header :=
  mk_header (if hd_command h =? 1 then 3 else if hd_command h =? 2 then 4 else 0) (hd_seq h) 0 0 0.
Definition slice_text (b : bytes) : bytes :=
  filled (array_fields (str "[]byte{") b) (match b with [] => str "[]byte{}" | _ => str "}" end).
Definition return_lines (h : header) (buffer : bytes) (response : option bytes) : list bytes :=
  let tb := match response with
            | Some r => takeN (len buffer) r ++ dropN (len r) buffer
            | None => buffer
            end in
  (str "[RETURN SUBMIT] " ++ header_text (return_header h) ++
   filled [(str " usbip.usbipReturnSubmitBody{Status:0x", x_text 0);
           (str ", ActualLength:0x", x_text (len tb mod 4294967296)); (str ", StartFrame:0x", x_text 0);
           (str ", NumberOfPackets:0x", x_text 0); (str ", ErrorCount:0x", x_text 0); (str ", Padding:0x", x_text 0)]
     (str "}" ++ nl2)) ::
  (if hd_dir h =? 1 then [str "[RETURN SUBMIT] DATA: " ++ slice_text tb ++ nl2] else []).

(* usb/usb.go:7-33, 70-104, 107-118, 120-134 *)
Definition device_requests : list (N * bytes) :=
  [(0, str "usbRequestGetStatus"); (1, str "usbRequestClearFeature"); (3, str "usbRequestSetFeature");
   (5, str "usbRequestSetAddress"); (6, str "usbRequestGetDescriptor"); (7, str "usbRequestSetDescriptor");
   (8, str "usbRequestGetConfiguration"); (9, str "usbRequestSetConfiguration"); (10, str "usbRequestGetInterface");
   (11, str "usbRequestSetInterface"); (12, str "usbRequestSynchFrame")].
Definition interface_requests : list (N * bytes) :=
  [(1, str "usbHIDRequestGetReport"); (2, str "usbHIDRequestGetIdle"); (3, str "usbHIDRequestGetProtocol");
   (6, str "usbHIDRequestGetDescriptor"); (7, str "usbHIDRequestSetDescriptor"); (9, str "usbHIDRequestSetReport");
   (10, str "usbHIDRequestSetIdle"); (11, str "usbHIDRequestSetProtocol")].
Definition setup_directions : list (N * bytes) := [(0, str "usbHostToDevice"); (1, str "usbDeviceToHost")].
Definition class_names : list (N * bytes) :=
  [(0, str "usbRequestClassStandard"); (1, str "usbRequestClassClass"); (2, str "usbRequestClassVendor");
   (3, str "usbRequestClassReserved")].
Definition recipient_names : list (N * bytes) :=
  [(0, str "usbRequestRecipientDevice"); (1, str "usbRequestRecipientInterface");
   (2, str "usbRequestRecipientEndpoint"); (3, str "usbRequestRecipientOther")].

Definition request_name (s : setup) : bytes :=
  match lookup (su_request s) (if recipient (su_type s) =? 0 then device_requests else interface_requests) with
  | Some b => b
  | None => str "0x" ++ x_text (su_request s)
  end.

(* usb/usb.go:156-175, usbSetupPacket.String *)
Definition setup_text (s : setup) : bytes :=
  filled [(str "USBSetupPacket{ Direction: ", name_of (direction (su_type s)) setup_directions);
          (str ", RequestType: ", name_of (request_class (su_type s)) class_names);
          (str ", Recipient: ", name_of (recipient (su_type s)) recipient_names);
          (str ", BRequest: ", request_name s); (str ", WValue: 0x", x_text (su_value s));
          (str ", WIndex: ", d_text (su_index s)); (str ", WLength: ", d_text (su_length s))] (str " }").
