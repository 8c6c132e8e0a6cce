(* The log of packages usbip and usb about requests (C155). *)
From Verif Require Import Base M_Str M_Util M_Json M_Usb M_Usbip M_UsbLog S_UsbLog P_UsbLog.
Open Scope N_scope.

(* ------------------------------------------------- C155 *)
(* The claim: the lines about a request determine it.  False, see C155_request_refuted. *)
Definition C155_claim : Prop := forall s s' b b' r r', concat s = b ++ r -> concat s' = b' ++ r' -> request b -> request b' ->
  command_lines s = command_lines s' -> b = b'.

(* Whatever the requests, of any kind, in whatever pieces they come and whatever comes after
   them: those with a device number below 256 and direction 0 or 1 are told apart. *)
Theorem C155_request_partial : forall s s' b b' r r', concat s = b ++ r -> concat s' = b' ++ r' -> request b -> request b' ->
  usual b -> usual b' -> command_lines s = command_lines s' -> b = b'.
Proof. exact request_told. Qed.
Print Assumptions C155_request_partial.

Definition submit18 : bytes :=
  [0; 0; 0; 1; 0; 0; 0; 12; 0; 2; 0; 2; 0; 0; 0; 1; 0; 0; 0; 0] ++
  [0; 0; 2; 0; 0; 0; 0; 18; 0; 0; 0; 0; 0; 0; 0; 0; 0; 0; 0; 0; 128; 6; 0; 1; 0; 0; 18; 0].

(* Linux asks for the device descriptor, in two pieces. *)
Example C155_request_example : request submit18 /\ usual submit18 /\
  command_lines [takeN 30 submit18; dropN 30 submit18 ++ [1; 2; 3]] =
  [str "[MESSAGE HEADER] USBIPMessageHeader{ Command: usbipCmdSubmit, SequenceNumber: 12, DeviceID: 2-2, Direction: usbipDirIn, Endpoint: 0 }" ++ [10; 10];
   str "[COMMAND SUBMIT] USBIPCommandSubmitBody{ TransferFlags: 0x200, TransferBufferLength: 18, StartFrame: 0, NumberOfPackets: 0, Interval: 0, Setup: [8]uint8{0x80, 0x6, 0x0, 0x1, 0x0, 0x0, 0x12, 0x0} }" ++ [10; 10]].
Proof.
  split; [split; [repeat constructor|left; split; [left; reflexivity|reflexivity]]|].
  split; [split; [reflexivity|right; reflexivity]|]. vm_compute. reflexivity.
Qed.

(* An unknown command *)
Example C155_unknown_example : request [0; 0; 1; 9; 0; 0; 0; 1; 0; 2; 0; 2; 0; 0; 0; 0; 0; 0; 0; 1] /\
  command_lines [[0; 0; 1; 9; 0; 0; 0; 1; 0; 2; 0; 2; 0; 0; 0; 0; 0; 0; 0; 1]] =
  [str "[MESSAGE HEADER] USBIPMessageHeader{ Command: , SequenceNumber: 1, DeviceID: 2-2, Direction: usbipDirOut, Endpoint: 1 }" ++ [10; 10];
   str "Unsupported Command: usbip.usbipMessageHeader{Command:0x109, SequenceNumber:0x1, DeviceID:0x20002, Direction:0x0, Endpoint:0x1}" ++ [10; 10]].
Proof.
  split; [split; [repeat constructor|right; split; [intros [H|H]; discriminate|reflexivity]]|]. vm_compute. reflexivity.
Qed.

(* Of the device number only the low byte is written (header.DeviceID&0xFF): devices 2-2 and
   2-258 look the same; so do directions 2 and 3. *)
Theorem C155_request_refuted : exists b b' c c', request b /\ request b' /\ b <> b' /\ command_lines [b] = command_lines [b'] /\
  usual b /\ takeN 4 (dropN 12 b') = takeN 4 (dropN 12 b) /\
  request c /\ request c' /\ c <> c' /\ command_lines [c] = command_lines [c'] /\ nth 10 c 0 = 0 /\ nth 10 c' 0 = 0.
Proof.
  exists submit18, (takeN 10 submit18 ++ [1] ++ dropN 11 submit18),
    (takeN 15 submit18 ++ [2] ++ dropN 16 submit18), (takeN 15 submit18 ++ [3] ++ dropN 16 submit18).
  split; [split; [repeat constructor|left; split; [left; reflexivity|reflexivity]]|].
  split; [split; [repeat constructor|left; split; [left; reflexivity|reflexivity]]|].
  split; [intro H; vm_compute in H; discriminate|]. split; [vm_compute; reflexivity|].
  split; [split; [reflexivity|right; reflexivity]|]. split; [reflexivity|].
  split; [split; [repeat constructor|left; split; [left; reflexivity|reflexivity]]|].
  split; [split; [repeat constructor|left; split; [left; reflexivity|reflexivity]]|].
  split; [intro H; vm_compute in H; discriminate|]. split; [vm_compute; reflexivity|]. split; reflexivity.
Qed.
Print Assumptions C155_request_refuted.

Corollary claim_false : ~ C155_claim.
Proof.
  intro C. destruct C155_request_refuted as (b & b' & _ & _ & R & R' & N & E & _). apply N.
  apply (C [b] [b'] b b' [] []); auto; cbn [concat]; now rewrite app_nil_r.
Qed.

(* The lines about a reply to a SUBMIT determine the bytes that are sent, for transfers of
   every length. *)
Theorem C155_reply : forall h h' b b' r r', hd_seq h < 4294967296 -> hd_seq h' < 4294967296 -> wfb b -> wfb b' ->
  (forall x, r = Some x -> wfb x) -> (forall x, r' = Some x -> wfb x) ->
  return_lines h b r = return_lines h' b' r' -> return_submit h b r = return_submit h' b' r'.
Proof. exact reply_told. Qed.
Print Assumptions C155_reply.

(* The request came from different devices on different endpoints; what is sent is the same. *)
Example C155_reply_example :
  return_lines (mk_header 1 7 131074 1 0) [0; 0; 0] (Some [18; 1]) = return_lines (mk_header 1 7 0 1 1) [5; 5; 0] (Some [18; 1; 0; 9]) /\
  return_lines (mk_header 1 7 131074 1 0) [0; 0; 0] (Some [18; 1]) =
  [str "[RETURN SUBMIT] USBIPMessageHeader{ Command: usbipRetSubmit, SequenceNumber: 7, DeviceID: 0-0, Direction: usbipDirOut, Endpoint: 0 } usbip.usbipReturnSubmitBody{Status:0x0, ActualLength:0x3, StartFrame:0x0, NumberOfPackets:0x0, ErrorCount:0x0, Padding:0x0}" ++ [10; 10];
   str "[RETURN SUBMIT] DATA: []byte{0x12, 0x1, 0x0}" ++ [10; 10]].
Proof. split; vm_compute; reflexivity. Qed.

(* The line about a setup packet tells all of it but bit 6 of its first byte, when the
   recipient is one of the four that have a name. *)
Theorem C155_setup_partial : forall s s', wfb s -> wfb s' -> len s = 8 -> len s' = 8 ->
  N.land (nth 0 s 0) 15 < 4 -> N.land (nth 0 s' 0) 15 < 4 -> setup_text (read_setup s) = setup_text (read_setup s') ->
  N.clearbit (nth 0 s 0) 6 = N.clearbit (nth 0 s' 0) 6 /\ tl s = tl s'.
Proof. exact setup_told. Qed.
Print Assumptions C155_setup_partial.

Example C155_setup_example : N.land 129 15 < 4 /\
  setup_text (read_setup [129; 6; 0; 34; 0; 0; 30; 0]) =
  str "USBSetupPacket{ Direction: usbDeviceToHost, RequestType: usbRequestClassStandard, Recipient: usbRequestRecipientInterface, BRequest: usbHIDRequestGetDescriptor, WValue: 0x2200, WIndex: 0, WLength: 30 }".
Proof. split; vm_compute; reflexivity. Qed.

(* But it names the type of the request from bits 4 and 5 instead of 5 and 6: the SET_IDLE
   that every HID driver sends, a class request, is written as a vendor request, and a
   vendor request as a standard one. *)
Theorem C155_type_refuted : exists s s' t, type_of (nth 0 s 0) = Class /\ type_of (nth 0 s' 0) = Vendor /\ type_of (nth 0 t 0) = Standard /\
  setup_text (read_setup s) = str "USBSetupPacket{ Direction: usbHostToDevice, RequestType: usbRequestClassVendor, Recipient: usbRequestRecipientInterface, BRequest: usbHIDRequestSetIdle, WValue: 0x0, WIndex: 0, WLength: 0 }" /\
  setup_text (read_setup s') = setup_text (read_setup t).
Proof.
  exists [33; 10; 0; 0; 0; 0; 0; 0], [192; 6; 0; 1; 0; 0; 18; 0], [128; 6; 0; 1; 0; 0; 18; 0].
  split; [reflexivity|]. split; [reflexivity|]. split; [reflexivity|]. split; vm_compute; reflexivity.
Qed.
Print Assumptions C155_type_refuted.
