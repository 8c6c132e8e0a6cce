(* The bundled Windows client (cmd/demo/usbip/usbip-win) and the server: attaching (C138),
   the client's descriptor buffers (C139), listing (C140). *)
From Coq Require Import ZArith.
From Verif Require Import Base M_Util M_Usb M_ReqBuf M_Usbip M_Win S_Usb S_Usbip S_Enum S_Win
  P_Enum P_Win.
Open Scope N_scope.

(* ------------------------------------------------- C138 *)
(* Whatever sequence number the client starts from, "usbip.exe attach -b 2-2" against a
   server that was just started hands the driver bus 2, device 2, with the device
   descriptor and the whole configuration descriptor that any host enumerating the device
   gets. *)
Theorem C138_attached_partial : forall seq, exists t,
  enumerate device_transfer = Some t /\
  attach_go [50; 45; 50] seq = Some (Plugged (2 * 65536 + 2) (tk_device t) (tk_config t)).
Proof. intro seq. exists the_token. split; [exact enumerated|]. exact (attach_right seq). Qed.
Print Assumptions C138_attached_partial.

(* No other bus id is attached; the conversation ends with the code for a refusal. *)
Theorem C138_only : forall busid seq, ~ In 0 busid -> busid <> [50; 45; 50] ->
  attach_go busid seq = Some (if len busid <? 32 then Failed (-6) else Aborted).
Proof.
  intros busid seq Z N. destruct (N.ltb_spec (len busid) 32) as [L|L].
  - exact (attach_wrong busid seq Z L N).
  - exact (attach_long busid seq L).
Qed.
Print Assumptions C138_only.

(* But the user is not told that there is no such device, as the client can do: the server
   says "not available" (1), not "no such device" (4). *)
Theorem C138_told_refuted : exists busid, ~ In 0 busid /\ len busid < 32 /\ busid <> [50; 45; 50] /\
  forall seq, exists code, attach_go busid seq = Some (Failed code) /\
    message_for code = FailedToAttach /\ message_for code <> NonExistent.
Proof.
  exists [49; 45; 49]. split; [intros [H|[H|[H|[]]]]; discriminate|]. split; [reflexivity|].
  split; [discriminate|]. intro seq. exists (-6)%Z. split.
  - apply attach_wrong; [intros [H|[H|[H|[]]]]; discriminate|reflexivity|discriminate].
  - split; [reflexivity|discriminate].
Qed.
Print Assumptions C138_told_refuted.

(* Against every server: what is attached was answered with the protocol's version, the
   code of the reply to an import and status 0, and describes a device of the name asked
   for. *)
Theorem C138_checked : forall (S : Type) (serve : S -> list bytes -> S * bytes * bool) s busid seq devid dev conf,
  ~ In 0 busid -> talk serve (query_import busid seq) [] s [] = Some (Plugged devid dev conf) ->
  exists h u rest, events serve (query_import busid seq) [] s [] =
      Sent (be 2 0x0111 ++ be 2 0x8003 ++ be 4 0) :: Sent (pad busid 32) :: Got h :: Got u :: rest /\
    be_dec (takeN 2 h) = 0x0111 /\ be_dec (takeN 2 (dropN 2 h)) = 3 /\ be_dec (takeN 4 (dropN 4 h)) = 0 /\
    named (takeN 32 (dropN 256 u)) busid.
Proof. intros S. exact (@attach_checked S). Qed.
Print Assumptions C138_checked.

Example C138_example :
  attach_go [50; 45; 50] first_seqnum = Some (Plugged 131074
    [18; 1; 16; 1; 0; 0; 0; 64; 0; 0; 0; 0; 1; 0; 1; 2; 3; 1]
    [9; 2; 41; 0; 1; 0; 4; 192; 0; 9; 4; 0; 0; 2; 3; 0; 0; 5; 9; 33; 1; 1; 0; 1; 34; 30; 0;
     7; 5; 129; 3; 64; 0; 255; 7; 5; 2; 3; 64; 0; 255]) /\
  attach_go [50; 45; 50; 50] first_seqnum = Some (Failed (-6)) /\
  attach_go (repeat 50 32) first_seqnum = Some Aborted.
Proof. repeat split; vm_compute; reflexivity. Qed.

(* a server that answers an import with another operation's code *)
Example C138_checked_example :
  talk (answering (be 2 0x0111 ++ be 2 5 ++ be 4 0 ++ zeros 400)) (query_import [50; 45; 50] first_seqnum) [] false []
    = Some (Failed (-5)) /\
  exists devid dev conf, talk go_serve (query_import [50; 45; 50] first_seqnum) [] (sys_init []) [] = Some (Plugged devid dev conf).
Proof.
  split; [vm_compute; reflexivity|]. destruct (C138_attached_partial first_seqnum) as (t & _ & E).
  exists (2 * 65536 + 2), (tk_device t), (tk_config t). exact E.
Qed.

(* ------------------------------------------------- C139 *)
(* Against every server, in every state, whatever it writes and whenever it closes the
   connection: if no reply announces more data than was asked for, the client never
   receives more into a descriptor buffer than the buffer holds. *)
Theorem C139_modest_partial : forall (S : Type) (serve : S -> list bytes -> S * bytes * bool) s busid seq,
  modest (events serve (query_import busid seq) [] s []) ->
  forall cap n, talk serve (query_import busid seq) [] s [] <> Some (Overrun cap n).
Proof. intros S serve s busid seq M cap n E. apply (import_safe serve busid seq s M). now exists cap, n. Qed.
Print Assumptions C139_modest_partial.

(* The server of this repository is one of them, for every bus id. *)
Theorem C139_go : forall busid seq cap n, ~ In 0 busid -> attach_go busid seq <> Some (Overrun cap n).
Proof.
  intros busid seq cap n Z. destruct (bytes_dec busid [50; 45; 50]) as [->|N].
  - destruct (C138_attached_partial seq) as (t & _ & ->).
    generalize (2 * 65536 + 2), (tk_device t), (tk_config t). discriminate.
  - rewrite (C138_only busid seq Z N). destruct (len busid <? 32); discriminate.
Qed.
Print Assumptions C139_go.

(* A server that announces more than asked makes the client write past its buffer. *)
Definition overlong : bytes :=
  op_rep_import usb_device ++ be 4 3 ++ zeros 20 ++ be 4 4096 ++ zeros 20.

Theorem C139_refuted : exists (S : Type) (serve : S -> list bytes -> S * bytes * bool) s,
  forall seq, talk serve (query_import [50; 45; 50] seq) [] s [] = Some (Overrun 9 4096).
Proof. exists bool, (answering overlong), false. intro seq. vm_compute. reflexivity. Qed.
Print Assumptions C139_refuted.

(* a server that is modest and answers something else than this device *)
Definition short_answers : bytes :=
  op_rep_import usb_device ++ be 4 3 ++ zeros 20 ++ be 4 9 ++ zeros 20 ++ [9; 2; 200; 0; 1; 1; 0; 0; 0] ++
  be 4 3 ++ zeros 20 ++ be 4 17 ++ zeros 20.

Example C139_example :
  modest (events (answering short_answers) (query_import [50; 45; 50] 7) [] false []) /\
  talk (answering short_answers) (query_import [50; 45; 50] 7) [] false [] = Some (Failed (-1)) /\
  length (events (answering short_answers) (query_import [50; 45; 50] 7) [] false []) = 9%nat.
Proof.
  split; [|split; reflexivity].
  intros b q r a E L1 U L2.
  destruct b as [|? [|? [|? [|? [|? [|? [|? [|? [|? b]]]]]]]]];
    try (vm_compute in E; injection E as; subst; try discriminate; vm_compute; discriminate).
  vm_compute in E. injection E as. destruct b; discriminate.
Qed.

(* ------------------------------------------------- C140 *)
(* A list of exported devices in the protocol's layout is shown as it is. *)
Theorem C140_shown_partial : forall l, Forall exported_ok l -> len l < 4294967296 ->
  talk (answering (devlist_reply l)) get_exported_devices [] false [] =
  Some (Listed (map (fun e => mk_listed (ex_description e) (ex_interfaces e)) l)).
Proof. exact list_got. Qed.
Print Assumptions C140_shown_partial.

(* The server of this repository does not answer the request: the client waits. *)
Theorem C140_refuted : list_go = None.
Proof. reflexivity. Qed.
Print Assumptions C140_refuted.

(* Against every server: a list is shown only after a reply with the protocol's version,
   the code of the reply to a list request and status 0. *)
Theorem C140_checked : forall (S : Type) (serve : S -> list bytes -> S * bytes * bool) s l,
  talk serve get_exported_devices [] s [] = Some (Listed l) ->
  exists h n rest, events serve get_exported_devices [] s [] =
      Sent (be 2 0x0111 ++ be 2 0x8005 ++ be 4 0) :: Got h :: Got n :: rest /\
    be_dec (takeN 2 h) = 0x0111 /\ be_dec (takeN 2 (dropN 2 h)) = 5 /\ be_dec (takeN 4 (dropN 4 h)) = 0.
Proof. intros S. exact (@list_checked S). Qed.
Print Assumptions C140_checked.

Example C140_example :
  let e := mk_exported (zeros 311 ++ [2]) [[3; 0; 0; 0]; [8; 6; 80; 0]] in
  let f := mk_exported (repeat 7 311 ++ [0]) [] in
  Forall exported_ok [e; f] /\
  talk (answering (devlist_reply [e; f])) get_exported_devices [] false [] =
  Some (Listed [mk_listed (zeros 311 ++ [2]) [[3; 0; 0; 0]; [8; 6; 80; 0]]; mk_listed (repeat 7 311 ++ [0]) []]).
Proof.
  split; [|vm_compute; reflexivity].
  repeat constructor.
Qed.
