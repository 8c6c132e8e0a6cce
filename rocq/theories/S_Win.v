(* Specifications for the bundled Windows client: the protocol's device list, and what a
   server may announce. *)
From Verif Require Import Base M_Win S_Usbip.
Open Scope N_scope.

(* ---- OP_REP_DEVLIST (kernel Documentation/usb/usbip_protocol): a header, the number of
   devices, and for each its description, the last byte of which counts the interfaces,
   and four bytes (class, subclass, protocol, padding) per interface *)
Record exported := mk_exported { ex_description : bytes; ex_interfaces : list bytes }.

Definition exported_ok (e : exported) : Prop :=
  len (ex_description e) = 312 /\
  dropN 311 (ex_description e) = [len (ex_interfaces e)] /\
  Forall (fun i => len i = 4) (ex_interfaces e).

Definition devlist_reply (l : list exported) : bytes :=
  be 2 0x0111 ++ be 2 5 ++ be 4 0 ++ be 4 (len l) ++
  concat (map (fun e => ex_description e ++ concat (ex_interfaces e)) l).

(* a server that answers the first thing it is sent with r and closes the connection *)
Definition answering (r : bytes) (done : bool) (sent : list bytes) : bool * bytes * bool :=
  (true, if done then [] else r, true).

(* ---- no reply announces more data than was asked for: the header that comes back for a
   CMD_SUBMIT has in bytes 24-27 (actual_length) at most what the request has there
   (transfer_buffer_length) *)
Definition modest (tr : list event) : Prop :=
  forall before request reply after, tr = before ++ Sent request :: Got reply :: after ->
    len request = 48 -> u32_at 0 request = 1 -> len reply = 48 ->
    u32_at 24 reply <= u32_at 24 request.
