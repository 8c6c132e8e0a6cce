(* What the Windows client's forwarder should do: the driver speaks the protocol with
   little endian integers, the socket with big endian ones; and the replies of servers do
   not say in which direction the transfer went, the driver's copy does. *)
From Verif Require Import Base S_Usbip M_WinFwd.
Open Scope N_scope.

(* ---- a request as the driver gives it *)
Definition host_bytes (m : message) : bytes :=
  match m with
  | MSubmit seq devid dir ep flags start packets interval n setup d =>
    le 4 1 ++ le 4 seq ++ le 4 devid ++ le 4 dir ++ le 4 ep ++
    le 4 flags ++ le 4 n ++ le 4 start ++ le 4 packets ++ le 4 interval ++ setup ++ d
  | MUnlink seq devid dir ep target padding =>
    le 4 2 ++ le 4 seq ++ le 4 devid ++ le 4 dir ++ le 4 ep ++ le 4 target ++ padding
  | _ => []
  end.

(* requests the driver makes for control, bulk and interrupt transfers *)
Definition driver_request (m : message) : Prop :=
  well_formed m /\
  match m with
  | MSubmit _ _ _ _ _ _ packets _ _ _ _ => packets = 0
  | MUnlink _ _ _ _ _ _ => True
  | _ => False
  end.

Definition seq_of (m : message) : list N :=
  match m with MSubmit seq _ _ _ _ _ _ _ _ _ _ => [seq] | _ => [] end.

(* ---- a reply as the server sends it and as the driver should get it.  dir: the
   direction of the transfer it answers *)
Inductive reply :=
| RSubmit (seq dir n : N) (payload : bytes)
| RUnlink (seq : N) (removed : bool).

Definition reply_wire (r : reply) : bytes :=
  match r with
  | RSubmit seq dir n payload => spec_ret_submit seq n payload
  | RUnlink seq removed => spec_ret_unlink seq removed
  end.

Definition reply_host (r : reply) : bytes :=
  match r with
  | RSubmit seq dir n payload =>
    le 4 3 ++ le 4 seq ++ zeros 4 ++ le 4 dir ++ zeros 4 ++ le 4 0 ++ le 4 n ++ zeros 20 ++ payload
  | RUnlink seq removed =>
    le 4 4 ++ le 4 seq ++ zeros 12 ++ le 4 (spec_status removed) ++ zeros 24
  end.

(* a reply to one of the requests *)
Definition answers_one (ms : list message) (r : reply) : Prop :=
  match r with
  | RSubmit seq dir n payload =>
    (exists devid ep flags start packets interval m setup d,
       In (MSubmit seq devid dir ep flags start packets interval m setup d) ms) /\
    n < 4294967296 /\ (if dir =? 0 then payload = [] else len payload = n)
  | RUnlink seq removed => seq < 4294967296
  end.

(* ---- what the forwarder can know: of the requests seen whose numbers are equal modulo
   1024 the last.  A reply is remembered when that is the request it answers. *)
Fixpoint last_like (q : N) (log : list seen) (acc : option N) : option N :=
  match log with
  | [] => acc
  | SawRequest s _ _ _ :: l => last_like q l (if s mod 1024 =? q mod 1024 then Some s else acc)
  | SawReply _ _ _ :: l => last_like q l acc
  end.

Definition is_in (ms : list message) (q : N) : Prop :=
  exists devid dir ep flags start packets interval n setup d,
    In (MSubmit q devid dir ep flags start packets interval n setup d) ms /\ dir <> 0.

Definition all_remembered (ms : list message) (log : list seen) : Prop :=
  forall before q n packets after, log = before ++ SawReply q n packets :: after -> is_in ms q ->
    last_like q before None = Some q.

(* in particular when fewer than 1024 numbers were given since the request was seen *)
Definition all_recent (ms : list message) (log : list seen) : Prop :=
  forall before q n packets after, log = before ++ SawReply q n packets :: after -> is_in ms q ->
    exists (b1 : list seen) dir n' packets' (b2 : list seen), before = b1 ++ SawRequest q dir n' packets' :: b2 /\
      forall s d n2 p2, In (SawRequest s d n2 p2) b2 -> q < s /\ s < q + 1024.

(* ---- the data that a header announces, in bytes *)
Definition announced (e : seen) : N :=
  match e with
  | SawRequest _ _ n packets => n + 16 * packets
  | SawReply _ n packets => n + 16 * packets
  end.

Definition prefix (a b : bytes) : Prop := exists c, b = a ++ c.

(* never more than bl bytes have been read in one direction and not been written *)
Definition calm (bl : N) (side : bool) (ls : list fwd_label) : Prop :=
  forall k f, fwd_run fwd0 (firstn k ls) = Some (Ok f) ->
    len (pi_in (pipe_of f side)) <= len (concat (pi_out (pipe_of f side))) + bl.
