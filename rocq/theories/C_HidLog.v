(* The log of the HID server (C153). *)
From Verif Require Import Base M_Str M_Util M_Hid M_Logged M_HidLog S_HidLog P_HidLog.
Open Scope N_scope.

(* ------------------------------------------------- C153 *)
(* The server that logs is the server of the other theorems. *)
Theorem C153_same_server : forall A (h : apps A) s a ka m,
  snd (hid_handle_l h s a ka m) = hid_handle h s a ka m /\
  (forall ms, flat_map ev_out (hid_events h s a ms) = o_packets (hid_run h s a ms)).
Proof. intros A h s a ka m. split; [apply handle_erase|]. intro ms. apply events_run. Qed.
Print Assumptions C153_same_server.

(* The log tells nothing but the traffic: two devices of any kind, with any secrets, that
   exchange the same packets log the same, message by message. *)
Theorem C153_only_traffic : forall A B (h : apps A) (g : apps B) a b ms ns,
  map seen (hid_events h new_server a ms) = map seen (hid_events g new_server b ns) ->
  map ev_log (hid_events h new_server a ms) = map ev_log (hid_events g new_server b ns).
Proof. intros A B h g a b ms ns. apply events_told. Qed.
Print Assumptions C153_only_traffic.

(* And it tells all of it but the keepalives: for the same messages the same log means the
   same replies. *)
Theorem C153_all_traffic : forall A B (h : apps A) (g : apps B) a b ms ns, map snd ms = map snd ns ->
  map ev_log (hid_events h new_server a ms) = map ev_log (hid_events g new_server b ns) ->
  map (fun e => quiet (ev_out e)) (hid_events h new_server a ms) =
    map (fun e => quiet (ev_out e)) (hid_events g new_server b ns) /\
  map ev_ok (hid_events h new_server a ms) = map ev_ok (hid_events g new_server b ns).
Proof. intros A B h g a b ms ns. apply events_tell. Qed.
Print Assumptions C153_all_traffic.

(* Packets determine their payload, whatever its length; C02 has a host's reassembly, which
   stops working for longer ones. *)
Theorem C153_packets : forall ch cmd p q, create_response_packets ch cmd p = create_response_packets ch cmd q -> p = q.
Proof. exact packets_inj. Qed.
Print Assumptions C153_packets.

(* A device that counts and one that does not, until the first shows its count. *)
Definition counting : apps N := mk_apps (fun n m => (n + 1, Ok (if n =? 2 then [0; n] else [0; 0]))) (fun n m => (n, Ok m)).
Definition plain : apps unit := mk_apps (fun _ m => (tt, Ok [0; 0])) (fun _ m => (tt, Ok m)).
Definition hid_init : bytes := [255; 255; 255; 255; 134; 0; 8; 1; 2; 3; 4; 5; 6; 7; 8].
Definition hid_long : bytes := [1; 0; 0; 0; 144; 0; 60] ++ zeros 57.
Definition hid_more : bytes := [1; 0; 0; 0; 0; 9; 9; 9] ++ zeros 56.
Definition hid_msg : bytes := [1; 0; 0; 0; 131; 0; 3; 7; 7; 7] ++ zeros 54.
Definition talk : list (nat * bytes) := [(0%nat, hid_init); (0%nat, hid_long); (2%nat, hid_more); (0%nat, hid_msg)].
Definition talk' : list (nat * bytes) := [(0%nat, hid_init); (0%nat, hid_long); (1%nat, hid_more); (0%nat, hid_msg)].

Example C153_only_example :
  map seen (hid_events counting new_server 0 talk) = map seen (hid_events plain new_server tt talk) /\
  map (fun e => length (ev_log e)) (hid_events counting new_server 0 talk) = [2; 1; 2; 2]%nat /\
  map (fun e => length (ev_out e)) (hid_events counting new_server 0 talk) = [1; 0; 3; 1]%nat /\
  map seen (hid_events counting new_server 2 talk) <> map seen (hid_events plain new_server tt talk).
Proof. repeat (split; [vm_compute; reflexivity|]). vm_compute. discriminate. Qed.

Example C153_all_example : map snd talk = map snd talk' /\
  map ev_log (hid_events counting new_server 0 talk) = map ev_log (hid_events plain new_server tt talk') /\
  map ev_out (hid_events counting new_server 0 talk) <> map ev_out (hid_events plain new_server tt talk') /\
  map ev_log (hid_events counting new_server 2 talk) <> map ev_log (hid_events plain new_server tt talk).
Proof. do 2 (split; [vm_compute; reflexivity|]). split; vm_compute; discriminate. Qed.

Example C153_packets_example : create_response_packets 1 144 (repeat 5 70) <> create_response_packets 1 144 (repeat 5 70 ++ [0]).
Proof. vm_compute. discriminate. Qed.
