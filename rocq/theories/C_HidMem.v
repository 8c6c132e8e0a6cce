(* What a host can make the CTAPHID server keep (C156). *)
From Verif Require Import Base M_Util M_Hid S_Hid P_Hid1 P_Hid2 P_Hid3 P_Hid4 S_HidMem P_HidMem.
Open Scope N_scope.

(* ------------------------------------------------- C156 *)
(* The claim; false, see C156_refuted: a bound of a gigabyte, for all hosts. *)
Definition C156_claim : Prop := forall (A : Type) (h : apps A) a ms,
  Forall (fun x => report_ok (snd x)) ms -> kept (srv_channels (o_srv (hid_run h new_server a ms))) <= 2 ^ 30.

(* Of an unfinished request at most 7609 bytes are kept, whatever length it announced; there
   is one channel for each INIT answered, and the broadcast channel. *)
Theorem C156_kept_partial : forall A (h : apps A) a ms, Forall (fun x => report_ok (snd x)) ms -> len ms < 4294967295 ->
  let o := hid_run h new_server a ms in o_res o = Ok tt ->
  (forall ch v, In (ch, v) (srv_channels (o_srv o)) -> kept_by v <= 7609) /\
  len (srv_channels (o_srv o)) = 1 + len (init_ids (o_packets o)) /\ len (init_ids (o_packets o)) <= len ms /\
  kept (srv_channels (o_srv o)) <= 7609 * (1 + len (init_ids (o_packets o))).
Proof. exact @all_kept. Qed.
Print Assumptions C156_kept_partial.

(* Nor do the authenticators behind it get more: what they do with longer messages makes no
   difference to anything. *)
Theorem C156_delivered : forall A (h h' : apps A) a ms, Forall (fun x => report_ok (snd x)) ms -> len ms < 4294967295 ->
  same_up_to 7609 h h' -> hid_run h new_server a ms = hid_run h' new_server a ms.
Proof. intros A h h' a ms F L S. now apply same_run; [|apply new_server_inv| |]. Qed.
Print Assumptions C156_delivered.

(* But nothing is ever given back: 130 packets make the server keep 7609 bytes more, for
   every one of the 2^32 - 2 channels. *)
Theorem C156_refuted : forall A (h : apps A) a n, n < 4294967295 ->
  exists ms, Forall (fun x => report_ok (snd x)) ms /\ len ms = 130 * n /\
  let o := hid_run h new_server a ms in o_res o = Ok tt /\ kept (srv_channels (o_srv o)) = 7609 * n.
Proof. exact @held. Qed.
Print Assumptions C156_refuted.

Corollary claim_false : ~ C156_claim.
Proof.
  intro C. destruct (C156_refuted unit (mk_apps (fun a _ => (a, Panic)) (fun a _ => (a, Panic))) tt 1000000 ltac:(reflexivity)) as (ms & F & _ & _ & K).
  pose proof (C unit (mk_apps (fun a _ => (a, Panic)) (fun a _ => (a, Panic))) tt ms F) as B. rewrite K in B. vm_compute in B. now apply B.
Qed.

(* The authenticators of the example answer with the length; the second pair has trouble
   with long messages. *)
Definition counts : apps N := mk_apps (fun a m => (a + 1, Ok [len m mod 256])) (fun a m => (a + 1, Ok [len m mod 256])).
Definition breaks : apps N :=
  mk_apps (fun a m => if 7609 <? len m then (a, Panic) else (a + 1, Ok [len m mod 256])) (fun a m => (a + 1, Ok [len m mod 256])).
Definition exercise : list (nat * bytes) :=
  combine (repeat 0%nat (260 + 131)) (hold_all 1 2 ++
    (le 4 1 ++ [128] ++ zeros 59) :: host_request 1 0x90 7609 (zeros 57) filler ++ [le 4 2 ++ [0x91]]).

Example C156_example : Forall (fun x => report_ok (snd x)) exercise /\ len exercise = 391 /\ same_up_to 7609 counts breaks /\
  let o := hid_run counts new_server 0 exercise in
  o_res o = Ok tt /\ init_ids (o_packets o) = [1; 2] /\ o_app o = 1 /\ kept (srv_channels (o_srv o)) = 0 /\
  kept (srv_channels (o_srv (hid_run counts new_server 0 (firstn 260 exercise)))) = 15218.
Proof.
  split.
  { apply Forall_forall. intros [x m] H. apply in_combine_r in H. cbn [snd].
    assert (forallb (fun m => wfbb m && (len m <=? 64)) (hold_all 1 2 ++
      (le 4 1 ++ [128] ++ zeros 59) :: host_request 1 0x90 7609 (zeros 57) filler ++ [le 4 2 ++ [0x91]]) = true) as F by (vm_compute; reflexivity).
    rewrite forallb_forall in F. specialize (F m H). apply andb_prop in F as [F1 F2].
    split; [now apply wfbb_iff|lia]. }
  split; [vm_compute; reflexivity|]. split.
  { intros a m L. split; [|reflexivity]. cbn [counts breaks app_ctap]. now replace (7609 <? len m) with false by lia. }
  vm_compute. repeat split; reflexivity.
Qed.
