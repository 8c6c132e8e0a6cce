(* The list of credentials with several goroutines.  Registrations on different channels can be
   inside the identity vault at once (see M_PinRace for why); nothing guards the list.  Each
   goroutine is inside
     identities/identity_vault.go:55-57, AddIdentity:
       vault.CredentialSources = append(vault.CredentialSources, source)
   called at line 51 by NewIdentity, called by fido_client/fido_client.go:98-104, after which the
   registration succeeds.  A slice is a pointer to an array together with a length; append
     loads the slice,
     when the array is full, makes a longer array and copies the elements into it,
     writes the new element behind the last one, and
     stores the slice.
   Simplified: each of these is one step, and steps are sequentially consistent; credentials are
   numbers; how much longer a new array is than need be is arbitrary. *)
From Verif Require Import Base M_HidConc.

(* An array: the elements written so far, by position; positions not yet written are nil. *)
Definition array := list (option N).

Record slice : Type := mk_slice { sl_array : nat; sl_len : nat }.

Inductive add_thread : Type :=
| V_call                       (* about to load the slice *)
| V_loaded (s : slice)         (* about to look for room *)
| V_room (s : slice)           (* there is room behind the slice: about to write *)
| V_wrote (s : slice)          (* about to store the slice, one longer *)
| V_done.

Record vaults : Type := mk_vaults {
  va_heap : list array;
  va_slice : slice;                          (* vault.CredentialSources *)
  va_threads : list (N * add_thread)         (* the credential to add, and where its goroutine is *)
}.

Inductive vault_event : Type :=
| VArrive (c : N)
| VStep (i : nat) (spare : nat).             (* spare: how much room a new array has *)

Definition arr (h : list array) (a : nat) : array := nth a h [].

Definition add_goes (s : vaults) (i : nat) (c : N) (t : add_thread) : vaults :=
  mk_vaults (va_heap s) (va_slice s) (list_set i (c, t) (va_threads s)).

Definition vault_step (s : vaults) (e : vault_event) : option vaults :=
  match e with
  | VArrive c => Some (mk_vaults (va_heap s) (va_slice s) (va_threads s ++ [(c, V_call)]))
  | VStep i spare =>
    match nth_error (va_threads s) i with
    | Some (c, V_call) => Some (add_goes s i c (V_loaded (va_slice s)))
    | Some (c, V_loaded sl) =>
      Some (if (sl_len sl <? length (arr (va_heap s) (sl_array sl)))%nat then add_goes s i c (V_room sl)
            else mk_vaults (va_heap s ++ [firstn (sl_len sl) (arr (va_heap s) (sl_array sl)) ++ repeat None (S spare)])
                   (va_slice s)
                   (list_set i (c, V_room (mk_slice (length (va_heap s)) (sl_len sl))) (va_threads s)))
    | Some (c, V_room sl) =>
      Some (mk_vaults (list_set (sl_array sl) (list_set (sl_len sl) (Some c) (arr (va_heap s) (sl_array sl))) (va_heap s))
              (va_slice s) (list_set i (c, V_wrote sl) (va_threads s)))
    | Some (c, V_wrote sl) =>
      Some (mk_vaults (va_heap s) (mk_slice (sl_array sl) (S (sl_len sl))) (list_set i (c, V_done) (va_threads s)))
    | Some (_, V_done) | None => None
    end
  end.

Fixpoint vault_run (l : list vault_event) (s : vaults) : option vaults :=
  match l with
  | [] => Some s
  | e :: r => match vault_step s e with Some s' => vault_run r s' | None => None end
  end.

(* A vault with some credentials in an array that has room for [spare] more, and nobody in it. *)
Definition vault_start (l : list N) (spare : nat) : vaults :=
  mk_vaults [map Some l ++ repeat None spare] (mk_slice 0 (length l)) [].

(* What the vault holds: the elements of the slice. *)
Definition va_list (s : vaults) : list (option N) :=
  firstn (sl_len (va_slice s)) (arr (va_heap s) (sl_array (va_slice s))).
