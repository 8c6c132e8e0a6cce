(* Specification of USB descriptors: how a host reads them. *)
From Verif Require Import Base.

Definition word (d : bytes) (i : nat) : N := nth i d 0 + 256 * nth (S i) d 0.

(* A host walks over nested descriptors by their length bytes. *)
Fixpoint walk (fuel : nat) (d : bytes) : option (list bytes) :=
  match fuel, d with
  | _, [] => Some []
  | O, _ => None
  | S f, n :: _ =>
    if (2 <=? n) && (n <=? len d) then
      match walk f (dropN n d) with Some l => Some (takeN n d :: l) | None => None end
    else None
  end.

Definition of_type (t : N) (l : list bytes) : list bytes := filter (fun d => nth 1 d 0 =? t) l.

(* A descriptor returned for the requested type. *)
Definition described (typ : N) (d : bytes) : Prop :=
  wfb d /\ nth 1 d 0 = typ /\
  if typ =? 2 then
    word d 2 = len d /\
    exists parts interface,
      walk (length d) d = Some parts /\ concat parts = d /\
      map (fun p => nth 1 p 0) parts = [2; 4; 33; 5; 5] /\
      len (of_type 4 parts) = nth 4 d 0 /\           (* bNumInterfaces *)
      of_type 4 parts = [interface] /\
      len (of_type 5 parts) = nth 4 interface 0      (* bNumEndpoints *)
  else nth 0 d 0 = len d.

(* The length of the report descriptor a configuration announces. *)
Definition announced_report_length (d : bytes) : option N :=
  match walk (length d) d with
  | Some parts => match of_type 33 parts with [h] => Some (word h 7) | _ => None end
  | None => None
  end.
