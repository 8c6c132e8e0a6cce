(* The life of a device: one process after another over the same saved data.
   Simplified: requests are handled one after another (usb/usb_device.go:88 starts a goroutine
   for every packet; the interleaving of two such goroutines is modelled in M_Hid and, for
   the authentication counter, in M_Race), and the data saver replaces its data in one step
   (the demo's does not: M_Demo). *)
From Verif Require Import Base M_Crypto M_Cose M_State M_Client M_Ctap M_U2f.

(* What is done with a running device: CTAP and U2F messages as assembled by the HID layer
   (ctap_hid/ctap_hid.go, handleDataMessage), and the calls of the demo's commands
   (cmd/demo/demo.go: enablePIN, disablePIN, setPIN, deleteIdentity). *)
Inductive input : Type :=
| ICtap (msg : bytes)
| IU2f (msg : bytes)
| IEnablePin (on : bool)
| ISetPin (pin : bytes)
| IDelete (id : bytes).

Inductive output : Type := OBytes (r : bytes) | OUnit | OBool (b : bool).

Definition fmapM {A B} (f : A -> B) (m : M A) : M B := bind m (fun a => ret (f a)).

Definition handle (E : Env) (i : input) : M output :=
  match i with
  | ICtap m => fmapM OBytes (ctap_handle E m)
  | IU2f m => fmapM OBytes (u2f_handle E m)
  | IEnablePin b => fmapM (fun _ => OUnit) (enable_pin E b)
  | ISetPin p => fmapM (fun _ => OUnit) (set_pin_api E p)
  | IDelete id => fmapM OBool (delete_identity_api E id)
  end.

(* The data that RetrieveData returns: what was saved last. *)
Definition saved_in (tr : list event) : option bytes :=
  fold_left (fun acc e => match e with EvSave d => Some d | EvAsk _ _ _ _ => acc end) tr None.

Inductive entry : Type :=
| HStart (p : params)                     (* NewDefaultClient, fido_client/fido_client.go:58 *)
| HStartFailed (p : params)               (* it panicked *)
| HDone (i : input) (o : output)          (* a request was answered *)
| HPanic (i : input)                      (* a request panicked: the process ends *)
| HCrash (i : input).                     (* the process was killed during a request *)

Definition good_input (i : input) : Prop :=
  match i with ICtap m | IU2f m => wfb m | ISetPin p => wfb p | IDelete id => wfb id | IEnablePin _ => True end.

(* [history E h up w]: [h] can happen, leaving the process running or not; the client in [w]
   means something only while it runs; [w_trace w] is everything the data saver was given. *)
Inductive history (E : Env) : list entry -> bool -> world -> Prop :=
| H_new c t : history E [] false {| w_client := c; w_tick := t; w_trace := [] |}
| H_start h w p w' : history E h false w -> start E p (saved_in (w_trace w)) w = (w', Ok tt) ->
    history E (h ++ [HStart p]) true w'
| H_start_failed h w p w' : history E h false w -> start E p (saved_in (w_trace w)) w = (w', Panic) ->
    history E (h ++ [HStartFailed p]) false w'
| H_done h w i w' o : history E h true w -> good_input i -> handle E i w = (w', Ok o) ->
    history E (h ++ [HDone i o]) true w'
| H_panic h w i w' : history E h true w -> good_input i -> handle E i w = (w', Panic) ->
    history E (h ++ [HPanic i]) false w'
| H_crash h w i w' r es rest : history E h true w -> good_input i -> handle E i w = (w', r) ->
    w_trace w' = w_trace w ++ es ++ rest ->
    history E (h ++ [HCrash i]) false {| w_client := w_client w'; w_tick := w_tick w'; w_trace := w_trace w ++ es |}.
