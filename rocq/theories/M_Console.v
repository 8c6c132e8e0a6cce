(* The log of the authenticators on the way to the console of the demo. *)
From Verif Require Import Base M_Str M_Log M_Logged.

(* cmd/demo/demo.go:106-111, createClient: the first calls concerning the log in the process; 1 is
   os.Stdout. *)
Definition demo_log (verbose : bool) : list log_call :=
  [LSetOutput (Some 1); LSetLevel (if verbose then lv_trace else lv_debug)].

(* A call of Printf or Println on a logger made with the level of the entry (ctap/ctap.go:19-20,
   u2f/u2f.go:17, fido_client/fido_client.go:29); [render] is package fmt. *)
Definition print (render : entry -> bytes) (e : entry) : log_call := LWrite (en_level e) (render e).
