(* Several processes of the demo over one vault file: `demo start` in one terminal, `demo delete`,
   `demo pin ...` or a second `demo start` in others.  cmd/demo/demo.go and cmd/demo/server.go have no
   lock: every process reads the file once, when it creates its client (server.go:59-68,
   RetrieveData), and replaces it whenever it saves (server.go:52-57, SaveData).
   Simplified: within a process requests are handled one after another, a save replaces the file in
   one step (C59 is about the steps of a save), and the random source is one for all processes. *)
From Verif Require Import Base M_Crypto M_Cose M_State M_Client M_Ctap M_U2f M_History.

(* The flag --passphrase, cmd/demo/demo.go:124 and cmd/demo/server.go:70-72. *)
Definition with_pass (E : Env) (pass : bytes) : Env :=
  {| e_C := e_C E; e_rand := e_rand E; e_scalar := e_scalar E; e_approve := e_approve E; e_pass := pass;
     e_cert_ok := e_cert_ok E; e_make_cert := e_make_cert E |}.

(* A request under way: what it has yet to do, and its answer. *)
Record task : Type := mk_task { tk_input : input; tk_todo : list event; tk_answer : res output }.
Record proc : Type := mk_proc { pr_pass : bytes; pr_client : client; pr_task : option task }.

(* The file, the processes by number, and the ticks of the random source. *)
Record sys : Type := mk_sys { sy_file : option bytes; sy_procs : N -> option proc; sy_tick : N }.
Definition sys_init (t : N) : sys := mk_sys None (fun _ => None) t.

Definition upd (f : N -> option proc) (k : N) (p : option proc) : N -> option proc := fun j => if j =? k then p else f j.

Inductive label : Type :=
| PStart (k : N) (pass : bytes) (p : params)      (* createClient, cmd/demo/demo.go:99-113 *)
| PBegin (k : N) (i : input)                      (* a request arrives, or the command does its work *)
| PStep (k : N)                                   (* it asks a question or saves *)
| PAnswer (k : N)                                 (* it is answered, or panics *)
| PStop (k : N).                                  (* the process ends or is killed *)

(* What can be seen of it. *)
Inductive note : Type :=
| NStart (k : N) (pass : bytes) (p : params)
| NStartFailed (k : N) (pass : bytes) (p : params)
| NDone (k : N) (i : input) (o : output)
| NPanic (k : N) (i : input)
| NStop (k : N) (i : option input).               (* during a request, or between *)

Section Procs.
  Variable E : Env.

  Definition sys_step (s : sys) (l : label) : option (sys * list note) :=
    match l with
    | PStart k pass p =>
      match sy_procs s k with
      | Some _ => None
      | None =>
        let w := {| w_client := new_client p [] 0; w_tick := sy_tick s; w_trace := [] |} in
        match start (with_pass E pass) p (sy_file s) w with
        | (w', Ok _) => Some (mk_sys (sy_file s) (upd (sy_procs s) k (Some (mk_proc pass (w_client w') None))) (w_tick w'),
                              [NStart k pass p])
        | (w', Panic) => Some (mk_sys (sy_file s) (sy_procs s) (w_tick w'), [NStartFailed k pass p])
        end
      end
    | PBegin k i =>
      match sy_procs s k with
      | Some (mk_proc pass c None) =>
        let w := {| w_client := c; w_tick := sy_tick s; w_trace := [] |} in
        let (w', r) := handle (with_pass E pass) i w in
        Some (mk_sys (sy_file s) (upd (sy_procs s) k (Some (mk_proc pass (w_client w') (Some (mk_task i (w_trace w') r)))))
                (w_tick w'), [])
      | _ => None
      end
    | PStep k =>
      match sy_procs s k with
      | Some (mk_proc pass c (Some (mk_task i (e :: es) r))) =>
        Some (mk_sys (match e with EvSave d => Some d | EvAsk _ _ _ _ => sy_file s end)
                (upd (sy_procs s) k (Some (mk_proc pass c (Some (mk_task i es r))))) (sy_tick s), [])
      | _ => None
      end
    | PAnswer k =>
      match sy_procs s k with
      | Some (mk_proc pass c (Some (mk_task i [] (Ok o)))) =>
        Some (mk_sys (sy_file s) (upd (sy_procs s) k (Some (mk_proc pass c None))) (sy_tick s), [NDone k i o])
      | Some (mk_proc pass c (Some (mk_task i [] Panic))) =>
        Some (mk_sys (sy_file s) (upd (sy_procs s) k None) (sy_tick s), [NPanic k i])
      | _ => None
      end
    | PStop k =>
      match sy_procs s k with
      | Some (mk_proc _ _ t) =>
        Some (mk_sys (sy_file s) (upd (sy_procs s) k None) (sy_tick s), [NStop k (option_map tk_input t)])
      | None => None
      end
    end.

  Fixpoint sys_run (s : sys) (ls : list label) : option (sys * list note) :=
    match ls with
    | [] => Some (s, [])
    | l :: r =>
      match sys_step s l with
      | Some (s', n) => match sys_run s' r with Some (s2, ns) => Some (s2, n ++ ns) | None => None end
      | None => None
      end
    end.
End Procs.

Definition label_ok (E : Env) (l : label) : Prop :=
  match l with PBegin _ i => good_input i | _ => True end.
