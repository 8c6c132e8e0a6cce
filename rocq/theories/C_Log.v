(* C64: logging.  The call sequences are all sequences of log writes, SetLogLevel and
   SetLogOutput. *)
From Verif Require Import Base M_Str M_Log S_Log P_Log.

(* For every sequence of calls after which a writer is set: what was written to writers is
   a merge of the texts of the enabled kinds, each kind complete, in its order and without
   repetition; texts of kinds that are not enabled are not in it. *)
Theorem C64_enabled_once_in_order : forall cs s o,
  log_run cs log_start = Ok s -> writer cs None = Some o ->
  exists m, shown s = concat (map snd m) /\ forall k, part k m = if enabled k cs then logged k cs else [].
Proof. exact log_shown. Qed.
Print Assumptions C64_enabled_once_in_order.

(* Texts of a kind that was never enabled do not influence the output at all. *)
Theorem C64_hidden_texts : forall k cs cs' s,
  k <> KEnabled -> differ_in k cs cs' -> enabled k cs = false ->
  log_run cs log_start = Ok s -> exists s', log_run cs' log_start = Ok s' /\ sink s' = sink s.
Proof. exact hidden_texts. Qed.
Print Assumptions C64_hidden_texts.

(* With its kind enabled and a writer set, a text is written there in that very call. *)
Theorem C64_at_once : forall cs s l p o,
  log_run cs log_start = Ok s -> writer cs None = Some o -> enabled (kind_of l) cs = true ->
  exists s', log_step s (LWrite l p) = Ok s' /\ sink s' = sink s ++ [(o, p)].
Proof. exact log_at_once. Qed.
Print Assumptions C64_at_once.

(* Setting the level is logged at once, with the level in decimal. *)
Theorem C64_level_line : forall cs s l o, log_run cs log_start = Ok s -> writer cs None = Some o -> l < 256 ->
  exists s' pre d, log_step s (LSetLevel l) = Ok s' /\ decimal l d /\
    sink s' = sink s ++ pre ++ [(o, str "[LOG] Log Level Set: " ++ d ++ [10])].
Proof. exact level_line_shown. Qed.
Print Assumptions C64_level_line.

(* Only a nil writer makes logging crash. *)
Theorem C64_no_crash : forall cs s, outputs_given cs -> exists s', log_run cs s = Ok s'.
Proof. exact log_never_crashes. Qed.
Print Assumptions C64_no_crash.

(* Every kind is logged; debug and trace are enabled late, unsafe never; the writer changes. *)
Definition calls (secret : bytes) : list log_call :=
  [LWrite 2 (str "d1"); LWrite 1 (str "t1"); LWrite 0 secret; LWrite 3 (str "e1"); LSetOutput (Some 7);
   LWrite 9 secret; LWrite 2 (str "d2"); LSetLevel 1; LWrite 1 (str "t2"); LSetOutput (Some 8); LWrite 2 (str "d3")].

Example calls_run : exists s, log_run (calls (str "key")) log_start = Ok s /\
  writer (calls (str "key")) None = Some 8 /\
  sink s = [(7, str "e1"); (7, str "d1d2t1"); (7, str "[LOG] Log Level Set: 1" ++ [10]); (7, str "t2"); (8, str "d3")] /\
  enabled KTrace (calls (str "key")) = true /\ enabled KUnsafe (calls (str "key")) = false /\
  logged KTrace (calls (str "key")) = [str "t1"; str "t2"] /\
  logged KUnsafe (calls (str "key")) = [str "key"; str "key"].
Proof. eexists. vm_compute. auto 10. Qed.

Example calls_differ : differ_in KUnsafe (calls (str "key")) (calls (str "other")) /\ outputs_given (calls (str "key")).
Proof.
  split.
  - do 2 apply D_same. apply D_text; [reflexivity|]. do 2 apply D_same. apply D_text; [reflexivity|].
    do 5 apply D_same. apply D_nil.
  - unfold outputs_given. intros o I. cbn in I. repeat destruct I as [I|I]; try discriminate I; try contradiction;
      injection I as <-; discriminate.
Qed.

(* A nil writer with text waiting. *)
Example nil_writer : log_run [LWrite 3 (str "e"); LSetOutput None] log_start = Panic.
Proof. reflexivity. Qed.
