(** Property C124: what setup_logger writes to the console and to the log file
    (latex2json/utils/logger.py).  Vocabulary: LoggerSpec.v. *)
From Coq Require Import List NArith Bool String.
From Verif Require Import PyStr LoggerModel LoggerSpec LoggerProofs.
Import ListNotations. Notation length := List.length. Open Scope list_scope.

(** After any history, the file of the last setup has one line without colours for every
    message of at least the level, in order, and nothing else. *)
Theorem C124_file : forall stdout_tty name h lv p logs, exists ls,
  files (run stdout_tty name (h ++ Setup lv (Some p) :: map Log logs)) p = Some ls /\ lines (plain_line name) lv logs ls.
Proof. exact file_lines. Qed.
Print Assumptions C124_file.
(** The console gets one line for each of them, whatever was set up before. *)
Theorem C124_console : forall (stdout_tty : bool) name h lv f logs, exists ls,
  console (run stdout_tty name (h ++ Setup lv f :: map Log logs)) = console (run stdout_tty name h) ++ ls /\
  lines (if stdout_tty then colored_line name else plain_line name) lv logs ls.
Proof. exact console_lines. Qed.
Print Assumptions C124_console.
(** A later setup with another file or none leaves the file as it was. *)
Theorem C124_file_kept : forall stdout_tty name h p lv f rest, f <> Some p -> (forall lv, ~ In (Setup lv (Some p)) rest) ->
  files (run stdout_tty name (h ++ Setup lv f :: rest)) p = files (run stdout_tty name h) p.
Proof. exact file_kept. Qed.
Print Assumptions C124_file_kept.
(** The claim that colours go to terminals only is false: the console is stderr, but the formatter
    asks stdout.  With stdout a terminal every line has escape codes, also when stderr (which the
    code never asks about) goes to a file. *)
Theorem C124_redirect_refuted : forall name r m, message r m -> exists l, console (run true name [Setup 0 None; Log r]) = [l] /\ In 27%N l.
Proof. exact redirected. Qed.
Print Assumptions C124_redirect_refuted.

(** Cases: two setups, a message below the level, one with an argument, one with a traceback and one
    whose argument does not fit. *)
Example C124_case :
  let rec m a n l e := {| msg := m; args := a; levelname := n; levelno := l; time := lit "T"; exc := e |} in
  let w := run true (lit "x") [Setup 10 (Some (lit "a.log")); Log (rec (lit "old") [] (lit "DEBUG") 10%N None); Setup 20 (Some (lit "b.log"));
    Log (rec (lit "low") [] (lit "DEBUG") 10%N None); Log (rec (lit "100%") [] (lit "INFO") 20%N None); Log (rec (lit "no %s: 5%%") [lit "file"] (lit "ERROR") 40%N (Some (lit "Traceback")));
    Log (rec (lit "no") [lit "place"] (lit "ERROR") 40%N None)] in
  files w (lit "a.log") = Some [lit "T - x - DEBUG - old"] /\
  files w (lit "b.log") = Some [lit "T - x - INFO - 100%"; lit "T - x - ERROR - no file: 5%" ++ 10%N :: lit "Traceback"] /\
  console w = [lit "T - x - " ++ esc "[34m" ++ lit "DEBUG" ++ reset ++ lit " - " ++ esc "[34m" ++ lit "old" ++ reset;
    lit "T - x - " ++ esc "[37m" ++ lit "INFO" ++ reset ++ lit " - " ++ esc "[37m" ++ lit "100%" ++ reset;
    lit "T - x - " ++ esc "[31m" ++ lit "ERROR" ++ reset ++ lit " - " ++ esc "[31m" ++ lit "no file: 5%" ++ reset ++ 10%N :: lit "Traceback"].
Proof. vm_compute. auto. Qed.
Example C124_message_case : message {| msg := lit "a %s"; args := [lit "b"]; levelname := lit "INFO"; levelno := 20%N; time := lit "T"; exc := None |} (lit "a b") /\
  forall m, ~ message {| msg := lit "a"; args := [lit "b"]; levelname := lit "INFO"; levelno := 20%N; time := lit "T"; exc := None |} m.
Proof. split; [apply message_spec; vm_compute; reflexivity|apply message_none; vm_compute; reflexivity]. Qed.
