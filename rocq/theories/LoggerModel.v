(** Model of latex2json/utils/logger.py (ColoredFormatter, setup_logger) with the parts
    of Python's logging it drives: Logger.handle, Handler.emit, Formatter.format. *)
From Coq Require Import List NArith Bool String.
From Verif Require Import PyStr.
Import ListNotations. Notation length := List.length. Open Scope list_scope.

(** a LogRecord; name and time are those of the logger and of the call *)
Record record := { msg : str; args : list str; levelname : str; levelno : N; time : str; exc : option str }.
Definition esc (s : string) : str := 27%N :: lit s.
Definition reset : str := esc "[0m".
(** logger.py:13-19 COLORS.get(levelname, '') *)
Definition COLORS : list (str * str) :=
  [(lit "DEBUG", esc "[34m"); (lit "INFO", esc "[37m"); (lit "WARNING", esc "[33m"); (lit "ERROR", esc "[31m"); (lit "CRITICAL", esc "[31m" ++ esc "[1m")].
Definition color (name : str) : str := match find (fun p => str_eqb (fst p) name) COLORS with Some p => snd p | None => [] end.

(** msg % args, with the directives %s and %% only (others: error) *)
Fixpoint percent (m : str) (a : list str) : option str :=
  match m with
  | [] => match a with [] => Some [] | _ => None end
  | 37%N :: 115%N :: r => match a with x :: a => option_map (app x) (percent r a) | [] => None end
  | 37%N :: 37%N :: r => option_map (cons 37%N) (percent r a)
  | 37%N :: _ => None
  | c :: r => option_map (cons c) (percent r a)
  end.
(** LogRecord.getMessage: no formatting without arguments *)
Definition get_message (r : record) : option str := match args r with [] => Some (msg r) | a => percent (msg r) a end.
Definition sep : str := lit " - ".
(** logging.Formatter.format with the format string of logger.py:68 and 78, and the
    traceback behind the line.  None: an exception. *)
Definition plain_format (name : str) (r : record) : option str :=
  match get_message r with
  | None => None
  | Some m =>
      let s := time r ++ sep ++ name ++ sep ++ levelname r ++ sep ++ m in
      Some match exc r with
           | None => s
           | Some e => (if N.eqb (last s 0%N) 10%N then s else s ++ [10%N]) ++ e
           end
  end.
(** logger.py:22-41: the record is restored unless super().format raises *)
Definition colored_format (tty : bool) (name : str) (r : record) : option str * record :=
  let r' := if tty then {| msg := color (levelname r) ++ msg r ++ reset; args := args r; levelname := color (levelname r) ++ levelname r ++ reset;
                           levelno := levelno r; time := time r; exc := exc r |} else r in
  match plain_format name r' with
  | Some s => (Some s, {| msg := msg r; args := args r'; levelname := levelname r; levelno := levelno r'; time := time r'; exc := exc r' |})
  | None => (None, r')
  end.

Inductive handler := Console | File (path : str).
(** one logger, the text of the console (stderr) and of the files, line by line *)
Record world := { level : N; handlers : list handler; console : list str; files : str -> option (list str) }.
Definition start : world := {| level := 0; handlers := []; console := []; files := fun _ => None |}.
Definition with_file (fs : str -> option (list str)) (p : str) (l : list str) : str -> option (list str) := fun q => if str_eqb q p then Some l else fs q.
(** logger.py:46-87 (propagation and the lastResort handler of a logger without handlers
    are left out) *)
Definition setup (lv : N) (log_file : option str) (w : world) : world :=
  match log_file with
  | None => {| level := lv; handlers := [Console]; console := console w; files := files w |}
  | Some p => {| level := lv; handlers := [Console; File p]; console := console w; files := with_file (files w) p [] |}
  end.
(** Handler.emit: what cannot be formatted is not written (the report of the logging
    error on stderr is left out).  The formatter of the console looks at stdout. *)
Definition emit (stdout_tty : bool) (name : str) (h : handler) (wr : world * record) : world * record :=
  let '(w, r) := wr in
  match h with
  | Console =>
      let '(s, r') := colored_format stdout_tty name r in
      (match s with Some s => {| level := level w; handlers := handlers w; console := console w ++ [s]; files := files w |} | None => w end, r')
  | File p =>
      (match plain_format name r with
       | Some s => {| level := level w; handlers := handlers w; console := console w;
                      files := with_file (files w) p (match files w p with Some l => l | None => [] end ++ [s]) |}
       | None => w end, r)
  end.
(** Logger.log: every handler gets the same record *)
Definition log (stdout_tty : bool) (name : str) (r : record) (w : world) : world :=
  if N.leb (level w) (levelno r) then fst (fold_left (fun wr h => emit stdout_tty name h wr) (handlers w) (w, r)) else w.

Inductive event := Setup (lv : N) (log_file : option str) | Log (r : record).
Definition step (stdout_tty : bool) (name : str) (w : world) (e : event) : world :=
  match e with Setup lv f => setup lv f w | Log r => log stdout_tty name r w end.
Definition run (stdout_tty : bool) (name : str) (h : list event) : world := fold_left (step stdout_tty name) h start.
