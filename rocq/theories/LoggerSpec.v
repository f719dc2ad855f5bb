(** What a line of the log has to look like, and which messages have one. *)
From Coq Require Import List NArith Bool String.
From Verif Require Import PyStr LoggerModel.
Import ListNotations. Notation length := List.length. Open Scope list_scope.

(** [filled m a o]: the template [m] with its %s replaced by [a], in order *)
Inductive filled : str -> list str -> str -> Prop :=
| fl_end : filled [] [] []
| fl_arg : forall m x a o, filled m a o -> filled (lit "%s" ++ m) (x :: a) (x ++ o)
| fl_percent : forall m a o, filled m a o -> filled (lit "%%" ++ m) a (lit "%" ++ o)
| fl_char : forall c m a o, c <> 37%N -> filled m a o -> filled (c :: m) a (c :: o).
(** without arguments the message is the text itself *)
Definition message (r : record) (m : str) : Prop := (args r = [] /\ m = msg r) \/ (args r <> [] /\ filled (msg r) (args r) m).
(** the traceback begins on a new line *)
Definition traced (s : str) (e : option str) (l : str) : Prop :=
  match e with
  | None => l = s
  | Some t => (exists s', s = s' ++ [10%N] /\ l = s ++ t) \/ ((forall s', s <> s' ++ [10%N]) /\ l = s ++ 10%N :: t)
  end.
Definition plain_line (name : str) (r : record) (l : str) : Prop :=
  exists m, message r m /\ traced (time r ++ lit " - " ++ name ++ lit " - " ++ levelname r ++ lit " - " ++ m) (exc r) l.
Definition painted (r : record) (s : str) : str := color (levelname r) ++ s ++ 27%N :: lit "[0m".
Definition colored_line (name : str) (r : record) (l : str) : Prop :=
  exists m, message r m /\ traced (time r ++ lit " - " ++ name ++ lit " - " ++ painted r (levelname r) ++ lit " - " ++ painted r m) (exc r) l.
(** one line for every record of at least the level whose arguments fit, in order *)
Inductive lines (line : record -> str -> Prop) (lv : N) : list record -> list str -> Prop :=
| ln_nil : lines line lv [] []
| ln_low : forall r rs ls, (levelno r < lv)%N -> lines line lv rs ls -> lines line lv (r :: rs) ls
| ln_bad : forall r rs ls, (forall m, ~ message r m) -> lines line lv rs ls -> lines line lv (r :: rs) ls
| ln_line : forall r rs l ls, (lv <= levelno r)%N -> line r l -> lines line lv rs ls -> lines line lv (r :: rs) (l :: ls).
