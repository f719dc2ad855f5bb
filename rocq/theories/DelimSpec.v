(** Specification vocabulary for delimiters: escapes, balance, groups.
    Independent of the code model. *)
From Coq Require Import List NArith PeanoNat Bool.
From Verif Require Import PyStr.
Import ListNotations.

(** A text with, for each character, whether an odd number of backslashes
    stands immediately before it ("escaped").  [mark e s] starts with the
    first character escaped iff [e]. *)
Fixpoint mark (e : bool) (s : str) : list (ch * bool) :=
  match s with
  | [] => []
  | x :: r => (x, e) :: mark (N.eqb x c_bs && negb e) r
  end.
Notation marks := (mark false).

(** [n] backslashes stand immediately before the end of [s], not more. *)
Inductive ends_in_backslashes : nat -> str -> Prop :=
| eib_none : ends_in_backslashes 0 []
| eib_other : forall s x, x <> c_bs -> ends_in_backslashes 0 (s ++ [x])
| eib_more : forall n s, ends_in_backslashes n s -> ends_in_backslashes (S n) (s ++ [c_bs]).

(** Balanced text: unescaped [o] and [c] pair up; everything else is free. *)
Inductive balanced (o c : ch) : list (ch * bool) -> Prop :=
| bal_nil : balanced o c []
| bal_char : forall x e r,
    (e = true \/ (x <> o /\ x <> c)) -> balanced o c r -> balanced o c ((x, e) :: r)
| bal_group : forall r1 r2,
    balanced o c r1 -> balanced o c r2 -> balanced o c ((o, false) :: r1 ++ (c, false) :: r2).

(** [content] does not end in an odd run of backslashes, so a delimiter
    written right after it is not escaped. *)
Definition closes_after (content : str) : Prop :=
  exists n, ends_in_backslashes n content /\ Nat.Even n.

Definition blank (s : str) : Prop := forallb isspace s = true.

(** The text starts (after blanks) with the group [o content c] and [n] is the
    position after it. *)
Definition group_at (o c : ch) (text content : str) (n : nat) : Prop :=
  exists ws rest,
    text = ws ++ o :: content ++ c :: rest /\ blank ws /\
    balanced o c (marks content) /\ closes_after content /\
    n = length ws + 1 + length content + 1.

(** [p] is the position after a run of groups with contents [bs]. *)
Inductive groups_at (o c : ch) : str -> list str -> nat -> Prop :=
| ga_nil : forall text, groups_at o c text [] 0
| ga_cons : forall text b n bs m,
    group_at o c text b n -> groups_at o c (skipn n text) bs m ->
    groups_at o c text (b :: bs) (n + m).

(** Usable delimiters. *)
Definition delims_ok (o c : ch) : Prop :=
  o <> c /\ isspace o = false /\ o <> c_bs /\ c <> c_bs.

(** Arguments read according to a spec string of "{" (required) and "["
    (optional): [args_at text spec results p]. *)
Inductive args_at : str -> str -> list (option str) -> nat -> Prop :=
| aa_nil : forall text, args_at text [] [] 0
| aa_req : forall text b n spec rs m,
    group_at c_lb c_rb text b n -> args_at (skipn n text) spec rs m ->
    args_at text (c_lb :: spec) (Some b :: rs) (n + m)
| aa_opt : forall text b n spec rs m,
    group_at c_lk c_rk text b n -> args_at (skipn n text) spec rs m ->
    args_at text (c_lk :: spec) (Some b :: rs) (n + m)
| aa_absent : forall text spec rs m,
    (forall b n, ~ group_at c_lk c_rk text b n) -> args_at text spec rs m ->
    args_at text (c_lk :: spec) (None :: rs) m.

(** Brace depth after a marked text; surplus closing braces are ignored. *)
Fixpoint brace_depth (d : nat) (m : list (ch * bool)) : nat :=
  match m with
  | [] => d
  | (x, e) :: r =>
      if e then brace_depth d r
      else if N.eqb x c_lb then brace_depth (S d) r
      else if N.eqb x c_rb then brace_depth (pred d) r
      else brace_depth d r
  end.

(** [delim] stands at position [i] of [content], unescaped and outside every
    brace group opened since position [start]. *)
Definition delim_at (content delim : str) (start i : nat) : Prop :=
  start <= i /\ startswith (skipn i content) delim = true /\
  closes_after (firstn i content) /\
  brace_depth 0 (firstn (i - start) (skipn start (marks content))) = 0.

(** Comments: [cut] is the part of [line] before its first unescaped percent. *)
Definition uncommented (line cut : str) : Prop :=
  exists rest, line = cut ++ rest /\
    (rest = [] \/ exists r, rest = c_pct :: r /\ closes_after cut) /\
    (forall p q, cut = p ++ c_pct :: q -> ~ closes_after p).

(** An unescaped percent sign occurs in [s]. *)
Definition has_unescaped_pct (s : str) : Prop :=
  exists p q, s = p ++ c_pct :: q /\ closes_after p.

(** [cur] is the part of [s] after its last newline. *)
Definition last_line (s cur : str) : Prop :=
  ~ In c_nl cur /\ (s = cur \/ exists p, s = p ++ c_nl :: cur).

(** The lines of a text: maximal runs without line boundary characters, each
    ended by one boundary (CR LF counts as one) except possibly a non-empty
    last one. *)
Definition nobreak (l : str) : Prop := forallb (fun c => negb (isbreak c)) l = true.
Inductive lines_of : str -> list str -> Prop :=
| lo_nil : lines_of [] []
| lo_last : forall l, l <> [] -> nobreak l -> lines_of l [l]
| lo_crlf : forall l s ls, nobreak l -> lines_of s ls -> lines_of (l ++ c_cr :: c_nl :: s) (l :: ls)
| lo_break : forall l b s ls, nobreak l -> isbreak b = true ->
    (b = c_cr -> forall s', s <> c_nl :: s') -> lines_of s ls -> lines_of (l ++ b :: s) (l :: ls).
