(** Vocabulary of C26 and C27, independent of the model. *)
From Coq Require Import List NArith ZArith PeanoNat Lia Bool String.
From Verif Require Import PyStr Json BuilderModel TokensModel PlaceSpec.
Import ListNotations.
Notation length := List.length.
Notation concat := List.concat.
Open Scope list_scope.

(** Appending text [s] to text [cur]; with [space] the two are separated by a
    blank unless [cur] already ends with one. *)
Definition spaced (cur : str) (call : bool * str) : str :=
  let (space, s) := call in
  if space then (match rev cur with c :: _ => if N.eqb c c_sp then cur else cur ++ [c_sp] | [] => [c_sp] end) ++ s
  else cur ++ s.

(** A call of add_token that is meant to leave something: not None, "", {}, not a
    group, environment or list with an empty content. *)
Inductive leaves : tok_in -> dict -> Prop :=
| lv_str : forall c s, leaves (TStr (c :: s)) [(k_type, VStr (lit "text")); (k_content, VStr (c :: s))]
| lv_text : forall d s, lookup k_type d = Some (VStr (lit "text")) -> lookup k_content d = Some (VStr s) -> leaves (TDict d) d
| lv_block : forall d t c n, lookup k_type d = Some (VStr t) -> In t (map lit ["group"; "environment"; "list"]%string) ->
    lookup k_content d = Some c -> py_len c = Ok (S n) -> leaves (TDict d) d
| lv_other : forall d, d <> [] -> lookup k_type d <> Some (VStr (lit "text")) ->
    (forall t, lookup k_type d = Some (VStr t) -> ~ In t (map lit ["group"; "environment"; "list"]%string)) -> leaves (TDict d) d.
Inductive leaves_nothing : tok_in -> Prop :=
| ln_none : leaves_nothing TNone
| ln_str : leaves_nothing (TStr [])
| ln_dict : leaves_nothing (TDict [])
| ln_list : leaves_nothing (TList [])
| ln_block : forall d t c, lookup k_type d = Some (VStr t) -> In t (map lit ["group"; "environment"; "list"]%string) ->
    lookup k_content d = Some c -> py_len c = Ok 0 -> leaves_nothing (TDict d).
(** [kept calls ts]: the tokens that the calls push, with their space flag. *)
Inductive kept_calls : list (tok_in * bool) -> list (bool * dict) -> Prop :=
| kc_nil : kept_calls [] []
| kc_skip : forall t sp r o, leaves_nothing t -> kept_calls r o -> kept_calls ((t, sp) :: r) o
| kc_keep : forall t sp d r o, leaves t d -> kept_calls r o -> kept_calls ((t, sp) :: r) ((sp, d) :: o).

Definition plain (d : dict) : Prop := exists s, plain_text d s.
(** [coalesced ts out]: every maximal run of plain texts of [ts] is one token of
    [out] (the first of the run, its content followed by those of the others);
    the other tokens are kept; the order is kept. *)
Inductive coalesced : list (bool * dict) -> list dict -> Prop :=
| co_nil : coalesced [] []
| co_other : forall sp d r out, ~ plain d -> coalesced r out -> coalesced ((sp, d) :: r) (d :: out)
| co_run : forall sp d s run texts r out,
    plain_text d s ->
    Forall2 (fun t u => fst t = fst u /\ plain_text (snd t) (snd u)) run texts ->
    (forall t r', r = t :: r' -> ~ plain (snd t)) ->
    coalesced r out ->
    coalesced ((sp, d) :: run ++ r) (set k_content (VStr (fold_left spaced texts s)) d :: out).

(** No two neighbours satisfy [P]. *)
Fixpoint no_adjacent {A} (P : A -> Prop) (l : list A) : Prop :=
  match l with
  | a :: ((b :: _) as r) => ~ (P a /\ P b) /\ no_adjacent P r
  | _ => True
  end.

(** The bibliography: [out] has every key of [all] once; a token of [out] is the
    token of [all] at the place where the keys that occurred before are exactly
    those of the tokens before it in [out] (so it is the first with its key, and
    the order of first occurrence is kept). *)
Definition cite_key (d : dict) : val := get k_cite_key d.
Definition first_occurrences (all out : list dict) : Prop :=
  NoDup (map cite_key out) /\
  (forall t, In t all -> In (cite_key t) (map cite_key out)) /\
  (forall o1 t o2, out = o1 ++ t :: o2 -> exists before after, all = before ++ t :: after /\ forall k, In k (map cite_key o1) <-> In k (map cite_key before)).
(** The names of the files: the comma-separated pieces without outer blanks; empty ones do
    not count. *)
Inductive files_named : list str -> list str -> Prop :=
| fn_nil : files_named [] []
| fn_blank : forall p r l, strip p = [] -> files_named r l -> files_named (p :: r) l
| fn_name : forall p r l, strip p <> [] -> files_named r l -> files_named (p :: r) (strip p :: l).
(** The tokens of one file: those of its entries, in order; none when it cannot be read
    or one entry cannot be converted. *)
Definition in_dir (dir p : str) : str := match dir with [] => p | _ => path_join dir p end.
Inductive file_tokens (parse : str -> res val) (parse_file : str -> res (list bib_entry)) (dir p : str) : list dict -> Prop :=
| ft_read : forall es ts, parse_file (in_dir dir p) = Ok es -> Forall2 (fun e t => convert_bibentry parse e = Ok t) es ts -> file_tokens parse parse_file dir p ts
| ft_unreadable : forall x, parse_file (in_dir dir p) = Raise x -> file_tokens parse parse_file dir p []
| ft_entry : forall es e x, parse_file (in_dir dir p) = Ok es -> In e es -> convert_bibentry parse e = Raise x -> file_tokens parse parse_file dir p [].
