(** Specification vocabulary for environments as the handler reports them. *)
From Coq Require Import List NArith PeanoNat Bool String.
From Verif Require Import PyStr DelimSpec EnvSpec EnvHandlerModel.
Import ListNotations.
Notation length := List.length.
Open Scope list_scope.

(** The kinds of environments, each with its (lower case) names. *)
Definition kinds : list (str * list str) :=
  [(lit "math_env", map lit ["theorem"; "lemma"; "proposition"; "corollary"; "definition"; "conjecture"; "axiom";
     "example"; "exercise"; "remark"; "observation"; "proof"; "notation"; "solution"; "note"; "claim"]%string);
   (lit "list", map lit ["list"; "itemize"; "enumerate"; "description"]%string);
   (lit "group", map lit ["group"; "center"; "flushleft"; "flushright"; "minipage"; "adjustbox"; "spacing"; "small"; "subequations"]%string);
   (lit "table", map lit ["table"; "subtable"; "subsubtable"]%string);
   (lit "figure", map lit ["figure"; "wrapfigure"]%string);
   (lit "subfigure", map lit ["subfigure"; "subfloat"]%string);
   (lit "appendix", map lit ["appendix"; "appendices"]%string);
   (lit "bibliography", map lit ["thebibliography"]%string);
   (lit "document", map lit ["document"]%string);
   (lit "abstract", map lit ["abstract"]%string);
   (lit "tabular", map lit ["tabular"]%string);
   (lit "algorithm", map lit ["algorithm"]%string);
   (lit "algorithmic", map lit ["algorithmic"]%string);
   (lit "quote", map lit ["quote"]%string)].
(** [kind_is low k]: the environment with lower-case name [low] is of kind [k];
    a name listed nowhere is of kind "environment". *)
Definition kind_is (low k : str) : Prop :=
  (exists names, In (k, names) kinds /\ In low names) \/
  (k = lit "environment" /\ forall k' names, In (k', names) kinds -> ~ In low names).
(** math environments that have a number *)
Definition numbered_names : list str :=
  map lit ["theorem"; "lemma"; "proposition"; "corollary"; "definition"; "conjecture"; "axiom"; "example"; "exercise";
    "remark"; "observation"]%string.
(** number of brace arguments of the environments that have some *)
Definition brace_args (name : str) (n : nat) : Prop :=
  In (name, n) [(lit "thebibliography", 1); (lit "minipage", 1); (lit "list", 2); (lit "adjustwidth", 2); (lit "spacing", 1);
    (lit "multicols", 1); (lit "subfigure", 1); (lit "wrapfigure", 2); (lit "adjustbox", 1); (lit "CJK", 2)] \/
  (n = 0 /\ ~ In name (map lit ["thebibliography"; "minipage"; "list"; "adjustwidth"; "spacing"; "multicols"; "subfigure";
    "wrapfigure"; "adjustbox"; "CJK"]%string)).

(** the newest entry for a key *)
Inductive newest {A} (k : str) : list (str * A) -> A -> Prop :=
| nw_here : forall v l, newest k ((k, v) :: l) v
| nw_later : forall k' v' l v, k' <> k -> newest k l v -> newest k ((k', v') :: l) v.
Definition unknown {A} (k : str) (l : list (str * A)) : Prop := forall v, ~ In (k, v) l.
(** renamed by a table, or kept *)
Definition renamed (tab : list (str * str)) (name shown : str) : Prop :=
  newest name tab shown \/ (unknown name tab /\ shown = name).
(** the name without its stars *)
Definition unstarred (name base : str) : Prop := base = filter (fun x => negb (N.eqb x 42%N)) name.
Definition starred (name : str) : Prop := In 42%N name.

(** [describes lower st name body t]: the token [t] reports an environment that
    was written [name], with text [body]. *)
Definition describes (lower : str -> str) (st : env_state) (name body : str) (t : env_token) : Prop :=
  exists base key rest n rs p,
    unstarred name base /\ renamed (es_theorems st) base key /\ renamed (es_floats st) key (et_name t) /\
    kind_is (lower key) (et_type t) /\
    (* the number *)
    (et_numbered t = true <->
       (et_type t = lit "math_env" /\ ~ starred name /\ In (lower key) numbered_names) \/
       ((et_type t = lit "table" \/ et_type t = lit "figure" \/ et_type t = lit "algorithm") /\
          forall r, key <> lit "sub" ++ r)) /\
    (* the bracket argument *)
    ((exists opt k, group_at c_lk c_rk body opt k /\ rest = skipn k body /\
        et_title t = (if str_eqb (et_type t) (lit "math_env") && negb (str_eqb opt []) then Some opt else None)) \/
     ((forall opt k, ~ group_at c_lk c_rk body opt k) /\ rest = body /\ et_title t = None)) /\
    (* the brace arguments *)
    brace_args key n /\ groups_at c_lb c_rb rest rs p /\ length rs <= n /\
    (length rs < n -> forall ct k, ~ group_at c_lb c_rb (skipn p rest) ct k) /\
    et_args t = rs /\ et_content t = skipn p rest.

(** Arguments of a user-defined environment: bracket arguments with default
    values, then brace arguments; each must follow immediately.  An opening
    bracket or brace that is not closed makes the argument empty and stays in
    the text. *)
Inductive opt_args_read : list str -> str -> list (option str) -> str -> Prop :=
| oar_nil : forall t, opt_args_read [] t [] t
| oar_given : forall d ds v t args rest, balanced c_lk c_rk (marks v) -> closes_after v ->
    opt_args_read ds t args rest -> opt_args_read (d :: ds) (c_lk :: v ++ c_rk :: t) (Some v :: args) rest
| oar_default : forall d ds t args rest, (forall r, t <> c_lk :: r) ->
    opt_args_read ds t args rest -> opt_args_read (d :: ds) t (Some d :: args) rest
| oar_open : forall d ds r args rest, (forall v k, ~ group_at c_lk c_rk (c_lk :: r) v k) ->
    opt_args_read ds (c_lk :: r) args rest -> opt_args_read (d :: ds) (c_lk :: r) (None :: args) rest.
Inductive req_args_read : nat -> str -> list (option str) -> str -> Prop :=
| rar_nil : forall t, req_args_read 0 t [] t
| rar_given : forall n v t args rest, balanced c_lb c_rb (marks v) -> closes_after v ->
    req_args_read n t args rest -> req_args_read (S n) (c_lb :: v ++ c_rb :: t) (Some v :: args) rest
| rar_missing : forall n t args rest, (forall r, t <> c_lb :: r) ->
    req_args_read n t args rest -> req_args_read (S n) t (Some [] :: args) rest
| rar_open : forall n r args rest, (forall v k, ~ group_at c_lb c_rb (c_lb :: r) v k) ->
    req_args_read n (c_lb :: r) args rest -> req_args_read (S n) (c_lb :: r) (None :: args) rest.

(** how a definition is written *)
Record env_source := { sc_cmd : str; sc_star : bool; sc_ws : str; sc_name : str; sc_opts : str; sc_bodies : str }.
Definition env_source_text (s : env_source) : str :=
  c_bs :: sc_cmd s ++ lit "environment" ++ (if sc_star s then [42%N] else []) ++ sc_ws s ++ [c_lb] ++ sc_name s ++ [c_rb] ++
  sc_opts s ++ sc_bodies s.
(** [number of arguments][default]...{begin}{end} *)
Definition source_means (s : env_source) (rest : str) (d : env_def) : Prop :=
  In (sc_cmd s) (map lit ["new"; "renew"; "provide"]%string) /\ blank (sc_ws s) /\ ~ In c_rb (sc_name s) /\
  exists blocks, groups_at c_lk c_rk (sc_opts s ++ sc_bodies s ++ rest) blocks (length (sc_opts s)) /\
    groups_at c_lb c_rb (sc_bodies s ++ rest) [ed_begin d; ed_end d] (length (sc_bodies s)) /\
    match blocks with
    | [] => ed_num d = 0 /\ ed_opts d = []
    | num :: defaults => int_of_str (strip num) = Some (ed_num d) /\ ed_opts d = map strip defaults
    end.
