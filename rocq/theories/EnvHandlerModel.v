(** Model of parser/handlers/environment.py: BaseEnvironmentHandler,
    EnvironmentProcessor and EnvironmentHandler. *)
From Coq Require Import List NArith PeanoNat Bool String.
From Verif Require Import PyStr Regex TexUtilsModel EnvModel SubstModel.
Import ListNotations.
Notation length := List.length.
Open Scope list_scope.

(** environment.py:14, BEGIN_GROUP_PATTERN; [w] is \w *)
Definition BEGIN_GROUP_PATTERN (w : ch -> bool) : re :=
  rseq [is_ch c_bs; RAlt (rstr (lit "begin")) (rstr (lit "b")); rstr (lit "group"); RBound w].
(** environment.py:16, ENV_NAME_BRACE_PATTERN *)
Definition NAME_BRACE : re := RSeq (is_ch c_lb) (RSeq (RGrp 1 (rlazy (RChr (fun x => negb (in_str [c_rb] x))))) (is_ch c_rb)).
(** environment.py:23-26, first alternative of ENVIRONMENT_PATTERN *)
Definition BEGIN_PATTERN : re := RSeq (rstr (lit "\begin")) (RSeq (rstar rspace) NAME_BRACE).
(** environment.py:28-30, NEW_ENVIRONMENT_PATTERN *)
Definition NEW_ENVIRONMENT_PATTERN : re :=
  RSeq (is_ch c_bs) (RSeq (RAlt (rstr (lit "new")) (RAlt (rstr (lit "renew")) (rstr (lit "provide"))))
    (RSeq (rstr (lit "environment")) (RSeq (ropt (is_ch 42%N)) (RSeq (rstar rspace) NAME_BRACE)))).

(** str.rfind *)
Fixpoint rfind (p s : str) : option nat :=
  match s with
  | [] => if startswith [] p then Some 0 else None
  | _ :: r => match rfind p r with
              | Some k => Some (S k)
              | None => if startswith s p then Some 0 else None
              end
  end.

(** environment.py:20, ENV_PAIR_PATTERN (second alternative of
    ENVIRONMENT_PATTERN) matched at 0 with DOTALL.  The pattern has a
    backreference, so it is written out: the name is the longest run of word
    characters and @ that ends at a word boundary and whose \end follows; the
    middle part can match any text, so the match ends with the last such \end.
    [n] is the length of the name tried. *)
Fixpoint pair_try (w : ch -> bool) (text : str) (n : nat) : option nat :=
  match n with
  | O => None
  | S m =>
      let name := slice 1 (S n) text in
      let stop := lit "\end" ++ name in
      match (if xorb (prev_is w text (S n)) (next_is w text (S n)) then rfind stop (skipn (S n) text) else None) with
      | Some k => Some (S n + k + length stop)
      | None => pair_try w text m
      end
  end.
Fixpoint run_len (p : ch -> bool) (s : str) : nat :=
  match s with x :: r => if p x then S (run_len p r) else 0 | [] => 0 end.
Definition pair_match (w : ch -> bool) (text : str) : option nat :=
  match text with
  | x :: r => if N.eqb x c_bs then pair_try w text (run_len (fun y => w y || N.eqb y 64%N) r) else None
  | [] => None
  end.

(** environment.py:32-90: the name lists and ENV_TYPES.  A later entry of the
    dict literal replaces an earlier one; no key occurs twice. *)
Definition LIST_ENVIRONMENTS := [lit "itemize"; lit "enumerate"; lit "description"].
Definition LAYOUT_ENVIRONMENTS := [lit "group"; lit "center"; lit "flushleft"; lit "flushright"; lit "minipage";
  lit "adjustbox"; lit "spacing"; lit "small"; lit "subequations"].
Definition NUMBERED_MATH_ENVIRONMENTS := [lit "theorem"; lit "lemma"; lit "proposition"; lit "corollary";
  lit "definition"; lit "conjecture"; lit "axiom"; lit "example"; lit "exercise"; lit "remark"; lit "observation"].
Definition MATH_ENVIRONMENTS := NUMBERED_MATH_ENVIRONMENTS ++ [lit "proof"; lit "notation"; lit "solution"; lit "note"; lit "claim"].
Definition ENV_TYPES : list (str * str) :=
  [(lit "document", lit "document"); (lit "abstract", lit "abstract"); (lit "thebibliography", lit "bibliography");
   (lit "appendix", lit "appendix"); (lit "appendices", lit "appendix"); (lit "table", lit "table");
   (lit "subtable", lit "table"); (lit "subsubtable", lit "table"); (lit "tabular", lit "tabular");
   (lit "figure", lit "figure"); (lit "subfigure", lit "subfigure"); (lit "subfloat", lit "subfigure");
   (lit "wrapfigure", lit "figure"); (lit "algorithm", lit "algorithm"); (lit "algorithmic", lit "algorithmic");
   (lit "quote", lit "quote"); (lit "list", lit "list")] ++
  map (fun e => (e, lit "list")) LIST_ENVIRONMENTS ++ map (fun e => (e, lit "group")) LAYOUT_ENVIRONMENTS ++
  map (fun e => (e, lit "math_env")) MATH_ENVIRONMENTS.
(** environment.py:93-113, ENV_ARGS: (mandatory, optional) *)
Definition ENV_ARGS : list (str * (nat * nat)) :=
  [(lit "thebibliography", (1, 0)); (lit "minipage", (1, 0)); (lit "list", (2, 0)); (lit "adjustwidth", (2, 0));
   (lit "spacing", (1, 0)); (lit "multicols", (1, 0)); (lit "table", (0, 1)); (lit "figure", (0, 1));
   (lit "subfigure", (1, 1)); (lit "wrapfigure", (2, 1)); (lit "adjustbox", (1, 0)); (lit "CJK", (2, 0))].

(** dict lookup; assignment puts the newest entry first *)
Fixpoint dget {A} (k : str) (d : list (str * A)) : option A :=
  match d with
  | [] => None
  | (k', v) :: r => if str_eqb k k' then Some v else dget k r
  end.

(** The token dict; an absent key "numbered", "title" or "args" is [false],
    [None], []. *)
Record env_token := { et_type : str; et_name : str; et_numbered : bool; et_title : option str;
  et_args : list str; et_content : str }.
(** environment.py:409-416, a stored definition *)
Record env_def := { ed_begin : str; ed_end : str; ed_num : nat; ed_opts : list str }.
(** the handler object: _newtheorems, _floatnames, environment_processor.environments *)
Record env_state := { es_theorems : list (str * str); es_floats : list (str * str); es_envs : list (str * env_def) }.
(** environment.py:196-198, 522-524 *)
Definition env_clear : env_state := {| es_theorems := []; es_floats := []; es_envs := [] |}.

(** the result (token or None, position); [Raises]: AttributeError from
    match.group(1).strip() on None *)
Inductive hres := Out (t : option env_token) (pos : nat) | Raises.

Section Env.
(** \w, str.lower and str.isalpha (Unicode, kept abstract) *)
Variable w : ch -> bool.
Variable lower : str -> str.
Variable isalpha : ch -> bool.

(** environment.py:116-117 *)
Definition get_env_type (name : str) : str :=
  match dget (lower name) ENV_TYPES with Some t => t | None => lit "environment" end.

Definition mem_str (x : str) (l : list str) : bool := existsb (str_eqb x) l.

(** environment.py:206-252, BaseEnvironmentHandler._handle_environment *)
Definition base_environment (st : env_state) (env_name inner : str) : env_token :=
  let star := contains [42%N] env_name in
  let name := replace [42%N] [] env_name in
  let name := match dget name (es_theorems st) with Some t => t | None => name end in
  let shown := match dget name (es_floats st) with Some t => t | None => name end in
  let ty := get_env_type name in
  let numbered :=
    if str_eqb ty (lit "math_env") && negb star then mem_str (lower name) NUMBERED_MATH_ENVIRONMENTS
    else mem_str ty [lit "table"; lit "figure"; lit "algorithm"] && negb (startswith name (lit "sub")) in
  let '(title, end_pos) := extract_nested_content inner c_lk c_rk in
  let opt_found := Nat.ltb 0 end_pos in
  let inner := if opt_found then skipn end_pos inner else inner in
  let title := match title with
               | Some x => if negb (nilb x) && str_eqb ty (lit "math_env") then Some x else None
               | None => None
               end in
  let '(args, inner) :=
    match dget name ENV_ARGS with
    | Some (req, opt) =>
        let opt := if Nat.ltb 0 opt && opt_found then opt - 1 else opt in
        let '(rs, _, e) := extract_args inner req opt in
        (rs, skipn e inner)
    | None => ([], inner)
    end in
  {| et_type := ty; et_name := shown; et_numbered := numbered; et_title := title; et_args := args; et_content := inner |}.

(** environment.py:433-450, the optional arguments *)
Fixpoint take_opts (opts : list str) (content : str) : list (option str) * str :=
  match opts with
  | [] => ([], content)
  | d :: r =>
      if startswith content [c_lk] then
        let '(arg, e) := extract_nested_content content c_lk c_rk in
        let '(args, rest) := take_opts r (skipn e content) in (arg :: args, rest)
      else let '(args, rest) := take_opts r content in (Some d :: args, rest)
  end.
(** environment.py:452-459, the required arguments *)
Fixpoint take_reqs (n : nat) (content : str) : list (option str) * str :=
  match n with
  | O => ([], content)
  | S m =>
      if startswith content [c_lb] then
        let '(arg, e) := extract_nested_content content c_lb c_rb in
        let '(args, rest) := take_reqs m (skipn e content) in (arg :: args, rest)
      else let '(args, rest) := take_reqs m content in (Some [] :: args, rest)
  end.
(** environment.py:423-470, expand_environments for a defined environment *)
Definition expand_env (d : env_def) (text : str) : str :=
  let '(oargs, content) := take_opts (ed_opts d) text in
  let '(rargs, content) := take_reqs (ed_num d - length (ed_opts d)) content in
  let args := oargs ++ rargs in
  substitute_args isalpha (ed_begin d) args false ++ [c_nl] ++ content ++ [c_nl] ++ substitute_args isalpha (ed_end d) args false.

(** environment.py:554-566, EnvironmentHandler._handle_environment *)
Definition handle_environment (st : env_state) (env_name inner : str) : env_token :=
  match dget env_name (es_envs st) with
  | Some d => {| et_type := get_env_type env_name; et_name := env_name; et_numbered := false; et_title := None;
                 et_args := []; et_content := expand_env d inner |}
  | None => base_environment st env_name inner
  end.

(** environment.py:254-306, try_match_env: [None] = no match (False, 0);
    otherwise the name, end_pos and content. *)
Inductive tmatch := NoEnv | Found (name : str) (end_pos : nat) (content : str) | TRaises.
Definition try_match_env (content : str) : tmatch :=
  match re_match_at BEGIN_PATTERN content 0 with
  | Some m =>
      let name := strip (match m_group content 1 m with Some g => g | None => [] end) in
      match find_matching_env_block content name 0 with
      | Some (_, e, inner) => Found name e inner
      | None => Found name (m_end m) []
      end
  | None =>
      match pair_match w content with
      | None => NoEnv
      | Some e0 =>
          let all_str := firstn e0 content in
          if startswith all_str (lit "\begin") then TRaises
          else
            let k := match rfind (lit "\end") all_str with Some k => k | None => 0 end in
            let name := strip (replace (lit "\end") [] (skipn k all_str)) in
            let '(e, inner) :=
              match extract_nested_content_pattern content (rstr (c_bs :: name)) (rstr (lit "\end" ++ name)) with
              | Some (Some (_, e, inner)) => (e, inner)
              | _ => (e0, [])
              end in
            if str_eqb name (lit "@float") then
              match re_match_at (RSeq (rstar rspace) NAME_BRACE) inner 0 with
              | Some im => Found (strip (match m_group inner 1 im with Some g => g | None => [] end)) e (skipn (m_end im) inner)
              | None => Found name e inner
              end
            else Found name e inner
      end
  end.

(** environment.py:308-338, try_match_group *)
Definition try_match_group (content : str) : hres :=
  match re_match_at (BEGIN_GROUP_PATTERN w) content 0 with
  | None => Out None 0
  | Some m =>
      let '(b, e) := if contains (lit "bgroup") (m_group0 content m)
                     then (lit "\bgroup", lit "\egroup") else (lit "\begingroup", lit "\endgroup") in
      match extract_nested_content_pattern content (RSeq (rstr b) (RBound w)) (RSeq (rstr e) (RBound w)) with
      | Some (Some (_, e, inner)) =>
          Out (Some {| et_type := lit "group"; et_name := lit "group"; et_numbered := false; et_title := None;
                       et_args := []; et_content := inner |}) e
      | _ => Out None 0
      end
  end.

(** environment.py:340-358, BaseEnvironmentHandler.handle, with the
    [_handle_environment] of EnvironmentHandler *)
Definition handle_env (st : env_state) (content : str) : hres :=
  match try_match_env content with
  | TRaises => Raises
  | Found name e inner =>
      if str_eqb name (lit "comment") then Out None e else Out (Some (handle_environment st name inner)) e
  | NoEnv => try_match_group content
  end.

(** environment.py:493-552, handle_newenvironment.  [first_arg.isdigit()] is
    modelled for ASCII digits. *)
Definition handle_newenvironment (st : env_state) (content : str) (m : mobj) : env_state * nat :=
  let name := match m_group content 1 m with Some g => g | None => [] end in
  let pos := m_end m in
  let '(blocks, e1) := extract_nested_content_sequence_blocks (skipn pos content) c_lk c_rk None in
  let num := match blocks with
             | [] => 0
             | b :: _ => match int_of_str (strip b) with Some n => n | None => 0 end
             end in
  let opts := map strip (tl blocks) in
  let pos := pos + e1 in
  let '(defs, e2) := extract_nested_content_sequence_blocks (skipn pos content) c_lb c_rb (Some 2) in
  match defs with
  | [b; e] => ({| es_theorems := es_theorems st; es_floats := es_floats st;
                  es_envs := (name, {| ed_begin := b; ed_end := e; ed_num := num; ed_opts := opts |}) :: es_envs st |}, pos + e2)
  | _ => (st, pos)
  end.

(** environment.py:568-577, EnvironmentHandler.handle *)
Definition handle (st : env_state) (content : str) : env_state * hres :=
  match re_match_at NEW_ENVIRONMENT_PATTERN content 0 with
  | Some m => let '(st', e) := handle_newenvironment st content m in (st', Out None e)
  | None => (st, handle_env st content)
  end.

(** environment.py:480-485, EnvironmentHandler.can_handle *)
Definition can_handle (content : str) : bool :=
  match re_match_at BEGIN_PATTERN content 0, pair_match w content,
        re_match_at (BEGIN_GROUP_PATTERN w) content 0, re_match_at NEW_ENVIRONMENT_PATTERN content 0 with
  | None, None, None, None => false
  | _, _, _, _ => true
  end.
(** environment.py:190-194 *)
Definition process_newtheorem (st : env_state) (name title : str) : env_state :=
  {| es_theorems := (name, title) :: es_theorems st; es_floats := es_floats st; es_envs := es_envs st |}.
Definition process_floatname (st : env_state) (name title : str) : env_state :=
  {| es_theorems := es_theorems st; es_floats := (name, title) :: es_floats st; es_envs := es_envs st |}.
End Env.
