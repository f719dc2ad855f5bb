(** Model of parser/handlers/equation.py (EquationHandler) and of
    convert_any_env_pairs_to_begin_end in environment.py:119-135. *)
From Coq Require Import List NArith PeanoNat Bool String.
From Verif Require Import PyStr Regex TexUtilsModel EnvModel EnvHandlerModel.
Import ListNotations.
Notation length := List.length.
Open Scope list_scope.

(** equation.py:17-27.  EQUATION_ENV is a Python set: the order in which its
    names are tried is a parameter of [handle_eq]. *)
Definition EQUATION_ENV : list str :=
  [lit "equation"; lit "align"; lit "aligned"; lit "gather"; lit "multline"; lit "eqnarray"; lit "flalign"; lit "alignat"; lit "dmath"].

Inductive eq_kind := KEnv (name : str) | KDisplayDollar | KInlineDollar | KDisplayBracket | KInlineBracket.

(** equation.py:30-49, the patterns *)
Definition env_head (name : str) : re :=
  RSeq (rstr (lit "\begin")) (RSeq (rstar rspace) (RSeq (is_ch c_lb) (RSeq (rstr name) (RSeq (ropt (is_ch 42%N)) (is_ch c_rb))))).
Definition env_tail (name : str) : re :=
  RSeq (rstr (lit "\end")) (RSeq (rstar rspace) (RSeq (is_ch c_lb) (RSeq (rstr name) (RSeq (ropt (is_ch 42%N)) (is_ch c_rb))))).
Definition eq_pattern (k : eq_kind) : re :=
  match k with
  | KEnv name => RSeq (env_head name) (RSeq (RGrp 1 (rlazy rany)) (env_tail name))
  | KDisplayDollar => RSeq (rstr (lit "$$")) (RSeq (RGrp 1 (rlazy rany)) (rstr (lit "$$")))
  | KInlineDollar => RSeq (rstr (lit "$")) (RSeq (RGrp 1 (rstar (RChr (fun x => negb (N.eqb x c_dollar))))) (rstr (lit "$")))
  | KDisplayBracket => RSeq (rstr (lit "\[")) (RSeq (RGrp 1 (rlazy rany)) (rstr (lit "\]")))
  | KInlineBracket => RSeq (rstr (lit "\(")) (RSeq (RGrp 1 (rlazy rdot)) (rstr (lit "\)")))
  end.
Definition RAW_KINDS : list eq_kind := [KDisplayDollar; KInlineDollar; KDisplayBracket; KInlineBracket].

(** equation.py:126-134, _get_equation_delimiter *)
Definition eq_delimiter (k : eq_kind) : str :=
  match k with
  | KEnv _ => []
  | KDisplayDollar => lit "$$"
  | KInlineDollar => lit "$"
  | KDisplayBracket => lit "\]"
  | KInlineBracket => lit "\)"
  end.

(** patterns.py:47, LABEL_PATTERN *)
Definition LABEL_PATTERN : re := rseq [rstr (lit "\label"); rstar rspace; is_ch c_lb].

(** equation.py:107-124, the loop over the label matches; [ms] is in the order
    of processing (last match first), [labels] newest first. *)
Fixpoint label_loop (ms : list mobj) (parsed : str) (labels : list str) : str * list str :=
  match ms with
  | [] => (parsed, labels)
  | m :: r =>
      let start_pos := m_end m - 1 in
      match extract_nested_content (skipn start_pos parsed) c_lb c_rb with
      | (Some (x :: l), e) => label_loop r (firstn (m_start m) parsed ++ skipn (start_pos + e) parsed) ((x :: l) :: labels)
      | _ => label_loop r parsed labels
      end
  end.
(** equation.py:107-124, _handle_labels.  The list is appended to and reversed
    at the end, which is the order [labels] has here. *)
Definition handle_labels (equation : str) : str * list str :=
  match re_finditer LABEL_PATTERN equation with
  | [] => (equation, [])
  | ms => let '(p, ls) := label_loop (rev ms) equation [] in (strip p, ls)
  end.

Section Eq.
(** \w *)
Variable w : ch -> bool.

(** pattern.search(content) for ENV_PAIR_PATTERN: position and name of the
    first match. *)
Fixpoint pair_name_try (text : str) (n : nat) : option str :=
  match n with
  | O => None
  | S m =>
      let name := slice 1 (S n) text in
      match (if xorb (prev_is w text (S n)) (next_is w text (S n)) then rfind (lit "\end" ++ name) (skipn (S n) text) else None) with
      | Some _ => Some name
      | None => pair_name_try text m
      end
  end.
Definition pair_name (text : str) : option str :=
  match text with
  | x :: r => if N.eqb x c_bs then pair_name_try text (run_len (fun y => w y || N.eqb y 64%N) r) else None
  | [] => None
  end.
Fixpoint pair_search (text : str) : option str :=
  match pair_name text with
  | Some n => Some n
  | None => match text with [] => None | _ :: r => pair_search r end
  end.

(** environment.py:119-135, convert_any_env_pairs_to_begin_end; one unit of
    fuel per round or recursive call.  When no block is found the positions
    are -1, so content[:start_pos] drops the last character and
    content[end_pos:] is that character. *)
Fixpoint convert_pairs (fuel : nat) (content : str) : option str :=
  match fuel with
  | O => None
  | S f =>
      match pair_search content with
      | None => Some content
      | Some name =>
          let '(before, after, inner) :=
            match extract_nested_content_pattern content (rstr (c_bs :: name)) (rstr (lit "\end" ++ name)) with
            | Some (Some (s, e, c)) => (firstn s content, skipn e content, c)
            | _ => (firstn (length content - 1) content, skipn (length content - 1) content, [])
            end in
          match convert_pairs f inner with
          | None => None
          | Some inner =>
              convert_pairs f (before ++ (lit "\begin{" ++ name ++ lit "}" ++ inner ++ lit "\end{" ++ name ++ lit "}") ++ after)
          end
      end
  end.

(** The components: process_content_fn (identity if there is none); the
    formatter and the box handler on a text that starts at a backslash, as the
    replacement text (empty when there is no token or its content is no
    string) and the end position; the content command handler's search and
    handle ([None] = no token).  The box handler is taken as a function of the
    text only (its saved boxes are not threaded). *)
Variable process : str -> str.
Variable fmt box : str -> str * nat.
Variable T : Type.
Variable cmd_search : str -> option nat.
Variable cmd_handle : str -> option T * nat.

(** str.strip("$") *)
Fixpoint lstrip_dollar (s : str) : str :=
  match s with x :: r => if N.eqb x c_dollar then lstrip_dollar r else s | [] => [] end.
Definition strip_dollar (s : str) : str := rev (lstrip_dollar (rev (lstrip_dollar s))).

(** str.find("\", k) *)
Definition find_bs (s : str) (k : nat) : option nat :=
  option_map (fun i => k + i) (find_sub [c_bs] (skipn k s)).

(** equation.py:74-105, _strip_out_formatting *)
Fixpoint fmt_loop (fuel : nat) (equation : str) (pos : option nat) : option str :=
  match fuel with
  | O => None
  | S f =>
      match pos with
      | None => Some (strip equation)
      | Some p =>
          let '(x, e) := fmt (skipn p equation) in
          if Nat.ltb 0 e then
            let equation := firstn p equation ++ x ++ skipn (p + e) equation in
            fmt_loop f equation (find_bs equation p)
          else
            let '(x, e) := box (skipn p equation) in
            if Nat.ltb 0 e then
              let equation := firstn p equation ++ strip_dollar (strip x) ++ skipn (p + e) equation in
              fmt_loop f equation (find_bs equation p)
            else fmt_loop f equation (find_bs equation (S p))
      end
  end.

(** equation.py:137-176: the f-string placeholder and the loop; one unit of
    fuel per round (each round advances). *)
Definition eq_placeholder (n : nat) : str := lit "___PLACEHOLDER_" ++ str_of_nat n ++ lit "___".
Fixpoint ph_loop (fuel : nat) (math : str) (pos : nat) (out : str) (blocks : list (str * T)) : option (str * list (str * T)) :=
  match fuel with
  | O => None
  | S f =>
      if Nat.ltb pos (length math) then
        match cmd_search (skipn pos math) with
        | None => Some (out ++ skipn pos math, blocks)
        | Some k =>
            let out := if Nat.ltb 0 k then out ++ slice pos (pos + k) math else out in
            let '(token, e) := cmd_handle (skipn (pos + k) math) in
            let '(out, blocks) := match token with
                                  | Some t => (out ++ eq_placeholder (length blocks), blocks ++ [(eq_placeholder (length blocks), t)])
                                  | None => (out, blocks)
                                  end in
            ph_loop f math (pos + k + (if Nat.ltb 0 e then e else 1)) out blocks
        end
      else Some (out, blocks)
  end.
Definition extract_placeholders (math : str) : option (str * list (str * T)) := ph_loop (S (length math)) math 0 [] [].

(** The token; absent keys are [false] / []. *)
Record eq_token := { q_content : str; q_block : bool; q_align : bool; q_numbered : bool; q_labels : list str;
  q_placeholders : list (str * T) }.

Definition kind_block (k : eq_kind) : bool := match k with KInlineDollar | KInlineBracket => false | _ => true end.
(** equation.py:227: "align" or "eqnarray" in the pattern name *)
Definition kind_align (k : eq_kind) : bool :=
  match k with KEnv n => contains (lit "align") n || contains (lit "eqnarray") n | _ => false end.

(** equation.py:194-243, the body of the loop for a match [m] *)
Definition finish_eq (fuel : nat) (k : eq_kind) (content : str) (m : mobj) : option (option eq_token * nat) :=
  let equation := strip (match m_group content 1 m with Some g => g | None => [] end) in
  let end_pos := m_end m in
  if nilb equation then Some (None, end_pos)
  else
    let '(equation, end_pos) :=
      match k with
      | KEnv name =>
          if str_eqb name (lit "alignat")
          then let '(_, _, e) := extract_args equation 1 0 in (strip (skipn e equation), end_pos)
          else (equation, end_pos)
      | _ =>
          if check_delimiter_balance equation c_lb c_rb then (equation, end_pos)
          else let '(eq, e) := extract_equation_content content (eq_delimiter k) in
               (eq, if Nat.ltb 0 e then e else end_pos)
      end in
    let '(equation, labels) := handle_labels equation in
    match convert_pairs fuel equation with
    | None => None
    | Some equation =>
        match fmt_loop fuel (process equation) (find_bs (process equation) 0) with
        | None => None
        | Some equation =>
            match extract_placeholders equation with
            | None => None
            | Some (equation, blocks) =>
                Some (Some {| q_content := equation; q_block := kind_block k; q_align := kind_align k;
                  q_numbered := match k with
                                | KEnv _ => negb (endswith (strip (m_group0 content m)) (lit "*}"))
                                | _ => false end;
                  q_labels := labels; q_placeholders := blocks |}, end_pos)
            end
        end
    end.

(** equation.py:186-245, handle; [order] is the iteration order of EQUATION_ENV *)
Fixpoint eq_match (ks : list eq_kind) (content : str) : option (eq_kind * mobj) :=
  match ks with
  | [] => None
  | k :: r => match re_match_at (eq_pattern k) content 0 with Some m => Some (k, m) | None => eq_match r content end
  end.
Definition eq_kinds (order : list str) : list eq_kind := map KEnv order ++ RAW_KINDS.
Definition handle_eq (fuel : nat) (order : list str) (content : str) : option (option eq_token * nat) :=
  match eq_match (eq_kinds order) content with
  | None => Some (None, 0)
  | Some (k, m) => finish_eq fuel k content m
  end.
(** equation.py:69-71 *)
Definition can_handle_eq (order : list str) (content : str) : bool :=
  match eq_match (eq_kinds order) content with Some _ => true | None => false end.
End Eq.
