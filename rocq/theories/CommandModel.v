(** Model of macro definitions and macro calls:
    parser/handlers/new_definition.py (newcommand, let, def),
    parser/handlers/command_manager.py (register_command),
    parser/handlers/command_processor.py (handlers, dispatch, expansion),
    parser/patterns.py (command_pattern), utils/tex_utils.py (substitute_patterns).

    Not modelled: csname / expandafter spellings (new_definition.py:441-509 beyond the
    plain path, command_processor.py:486-497), newif/newtoks/newX/newcounter/paired
    delimiter entries, keyval dispatch in CommandManager.handle, the unicode
    converter at the end of expand_commands. *)
From Coq Require Import List NArith PeanoNat Bool String.
From Verif Require Import PyStr Regex TexUtilsModel SubstModel.
Import ListNotations. Notation length := List.length. Notation concat := List.concat. Open Scope list_scope.

(** [a-zA-Z] and [a-zA-Z@] *)
Definition letter (x : ch) : bool := in_range 97 122 x || in_range 65 90 x.
Definition name_ch (x : ch) : bool := letter x || N.eqb x 64.
(** str.isalnum on the characters a command name can contain (patterns.py:15: ASCII
    letters, @, punctuation, or one digit) *)
Definition name_alnum (x : ch) : bool := letter x || isdigit x.

(** new_definition.py:115  USAGE_SUFFIX = (?![a-zA-Z@]) *)
Definition USAGE_SUFFIX : re := RAhead true (RChr name_ch).

(** patterns.py:15  command_pattern; [g] is the number of its group *)
Definition special_chars : str := lit "<>=,.;!|$%&#_{}()[]~".
Definition command_pattern (g : nat) : re :=
  RSeq (is_ch c_bs) (RGrp g (ralt [rplus (RChr name_ch); rplus (rcls special_chars); rdigit])).

(** new_definition.py:16-19  POST_NEW_COMMAND_PATTERN_STR *)
Definition one_default : re := rseq [rstar rspace; is_ch c_lk; rstar (rncls [c_rk]); is_ch c_rk].
Definition POST_NEW_COMMAND : re :=
  rseq [ropt (is_ch 42%N);
        rstar rspace;
        RAlt (rseq [is_ch c_lb; command_pattern 1; is_ch c_rb]) (command_pattern 2);
        ropt (rseq [rstar rspace; is_ch c_lk; RGrp 3 (rplus rdigit); is_ch c_rk]);
        RGrp 4 (rstar one_default);
        rstar rspace;
        is_ch c_lb].

(** new_definition.py:50-52, 55-57, 63-65 *)
Definition P_newcommand : re :=
  RSeq (is_ch c_bs) (RSeq (ralt [rstr (lit "new"); rstr (lit "renew"); rstr (lit "provide")]) (RSeq (rstr (lit "command")) POST_NEW_COMMAND)).
Definition P_declarerobust : re := RSeq (rstr (lit "\DeclareRobustCommand")) POST_NEW_COMMAND.
Definition P_declaremathop : re := RSeq (rstr (lit "\DeclareMathOperator")) POST_NEW_COMMAND.

(** new_definition.py:379  \[(.*?)\] without DOTALL *)
Definition P_default : re := RSeq (is_ch c_lk) (RSeq (RGrp 1 (rlazy rdot)) (is_ch c_rk)).

(** new_definition.py:22, 29-31.  (=.* | \\[^\s{]+) *)
Definition P_let : re :=
  rseq [is_ch c_bs; ropt (rstr (lit "future")); rstr (lit "let"); rstar rspace; is_ch c_bs;
        RGrp 1 (rplus (RChr (fun x => negb (isspace x) && negb (N.eqb x c_lb) && negb (N.eqb x c_bs))));
        rstar rspace;
        RGrp 2 (RAlt (RSeq (is_ch 61%N) (rstar rany))
                     (RSeq (is_ch c_bs) (rplus (RChr (fun x => negb (isspace x) && negb (N.eqb x c_lb))))))].

(** new_definition.py:21, 24-26 *)
Definition P_def : re :=
  rseq [ropt (rstr (lit "\long")); is_ch c_bs; ropt (rcls (lit "egx")); rstr (lit "def"); rstar rspace; is_ch c_bs;
        RGrp 1 (rplus (RChr (fun x => negb (isspace x) && negb (N.eqb x c_lb) && negb (N.eqb x c_hash))));
        RGrp 2 (rseq [RGrp 3 (rstar (RAlt (RSeq (is_ch c_hash) (rplus rdigit)) (rncls [c_lb]))); rstar rspace; is_ch c_lb])].

(** The token dictionaries of the three kinds of definition; patterns are kept
    compiled. *)
Inductive dtoken :=
| TNew (name body : str) (nargs : nat) (defaults : list str) (pat : re) (math : bool)
| TLet (name body : str) (pat : re)
| TDef (name body : str) (nargs : nat) (pat : re) (ngroups : nat) (edef : bool).

Definition grp (t : str) (n : nat) (m : mobj) : str := match m_group t n m with Some g => g | None => [] end.
(** [match.group(1) or match.group(2)] *)
Definition grp_or (t : str) (a b : nat) (m : mobj) : str := match grp t a m with [] => grp t b m | s => s end.
Definition unslash (s : str) : str := match s with x :: r => if N.eqb x c_bs then r else s | [] => [] end.
Definition last_ch (s : str) : option ch := match rev s with x :: _ => Some x | [] => None end.

(** new_definition.py:382-385 *)
Definition usage_pattern (name : str) : re :=
  if match last_ch name with Some x => name_alnum x | None => false end
  then RSeq (rstr ([c_bs] ++ name)) USAGE_SUFFIX
  else rstr ([c_bs] ++ name).

(** new_definition.py:355-396 *)
Definition handle_newcommand (math : bool) (content : str) (m : mobj) : option dtoken * nat :=
  let start := m_end m in
  match extract_nested_content (skipn (start - 1) content) c_lb c_rb with
  | (None, _) => (None, start)
  | (Some definition, e) =>
      let name := unslash (grp_or content 1 2 m) in
      let nargs := match int_of_str (grp content 3 m) with Some n => n | None => 0 end in
      let defs := grp content 4 m in
      let defaults := map (grp defs 1) (re_finditer P_default defs) in
      (Some (TNew name definition nargs defaults (usage_pattern name) math), start + e - 1)
  end.

(** new_definition.py:327-353.  [name] is used as a raw regular expression there;
    here it is matched literally (same for names of letters, digits and @). *)
Definition handle_let (content : str) (m : mobj) : option dtoken * nat :=
  let name := strip (grp content 1 m) in
  let body := strip (grp content 2 m) in
  let '(name, body) :=
    match body with
    | x :: r => if N.eqb x 61 then (name, r)
                else (match last_ch name with Some y => if N.eqb y 61 then removelast name else name | None => name end, body)
    | [] => (name, body)
    end in
  let pat := RSeq (rstr ([c_bs] ++ name)) USAGE_SUFFIX in
  if startswith (m_group0 content m) (lit "\futurelet")
  then (Some (TNew name body 0 [] pat false), m_end m)
  else (Some (TLet name body pat), m_end m).

(** new_definition.py:570-571, [args_part_pattern]: blanks, then either a brace
    group whose content is a sequence of non-braces, escaped braces and brace
    groups without inner braces (group [g]), or lazily at least one character
    other than a closing brace (group [g + 1]) *)
Definition no_brace : re := rncls [c_lb; c_rb].
Definition args_part_pattern (g : nat) : re :=
  RSeq (rstar rspace)
    (RAlt (rseq [is_ch c_lb;
                 RGrp g (rstar (ralt [no_brace; rstr [c_bs; c_lb]; rstr [c_bs; c_rb];
                                      rseq [is_ch c_lb; rstar no_brace; is_ch c_rb]]));
                 is_ch c_rb])
          (RGrp (S g) (RSeq (rncls [c_rb]) (rlazy (rncls [c_rb]))))).
(** the #(\d+) pattern of new_definition.py:554, 575 *)
Definition P_hash : re := RSeq (is_ch c_hash) (RGrp 1 (rplus rdigit)).

(** new_definition.py:574-588, the loop over the parameters and the tail *)
Fixpoint def_parts (args : str) (pos g : nat) (ps : list mobj) : list re :=
  match ps with
  | [] => [rstr (skipn pos args)]
  | p :: rest => rstr (slice pos (m_start p) args) :: args_part_pattern g :: def_parts args (m_end p) (2 + g) rest
  end.
(** new_definition.py:549-592 ; returns the pattern, the number of parameters and
    the number of groups *)
Definition def_pattern (pattern : str) : re * nat * nat :=
  match re_search P_hash pattern with
  | Some m =>
      let pre := firstn (m_start m) pattern in
      let args := skipn (m_start m) pattern in
      let ps := re_finditer P_hash args in
      let suffix := match last_ch pre with Some x => if letter x || N.eqb x 64 then USAGE_SUFFIX else REps | None => REps end in
      (rseq (rstr ([c_bs] ++ pre) :: suffix :: def_parts args 0 1 ps), length ps, 2 * length ps)
  | None => (RSeq (rstr ([c_bs] ++ pattern)) USAGE_SUFFIX, 0, 0)
  end.
(** new_definition.py:516-547 *)
Definition handle_def (content : str) (m : mobj) : option dtoken * nat :=
  let start := m_end m in
  match extract_nested_content (skipn (start - 1) content) c_lb c_rb with
  | (None, _) => (None, start)
  | (Some definition, e) =>
      let edef := match m_span 1 m with Some (i, _) => contains (lit "\edef") (firstn i content) | None => false end in
      let name := unslash (grp content 1 m) in
      let params := strip (grp content 3 m) in
      let '(pat, n, ng) := def_pattern (name ++ params) in
      (Some (TDef name definition n pat ng edef), start + e - 1)
  end.

(** new_definition.py:142-177, restricted to the definitions above (the other
    patterns of PATTERNS begin with other command words) *)
Definition handle_definition (content : str) : option dtoken * nat :=
  match re_match_at P_newcommand content 0 with
  | Some m => handle_newcommand false content m
  | None =>
  match re_match_at P_let content 0 with
  | Some m => handle_let content m
  | None =>
  match re_match_at P_declarerobust content 0 with
  | Some m => handle_newcommand false content m
  | None =>
  match re_match_at P_declaremathop content 0 with
  | Some m => handle_newcommand true content m
  | None =>
  match re_match_at P_def content 0 with
  | Some m => handle_def content m
  | None => (None, 0)
  end end end end end.

(** * Registered commands *)
(** command_processor.py:142-163: [get_definition] *)
Inductive getdef := GPlain (d : str) | GStar (on off : str).
Inductive ckind :=
| KNew (d : getdef) (nargs : nat) (defaults : list str)
| KLet (d : str)
| KDef (d : getdef) (ngroups : nat).
Record centry := { ce_pat : re; ce_math : bool; ce_kind : ckind }.
Definition cdict := list (str * centry).
(** Python dict assignment keeps the position of an existing key *)
Fixpoint cset (k : str) (v : centry) (d : cdict) : cdict :=
  match d with
  | [] => [(k, v)]
  | (k', v') :: r => if str_eqb k k' then (k, v) :: r else (k', v') :: cset k v r
  end.
Record cstate := { c_cmds : cdict; c_lets : cdict }.
(** command_processor.py:104-106 *)
Definition all_commands (st : cstate) : cdict := fold_left (fun d kv => cset (fst kv) (snd kv) d) (c_lets st) (c_cmds st).

Section Commands.
(** str.isalpha / str.isalnum on one character *)
Variable isalpha isalnum : ch -> bool.
(** IfElseBlockHandler.handle on a definition that starts with \@ifstar, reduced to
    the two blocks of command_processor.py:152-156 *)
Variable ifstar_blocks : str -> option (str * str).

(** command_processor.py:142-163 *)
Definition conditionals (definition : str) (pat : re) : getdef * re :=
  let d := strip definition in
  if startswith d (lit "\@ifstar") then
    match ifstar_blocks d with
    | Some (on, off) => (GStar on off, RSeq pat (ropt (is_ch 42%N)))
    | None => (GPlain definition, pat)
    end
  else (GPlain definition, pat).

Definition get_definition (g : getdef) (text : str) (m : mobj) : str :=
  match g with
  | GPlain d => d
  | GStar on off => if endswith (m_group0 text m) (lit "*") then on else off
  end.

(** overwrite the first elements: [for i, block in enumerate(blocks): args[i] = block] *)
Fixpoint overwrite (blocks args : list str) : list str :=
  match blocks, args with
  | b :: bs, _ :: r => b :: overwrite bs r
  | _, _ => args
  end.

(** The handler closures: command_processor.py:120-125 (let), 190-229 (newcommand),
    289-299 (def) *)
Definition run_handler (k : ckind) (text : str) (m : mobj) (math : bool) : str * nat :=
  match k with
  | KLet d => (d, m_end m)
  | KNew g 0 _ => (get_definition g text m, m_end m)
  | KNew g nargs defaults =>
      let start := m_end m in
      let nopt := length defaults in
      let '(args, e) :=
        match nopt with
        | 0 => (defaults, start)
        | _ => let '(blocks, e) := extract_nested_content_sequence_blocks (skipn start text) c_lk c_rk (Some nopt) in
               (overwrite blocks defaults, e + start)
        end in
      let left := nargs - nopt in
      let '(args, e) :=
        match left with
        | 0 => (args, e)
        | _ => let '(blocks, e2) := extract_nested_content_sequence_blocks (skipn e text) c_lb c_rb (Some left) in
               (args ++ blocks, e2 + e)
        end in
      let args := args ++ repeat [] (nargs - length args) in
      (substitute_args isalpha (get_definition g text m) (map Some args) math, e)
  | KDef g ngroups =>
      let args := concat (map (fun n => match m_group text n m with Some s => [s] | None => [] end) (seq 1 ngroups)) in
      (substitute_args isalpha (get_definition g text m) (map Some args) math, m_end m)
  end.

(** command_processor.py:28-58 *)
Definition prev_alnum (t : str) (i : nat) : bool := match i with O => false | S j => match nth_error t j with Some x => isalnum x | None => false end end.
Definition first_alnum (c : str) : bool := match c with x :: _ => isalnum x | [] => false end.
Definition last_alnum (c : str) : bool := match last_ch c with Some x => isalnum x | None => false end.
(** ENDS_WITH_SPACE_N_WORD_PATTERN.match: .+(\s+\w+)$ ; kept abstract *)
Variable ends_with_word : str -> bool.
Definition should_wrap (out full : str) (s e : nat) : bool :=
  let c := strip out in
  match c with
  | [] => false
  | x :: r =>
      let next := match nth_error full e with Some y => isalnum y | None => false end in
      if first_alnum c && prev_alnum full s then true
      else if last_alnum c && next then true
      else if N.eqb x c_bs then
        let single := negb (nilb r) && forallb isalpha r in
        if negb single && Nat.ltb 0 s then
          match nth_error full (s - 1) with
          | Some p => if N.eqb p 95 || N.eqb p 94 then true else ends_with_word c
          | None => ends_with_word c
          end
        else false
      else false
  end.
(** command_processor.py:61-67 *)
Definition wrap (text : str) : str :=
  let t := strip text in
  if startswith t [c_lb] && endswith t [c_rb] then t else [c_lb] ++ t ++ [c_rb].

(** command_processor.py:433-450, [sub_fn] (the name is always a key) *)
Definition expand_fn (e : centry) (math : bool) (text : str) (m : mobj) : str * nat :=
  let '(out, pos) := run_handler (ce_kind e) text m math in
  if math && should_wrap out text (m_start m) pos then (wrap out, pos) else (out, pos).

(** tex_utils.py:239-258, the loop for one pattern.  The fuel is the length of the
    text: every replacement uses up at least one character of what is left. *)
Fixpoint subst_loop (fuel : nat) (p : re) (f : str -> mobj -> str * nat) (text : str) (pos : nat) : str :=
  match fuel with
  | O => text
  | S fu =>
      match re_search p (skipn pos text) with
      | None => text
      | Some m =>
          let '(conv, e) := f (skipn pos text) m in
          let start := pos + m_start m in
          subst_loop fu p f (firstn start text ++ conv ++ skipn (pos + e) text) (start + length conv)
      end
  end.
(** tex_utils.py:232-260 with command_processor.py:452-454 *)
Definition substitute_patterns (es : cdict) (math : bool) (text : str) : str :=
  fold_left (fun t kv => subst_loop (S (length t)) (ce_pat (snd kv)) (expand_fn (snd kv) math) t 0) es text.

(** command_processor.py:456-466; None is the RecursionError *)
Fixpoint expand_loop (n : nat) (es : cdict) (math : bool) (text : str) : option str :=
  match n with
  | O => None
  | S n' => let t' := substitute_patterns es math text in
            if str_eqb t' text then Some t' else expand_loop n' es math t'
  end.
Definition max_depth : nat := 1000.
(** command_processor.py:398-420, without the unicode conversion *)
Definition expand_commands (st : cstate) (text : str) (math : bool) : option str :=
  let es := if math then c_cmds st else filter (fun kv => negb (ce_math (snd kv))) (c_cmds st) in
  match expand_loop max_depth es math text with
  | None => None
  | Some t => expand_loop max_depth (c_lets st) math t
  end.

(** command_manager.py:64-115 with command_processor.py:113-139, 165-245, 276-316;
    None is an exception (RecursionError while expanding a let or an edef) *)
Definition whitelist : list str := map lit
  ["newcommand"; "begin"; "end"; "section"; "subsection"; "subsubsection"; "paragraph"; "subparagraph"; "newline";
   "maketitle"; "title"; "author"; "and"; "thanks"; "date"; "part"; "chapter"; "abstract"; "table"; "figure"; "cite";
   "citep"; "citet"; "caption"; "captionof"; "bibitem"; "url"; "ref"; "appendix"; "appendices"; "\"; "\\";
   "textbf"; "textit"; "textsl"; "textsc"; "textsf"; "texttt"; "textrm"; "textup"; "emph"; "texttiny";
   "textscriptsize"; "textfootnotesize"; "textsmall"; "textnormal"; "textlarge"; "texthuge"; "text"; "tt"; "bf"; "it";
   "sl"; "sc"; "sf"; "rm"; "em"; "bold"; "rmfamily"; "sffamily"; "ttfamily"; "itshape"; "scshape"; "upshape"; "slshape";
   "bfseries"; "mdseries"; "normalfont"; "textup"; "textnormal"; "textmd"; "unboldmath"; "boldmath";
   "mathversion{bold}"; "mathversion{normal}"; "tiny"; "scriptsize"; "footnotesize"; "small"; "normalsize"; "large";
   "Large"; "LARGE"; "huge"; "Huge"; "smaller"; "larger"]%string.
Definition whitelisted (name : str) : bool := existsb (str_eqb name) whitelist.
Definition register_command (st : cstate) (t : dtoken) : option cstate :=
  match t with
  | TNew name body nargs defaults pat math =>
      if nilb name || whitelisted name then Some st
      else if negb (nilb body) && match re_search pat body with Some _ => true | None => false end then Some st
      else let '(g, p) := conditionals body pat in
           Some {| c_cmds := cset name {| ce_pat := p; ce_math := math; ce_kind := KNew g nargs defaults |} (c_cmds st); c_lets := c_lets st |}
  | TLet name body pat =>
      if nilb name || whitelisted name then Some st
      else match expand_commands st body false with
           | None => None
           | Some d => Some {| c_cmds := c_cmds st; c_lets := cset name {| ce_pat := pat; ce_math := false; ce_kind := KLet d |} (c_lets st) |}
           end
  | TDef name body nargs pat ng edef =>
      if nilb name || whitelisted name then Some st
      else let '(g, p) := match nargs with 0 => conditionals body pat | _ => (GPlain body, pat) end in
           (* definition is rebound after the closure is made: a plain get_definition sees the expanded text *)
           match (if edef then expand_commands st body false else Some body) with
           | None => None
           | Some d => let g := match g with GPlain _ => GPlain d | _ => g end in
                       Some {| c_cmds := cset name {| ce_pat := p; ce_math := false; ce_kind := KDef g ng |} (c_cmds st); c_lets := c_lets st |}
           end
  end.

(** command_processor.py:489-499: the first entry (not math-only) that matches;
    None stands for the csname fallback *)
Fixpoint handle_go (es : cdict) (text : str) : option (str * nat) :=
  match es with
  | [] => None
  | (_, e) :: r =>
      if ce_math e then handle_go r text
      else match re_match_at (ce_pat e) text 0 with
           | Some m => let '(out, pos) := run_handler (ce_kind e) text m false in
                       if str_eqb (m_group0 text m) out then Some ([], m_end m) else Some (out, pos)
           | None => handle_go r text
           end
  end.
Definition handle_command (st : cstate) (text : str) : option (str * nat) := handle_go (all_commands st) text.

(** tex_parser.py:234-267 with command_manager.py:46-53: a definition met by the
    parser is registered by process_definition and once more by
    _process_new_definition_token *)
Definition parser_define (st : cstate) (content : str) : option (cstate * nat) :=
  match handle_definition content with
  | (None, e) => Some (st, e)
  | (Some t, e) =>
      match register_command st t with
      | None => None
      | Some st1 => match register_command st1 t with None => None | Some st2 => Some (st2, e) end
      end
  end.
End Commands.
