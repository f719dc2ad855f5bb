(** Model of latex2json/parser/handlers/new_definition.py (all of NewDefinitionHandler and
    extract_and_concat_nested_csname).

    CommandModel.v models the plain paths of the same file with the usage patterns already compiled; here
    the tokens carry the usage pattern as the text that the code builds. *)
From Coq Require Import List NArith ZArith PeanoNat Bool String.
From Verif Require CommandModel.
From Verif Require Import PyStr Regex TexUtilsModel EnvModel StyleModel.
Import ListNotations. Notation length := List.length. Notation concat := List.concat. Open Scope list_scope.

(** Python's outcome: a value, an exception (here always IndexError), or no end *)
Inductive outcome (A : Type) := Ok (a : A) | Raise | Spin.
Arguments Ok {A} a. Arguments Raise {A}. Arguments Spin {A}.

(** The token dictionaries. *)
Inductive dtok :=
| DCommand (name content : str) (nargs : nat) (defaults : list str) (usage : str) (math : bool)
| DLet (name content usage : str)
| DDef (name content : str) (nargs : nat) (usage : str) (edef : bool)
| DTheorem (name title : str) (counter within : option str)
| DCref (name singular plural : str)
| DToks (name : str) | DIf (name : str) | DLength (name : str) | DCounter (name : str) | DOther (name : str) | DFam (name : str)
| DFloat (name title : str)
| DPaired (name left right : str)
| DColor (name format value : str)
| DFont (name source : str) (size : option (str * str)).
Definition result := (option dtok * Z)%type.

Local Notation "# s" := (rstr (lit s)) (at level 1, s at level 0).
Definition words (l : list string) : re := ralt (map (fun s => rstr (lit s)) l).
Definition sp : re := rstar rspace.
Definition no_rb : re := rncls [c_rb].
Definition no_rk : re := rncls [c_rk].
(** patterns.py:5 BRACE_CONTENT_PATTERN; [g] is the number of the group *)
Definition BRACE (g : nat) : re := rseq [#"{"; RGrp g (rplus no_rb); #"}"].
(** patterns.py:16 command_with_opt_brace_pattern *)
Definition CMD_OR_BRACE (g : nat) : re := RAlt (BRACE g) (CommandModel.command_pattern (S g)).

(** new_definition.py:21 and 22 *)
Definition DEF_PREFIX : re := rseq [ropt #"\long"; #"\"; ropt (rcls (lit "egx")); #"def"; sp; #"\"].
Definition LET_PREFIX : re := rseq [#"\"; ropt #"future"; #"let"; sp; #"\"].

Section Patterns.
(** \w: letters, digits and the underscore, and some characters beyond ASCII *)
Variable u : ch -> bool.
Definition w (x : ch) : bool := is_letter x || isdigit x || N.eqb x 95 || (N.leb 128 x && u x).
Definition no_letter : re := RAhead true (RChr is_letter).
(** new_definition.py:33-35 *)
Definition EXPAND_PATTERN : re := rseq [#"\"; words ["expandafter"; "noexpand"]%string; ropt (rplus (RChr w)); no_letter].
Definition START_CSNAME : re := RSeq #"\csname" no_letter.
Definition END_CSNAME : re := RSeq #"\endcsname" no_letter.

(** new_definition.py:58-61.  [\1: in braces, \2: without] *)
Definition P_paired : re :=
  rseq [#"\DeclarePairedDelimiter"; sp;
        RAlt (rseq [#"{"; #"\"; RGrp 1 (rplus (RChr (fun x => negb (isspace x) && negb (N.eqb x c_lb) && negb (N.eqb x c_rb)))); #"}"])
             (rseq [#"\"; RGrp 2 (rplus (RChr (fun x => negb (isspace x) && negb (N.eqb x c_lb))))]);
        sp; #"{"].
(** new_definition.py:66-69 *)
Definition P_alphabets : re := rseq [#"\"; RGrp 1 (words ["DeclareMathAlphabet"; "DeclareSymbolFontAlphabet"]%string); sp; #"{"].
(** new_definition.py:72 *)
Definition P_namedef : re := rseq [#"\@namedef"; sp; #"{"; RGrp 1 (rstar no_rb); #"}"].
(** new_definition.py:74-77 *)
Definition P_theorem : re :=
  rseq [#"\newtheorem"; ropt #"*"; #"{"; RGrp 1 (rstar no_rb); #"}";
        ropt (rseq [#"["; RGrp 2 (rstar no_rk); #"]"]);
        #"{"; RGrp 3 (rstar no_rb); #"}";
        ropt (rseq [#"["; RGrp 4 (rstar no_rk); #"]"])].
(** new_definition.py:78 *)
Definition P_theoremstyle : re := rseq [#"\newtheoremstyle"; ropt #"*"; #"{"].
(** new_definition.py:79 *)
Definition P_crefname : re :=
  rseq [#"\"; rcls (lit "cC"); #"refname"; #"{"; RGrp 1 (rstar no_rb); #"}"; #"{"; RGrp 2 (rstar no_rb); #"}";
        ropt (rseq [#"{"; RGrp 3 (rstar no_rb); #"}"])].
(** new_definition.py:80-82 *)
Definition P_toks : re := rseq [#"\newtoks"; sp; RGrp 1 (CMD_OR_BRACE 2)].
(** new_definition.py:83 *)
Definition P_if : re :=
  rseq [#"\"; ropt #"re"; #"newif"; sp; #"\if"; RGrp 1 (rplus (RChr (fun x => negb (isspace x) && negb (N.eqb x c_lb) && negb (N.eqb x c_bs))))].
(** new_definition.py:84-86 *)
Definition P_boolean : re := rseq [#"\"; ropt #"re"; #"newboolean"; sp; BRACE 1].
(** new_definition.py:87-89 *)
Definition P_length : re := rseq [#"\"; RGrp 1 (RSeq (ropt #"re") #"newlength"); sp; CMD_OR_BRACE 2].
(** new_definition.py:90-94 *)
Definition P_setlength : re :=
  rseq [#"\"; RGrp 1 (words ["setlength"; "addtolength"; "settoheight"; "settodepth"; "settowidth"]%string); sp; CMD_OR_BRACE 2; sp; #"{"].
(** new_definition.py:95-97 *)
Definition P_counter : re := rseq [#"\"; RAlt (RSeq (ropt #"re") #"newcounter") #"stepcounter"; sp; BRACE 1].
(** new_definition.py:98 *)
Definition no_name_end : re := RChr (fun x => negb (isspace x) && negb (N.eqb x c_lb) && negb (N.eqb x c_lk)).
Definition P_other : re := rseq [#"\"; ropt #"re"; #"new"; words ["count"; "dimen"; "skip"; "muskip"]%string; sp; #"\"; RGrp 1 (rplus no_name_end)].
(** new_definition.py:99-101 *)
Definition P_columntype : re :=
  rseq [#"\"; words ["newcolumntype"; "renewcolumntype"]%string; sp; #"{"; rstar no_rb; #"}"; ropt (rseq [sp; #"["; rplus rdigit; #"]"]); sp; #"{"].
(** new_definition.py:102 *)
Definition P_fam : re := rseq [#"\newfam"; sp; #"\"; RGrp 1 (rplus no_name_end)].
(** new_definition.py:103-106 *)
Definition P_setcounter : re := rseq [#"\setcounter"; sp; BRACE 1; sp; BRACE 2].
(** new_definition.py:107 *)
Definition P_floatname : re := rseq [#"\floatname"; #"{"; RGrp 1 (rstar no_rb); #"}"; #"{"; RGrp 2 (rstar no_rb); #"}"].
(** new_definition.py:111 *)
Definition P_color : re := rseq [#"\definecolor"; sp; #"{"].
(** new_definition.py:112-114 *)
Definition nonspace : re := RChr (fun x => negb (isspace x)).
Definition P_font : re :=
  rseq [#"\font"; sp; #"\"; RGrp 1 (rplus (RChr (fun x => negb (isspace x) && negb (N.eqb x 61)))); sp; #"="; sp; RGrp 2 (rplus nonspace);
        ropt (rseq [rplus rspace; #"at"; rplus rspace;
                    RGrp 3 (RSeq (rplus rdigit) (ropt (RSeq #"." (rplus rdigit))));
                    RGrp 4 (words ["pt"; "cm"; "mm"; "in"; "ex"; "em"; "bp"; "dd"; "pc"; "sp"]%string)])].

(** new_definition.py:47-114: the kinds of definition in the order in which they are tried *)
Inductive kind :=
| KNewcommand | KLet | KRobust | KPaired | KOperator | KAlphabets | KDef | KNamedef | KTheorem | KTheoremstyle
| KCref | KToks | KIf | KBoolean | KLength | KSetlength | KCounter | KOther | KColumntype | KFam | KSetcounter
| KFloat | KExpand | KEndcsname | KColor | KFont.
Definition PATTERNS : list (kind * re) :=
  [(KNewcommand, CommandModel.P_newcommand); (KLet, LET_PREFIX); (KRobust, CommandModel.P_declarerobust); (KPaired, P_paired);
   (KOperator, CommandModel.P_declaremathop); (KAlphabets, P_alphabets); (KDef, DEF_PREFIX); (KNamedef, P_namedef); (KTheorem, P_theorem);
   (KTheoremstyle, P_theoremstyle); (KCref, P_crefname); (KToks, P_toks); (KIf, P_if); (KBoolean, P_boolean); (KLength, P_length);
   (KSetlength, P_setlength); (KCounter, P_counter); (KOther, P_other); (KColumntype, P_columntype); (KFam, P_fam);
   (KSetcounter, P_setcounter); (KFloat, P_floatname); (KExpand, EXPAND_PATTERN); (KEndcsname, END_CSNAME); (KColor, P_color); (KFont, P_font)].

(** new_definition.py:137-139 *)
Definition can_handle (content : str) : bool := existsb (fun kp => match re_match_at (snd kp) content 0 with Some _ => true | None => false end) PATTERNS.
(** the loop header of new_definition.py:145-147 *)
Fixpoint first_match (l : list (kind * re)) (content : str) : option (kind * mobj) :=
  match l with
  | [] => None
  | (k, r) :: rest => match re_match_at r content 0 with Some m => Some (k, m) | None => first_match rest content end
  end.

(** re.escape (Python 3.7 and later) *)
Definition special (x : ch) : bool := in_str (lit "()[]{}?*+-|^$\.&~# " ++ [9; 10; 13; 11; 12]%N) x.
Definition escape (s : str) : str := concat (map (fun x => if special x then [c_bs; x] else [x]) s).
(** new_definition.py:117 *)
Definition SUFFIX : str := lit "(?![a-zA-Z@])".
Definition grp (t : str) (n : nat) (m : mobj) : str := match m_group t n m with Some g => g | None => [] end.
Definition grp_or (t : str) (a b : nat) (m : mobj) : str := match grp t a m with [] => grp t b m | s => s end.
Definition unslash (s : str) : str := match s with x :: r => if N.eqb x c_bs then r else s | [] => [] end.
Definition last_ch (s : str) : option ch := match rev s with x :: _ => Some x | [] => None end.

(** str.find of one character, -1 as None *)
Fixpoint index_ch (x : ch) (s : str) : option nat :=
  match s with [] => None | y :: r => if N.eqb y x then Some 0 else option_map S (index_ch x r) end.
(** s.partition(sep)[2] for a non-empty separator *)
Fixpoint after_sep (sep s : str) : str :=
  match s with
  | [] => []
  | _ :: r => if startswith s sep then skipn (length sep) s else after_sep sep r
  end.
(** s.replace(" ", "") *)
Definition no_blanks (s : str) : str := filter (fun x => negb (N.eqb x 32)) s.
(** s.strip("\\") *)
Fixpoint drop_bs (s : str) : str := match s with x :: r => if N.eqb x c_bs then drop_bs r else s | [] => [] end.
Definition strip_bs (s : str) : str := rev (drop_bs (rev (drop_bs s))).

(** new_definition.py:120-135; the end position is None for -1.  The outer None is the fuel of
    extract_nested_content_pattern running out, which does not happen. *)
Definition concat_csname (content : str) : option (str * nat) :=
  match re_match_at START_CSNAME content 0 with
  | None => None
  | Some _ =>
      match extract_nested_content_pattern content START_CSNAME END_CSNAME with
      | Some (Some (_, e, inner)) =>
          let inner := re_sub START_CSNAME (fun _ => []) inner in
          let inner := re_sub END_CSNAME (fun _ => []) inner in
          let inner := re_sub EXPAND_PATTERN (fun _ => []) inner in
          Some (inner, e)
      | _ => None
      end
  end.

(** str.isalpha and str.isalnum; on ASCII characters they are the usual classes *)
Variable ualpha ualnum : ch -> bool.
Definition isalpha (x : ch) : bool := is_letter x || (N.leb 128 x && ualpha x).
Definition isalnum (x : ch) : bool := is_letter x || isdigit x || (N.leb 128 x && ualnum x).

(** new_definition.py:355-396 *)
Definition handle_newcommand (math : bool) (content : str) (m : mobj) : result :=
  let start := m_end m in
  match extract_nested_content (skipn (start - 1) content) c_lb c_rb with
  | (None, _) => (None, Z.of_nat start)
  | (Some definition, e) =>
      let name := unslash (grp_or content 1 2 m) in
      let nargs := match int_of_str (grp content 3 m) with Some n => n | None => 0 end in
      let defs := grp content 4 m in
      let defaults := map (grp defs 1) (re_finditer CommandModel.P_default defs) in
      let postfix := match last_ch name with Some x => if isalnum x then SUFFIX else [] | None => [] end in
      (Some (DCommand name definition nargs defaults (lit "\\" ++ escape name ++ postfix) math), Z.of_nat (start + e - 1))
  end.

(** new_definition.py:325-353 *)
Definition handle_let (content : str) (m : mobj) : outcome result :=
  let name := strip (grp content 1 m) in
  let body := strip (grp content 2 m) in
  let '(name, body) :=
    match body with
    | x :: r => if N.eqb x 61 then (name, r)
                else (match last_ch name with Some y => if N.eqb y 61 then removelast name else name | None => name end, body)
    | [] => (match last_ch name with Some y => if N.eqb y 61 then removelast name else name | None => name end, body)
    end in
  let usage := lit "\\" ++ name ++ SUFFIX in
  Ok (Some (if startswith (m_group0 content m) (lit "\futurelet") then DCommand name body 0 [] usage false else DLet name body usage), Z.of_nat (m_end m)).

(** new_definition.py:570-571 *)
Definition ARG_PART : str := lit "\s*(?:\{((?:[^{}]|\\\{|\\\}|{[^{}]*})*)\}|([^\}]+?))".
(** new_definition.py:573-588 *)
Fixpoint arg_parts (args : str) (pos : nat) (ps : list mobj) : str :=
  match ps with
  | [] => escape (skipn pos args)
  | p :: rest => escape (slice pos (m_start p) args) ++ ARG_PART ++ arg_parts args (m_end p) rest
  end.
(** new_definition.py:549-592; pre_arg[-1] of an empty text is an IndexError *)
Definition def_parts (pattern : str) : outcome (str * nat) :=
  match re_search CommandModel.P_hash pattern with
  | Some m =>
      let pre := firstn (m_start m) pattern in
      let args := skipn (m_start m) pattern in
      let ps := re_finditer CommandModel.P_hash args in
      match last_ch pre with
      | None => Raise
      | Some x => Ok (escape pre ++ (if isalpha x || N.eqb x 64 then SUFFIX else []) ++ arg_parts args 0 ps, length ps)
      end
  | None => Ok (escape pattern ++ SUFFIX, 0)
  end.
(** new_definition.py:516-547 *)
Definition handle_def (content : str) (m : mobj) : outcome result :=
  let start := m_end m in
  match extract_nested_content (skipn (start - 1) content) c_lb c_rb with
  | (None, _) => Ok (None, Z.of_nat start)
  | (Some definition, e) =>
      let edef := match m_span 1 m with Some (i, _) => contains (lit "\edef") (firstn i content) | None => false end in
      let name := unslash (grp_or content 1 2 m) in
      let params := strip (grp content 3 m) in
      match def_parts (name ++ params) with
      | Ok (parts, n) => Ok (Some (DDef name definition n (lit "\\" ++ parts) edef), Z.of_nat (start + e - 1))
      | Raise => Raise
      | Spin => Spin
      end
  end.

(** new_definition.py:483-499: the usage pattern of a name written with csname *)
Definition with_csname (add : bool) (inners : list str) (t : dtok) : dtok :=
  match inners with
  | [] => t
  | first :: _ =>
      let more (usage : str) : str :=
        usage ++ lit "|" ++ lit "\\csname" ++ first ++ lit "\\endcsname" ++
        (if add then after_sep (c_bs :: no_blanks first) usage else SUFFIX) in
      match t with
      | DCommand n b k d us m => DCommand n b k d (more us) m
      | DLet n b us => DLet n b (more us)
      | DDef n b k us e => DDef n b k (more us) e
      | _ => t
      end
  end.

(** new_definition.py:441-507, [_handle_def_prefix]; [start] is start_pos, [inners] inner_csnames *)
Fixpoint def_prefix_loop (fuel : nat) (content prefix : str) (full : re) (handler : str -> mobj -> outcome result) (add : bool) (max : nat)
    (start : nat) (inners : list str) : outcome result :=
  match fuel with
  | O => Spin
  | S fu =>
      if Nat.ltb start (length content) then
        let rest := skipn start content in
        let strip_step :=
          if Nat.ltb (length inners) max then
            match re_match_at (RSeq sp EXPAND_PATTERN) rest 0 with
            | Some m => Some (start + m_end m, inners)
            | None => match concat_csname rest with Some (inner, e) => Some (start + e, inners ++ [inner]) | None => None end
            end
          else None in
        match strip_step with
        | Some (start', inners') => def_prefix_loop fu content prefix full handler add max start' inners'
        | None =>
            let cmd := match inners with [] => [c_bs] | _ => concat (map (fun i => c_bs :: no_blanks i) inners) end in
            let search_prefix := prefix ++ cmd in
            let start := match rest with x :: _ => if N.eqb x c_bs then S start else start | [] => start end in
            let search_text := search_prefix ++ skipn start content in
            match re_match_at full search_text 0 with
            | None => Ok (None, 0%Z)
            | Some fm =>
                match handler search_text fm with
                | Ok (t, e) => Ok (option_map (with_csname add inners) t, (Z.of_nat start + e - Z.of_nat (length search_prefix))%Z)
                | Raise => Raise
                | Spin => Spin
                end
            end
        end
      else Ok (None, 0%Z)
  end.
Definition def_prefix (content : str) (m : mobj) (full : re) (handler : str -> mobj -> outcome result) (add : bool) (max : nat) : outcome result :=
  def_prefix_loop (S (length content)) content (removelast (m_group0 content m)) full handler add max (m_end m - 1) [].

(** new_definition.py:421-439, [_handle_namedef] *)
Definition handle_namedef (content : str) (m : mobj) : outcome result :=
  let e := m_end m in
  let search_prefix := lit "\def\csname " ++ grp content 1 m ++ lit " \endcsname " in
  let search_text := search_prefix ++ skipn e content in
  match re_match_at DEF_PREFIX search_text 0 with
  | Some m' =>
      match def_prefix search_text m' CommandModel.P_def handle_def true 1 with
      | Ok (t, total) => Ok (t, (Z.of_nat e + total - Z.of_nat (length search_prefix))%Z)
      | Raise => Raise
      | Spin => Spin
      end
  | None => Ok (None, Z.of_nat e)
  end.

(** new_definition.py:207-231 *)
Definition handle_alphabets (content : str) (m : mobj) : result :=
  let start := m_end m - 1 in
  let n := if str_eqb (grp content 1 m) (lit "DeclareMathAlphabet") then 5 else 2 in
  let '(blocks, e) := extract_nested_content_sequence_blocks (skipn start content) c_lb c_rb (Some n) in
  match blocks with
  | [] => (None, Z.of_nat (e + start))
  | cmd :: _ => (Some (DCommand (strip_bs cmd) (lit "#1") 1 [] (escape cmd ++ SUFFIX) true), Z.of_nat (e + start))
  end.

(** new_definition.py:253-264, [_parse_varname_from_brace_or_backslash] *)
Definition varname (s : str) : str :=
  let s := match s with
           | x :: _ => if N.eqb x c_lb then match extract_nested_content s c_lb c_rb with (Some (y :: v), _) => strip (y :: v) | _ => s end else s
           | [] => s
           end in
  let s := unslash s in
  match index_ch c_lb s with Some k => strip (firstn k s) | None => s end.
(** new_definition.py:266-302 *)
Definition named (f : str -> dtok) (name : str) (e : nat) : result := (match name with [] => None | _ => Some (f name) end, Z.of_nat e).
Definition group_end (n : nat) (m : mobj) : nat := match m_span n m with Some (_, j) => j | None => 0 end.
Definition handle_length (content : str) (m : mobj) : result := named DLength (varname (skipn (group_end 1 m) (m_group0 content m))) (m_end m).
Definition handle_setlength (content : str) (m : mobj) : result :=
  let start := m_end m - 1 in
  let '(_, e) := extract_nested_content (skipn start content) c_lb c_rb in
  named DLength (varname (skipn (group_end 1 m) (removelast (m_group0 content m)))) (e + start).
Definition handle_toks (content : str) (m : mobj) : result := named DToks (varname (strip (grp content 1 m))) (m_end m).

(** new_definition.py:594-640 *)
Definition handle_paired (content : str) (m : mobj) : result :=
  let start := m_end m - 1 in
  let '(blocks, e) := extract_nested_content_sequence_blocks (skipn start content) c_lb c_rb (Some 2) in
  match blocks with
  | [l; r] => (Some (DPaired (grp_or content 1 2 m) l r), Z.of_nat (start + e))
  | _ => (None, Z.of_nat start)
  end.
Definition handle_color (content : str) (m : mobj) : result :=
  let start := m_end m - 1 in
  let '(blocks, e) := extract_nested_content_sequence_blocks (skipn start content) c_lb c_rb (Some 3) in
  match blocks with
  | [a; b; c] => (Some (DColor a b c), Z.of_nat (start + e))
  | _ => (None, Z.of_nat start)
  end.
(** a group that is absent or empty is not recorded *)
Definition some_group (t : str) (n : nat) (m : mobj) : option str := match grp t n m with [] => None | s => Some s end.
(** new_definition.py:648-666 *)
Definition handle_font (content : str) (m : mobj) : result :=
  (Some (DFont (grp content 1 m) (grp content 2 m)
     (match some_group content 3 m, some_group content 4 m with Some a, Some b => Some (a, b) | _, _ => None end)), Z.of_nat (m_end m)).

(** new_definition.py:141-205 *)
Fixpoint handle_go (fuel : nat) (content : str) : outcome result :=
  match fuel with
  | O => Spin
  | S fu =>
      match first_match PATTERNS content with
      | None => Ok (None, 0%Z)
      | Some (k, m) =>
          match k with
          | KPaired => Ok (handle_paired content m)
          | KAlphabets => Ok (handle_alphabets content m)
          | KOperator => Ok (handle_newcommand true content m)
          | KNewcommand | KRobust => Ok (handle_newcommand false content m)
          | KLet => def_prefix content m CommandModel.P_let handle_let false 2
          | KDef => def_prefix content m CommandModel.P_def handle_def true 1
          | KNamedef => handle_namedef content m
          | KColor => Ok (handle_color content m)
          | KFont => Ok (handle_font content m)
          | KToks => Ok (handle_toks content m)
          | KTheorem => Ok (Some (DTheorem (grp content 1 m) (grp content 3 m) (some_group content 2 m) (some_group content 4 m)), Z.of_nat (m_end m))
          | KTheoremstyle =>
              let start := m_end m - 1 in
              Ok (None, Z.of_nat (snd (extract_nested_content_sequence_blocks (skipn start content) c_lb c_rb (Some 9)) + start))
          | KCref => Ok (Some (DCref (grp content 1 m) (grp content 2 m) (grp content 3 m)), Z.of_nat (m_end m))
          | KIf => Ok (Some (DIf (grp content 1 m)), Z.of_nat (m_end m))
          | KLength => Ok (handle_length content m)
          | KSetlength => Ok (handle_setlength content m)
          | KFam => Ok (Some (DFam (strip (grp content 1 m))), Z.of_nat (m_end m))
          | KCounter | KSetcounter => Ok (Some (DCounter (strip (grp content 1 m))), Z.of_nat (m_end m))
          | KOther => Ok (Some (DOther (strip (grp content 1 m))), Z.of_nat (m_end m))
          | KFloat => Ok (Some (DFloat (grp content 1 m) (grp content 2 m)), Z.of_nat (m_end m))
          | KExpand | KEndcsname =>
              match handle_go fu (skipn (m_end m) content) with
              | Ok (t, e) => Ok (t, (Z.of_nat (m_end m) + e)%Z)
              | Raise => Raise
              | Spin => Spin
              end
          | KColumntype =>
              let start := m_end m - 1 in
              Ok (None, Z.of_nat (snd (extract_nested_content (skipn start content) c_lb c_rb) + start))
          | KBoolean => Ok (None, Z.of_nat (m_end m))
          end
      end
  end.
Definition handle (content : str) : outcome result := handle_go (S (length content)) content.
End Patterns.
