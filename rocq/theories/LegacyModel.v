(** Model of latex2json/parser/handlers/legacy_formatting.py (LegacyFormattingHandler). *)
From Coq Require Import List NArith PeanoNat Bool String.
From Verif Require Import PyStr Regex Json TexUtilsModel CommandModel StyleModel EnvHandlerModel ItemModel.
Import ListNotations. Notation length := List.length. Notation concat := List.concat. Open Scope list_scope.

(** legacy_formatting.py:13-49 *)
Definition LEGACY_FONT_MAPPING : list (str * str) :=
  [(lit "tt", lit "texttt"); (lit "bf", lit "textbf"); (lit "it", lit "textit"); (lit "sl", lit "textsl"); (lit "sc", lit "textsc");
   (lit "sf", lit "textsf"); (lit "rm", lit "textrm"); (lit "em", lit "emph"); (lit "bold", lit "textbf");
   (lit "rmfamily", lit "textrm"); (lit "sffamily", lit "textsf"); (lit "ttfamily", lit "texttt");
   (lit "itshape", lit "textit"); (lit "scshape", lit "textsc"); (lit "upshape", lit "textrm"); (lit "slshape", lit "textsl");
   (lit "bfseries", lit "textbf"); (lit "mdseries", lit "textrm"); (lit "normalfont", lit "textrm");
   (lit "textup", lit "textrm"); (lit "textnormal", lit "textrm"); (lit "textmd", lit "textrm");
   (lit "unboldmath", lit "textrm"); (lit "boldmath", lit "textbf"); (lit "bm", lit "textbf");
   (lit "mathversion{bold}", lit "textbf"); (lit "mathversion{normal}", lit "textrm")].
(** legacy_formatting.py:52-67 *)
Definition LEGACY_SIZE_MAPPING : list (str * str) :=
  [(lit "tiny", lit "texttiny"); (lit "scriptsize", lit "textscriptsize"); (lit "footnotesize", lit "textfootnotesize"); (lit "small", lit "textsmall");
   (lit "normalsize", lit "textnormal"); (lit "large", lit "textlarge"); (lit "Large", lit "textlarge"); (lit "LARGE", lit "textlarge");
   (lit "huge", lit "texthuge"); (lit "Huge", lit "texthuge"); (lit "smaller", lit "textsmall"); (lit "larger", lit "textlarge")].
(** legacy_formatting.py:71-77: the braces of mathversion{bold} are literal *)
Definition switch_pattern (mapping : list (str * str)) : re :=
  RSeq (is_ch c_bs) (RSeq (RGrp 1 (ralt (map (fun n => rstr n) (map fst mapping)))) (RSeq (RAhead true (RChr is_letter)) (RSeq (rstar rspace) (ropt (is_ch c_lb))))).
Definition FONT_PATTERN : re := switch_pattern LEGACY_FONT_MAPPING.
Definition SIZE_PATTERN : re := switch_pattern LEGACY_SIZE_MAPPING.
(** legacy_formatting.py:88 *)
Definition LEGACY_FORMAT_MAPPING : list (str * str) := LEGACY_FONT_MAPPING ++ LEGACY_SIZE_MAPPING.
(** legacy_formatting.py:91 *)
Definition OPENING_BRACE_PATTERN : re := RSeq (RBehind true (N.eqb c_bs)) (is_ch c_lb).

Section Legacy.
Variable w : ch -> bool.
(** legacy_formatting.py:79 *)
Definition COLOR_PATTERN : re :=
  RSeq (is_ch c_bs) (RAlt (rseq [rstr (lit "color"); rstar rspace; ropt (RGrp 1 (rseq [is_ch c_lk; rplus (RChr w); is_ch c_rk])); rstar rspace; is_ch c_lb])
                          (RSeq (rstr (lit "normalcolor")) (RBound w))).
(** legacy_formatting.py:81-85 *)
Definition PATTERNS : list re := [FONT_PATTERN; SIZE_PATTERN; COLOR_PATTERN].

(** legacy_formatting.py:166-188: the loop over the switches and the groups of the
    text; one unit of fuel per round *)
Fixpoint scope_loop (fuel : nat) (pattern : re) (text : str) (pos : nat) : res nat :=
  match fuel with
  | O => Raise NoFuel
  | S f =>
      if Nat.ltb pos (length text) then
        match find_skipping w (RAlt pattern OPENING_BRACE_PATTERN) (S (length text)) text pos None with
        | FRaises => Raise AttributeError
        | FNoFuel => Raise NoFuel
        | FPos None => Ok (length text)
        | FPos (Some out) =>
            match nth_error text out with
            | None => Ok (length text)
            | Some x =>
                if N.eqb x c_lb then
                  scope_loop f pattern text (out + match snd (extract_nested_content (skipn out text) c_lb c_rb) with O => 1 | n => n end)
                else Ok out
            end
        end
      else Ok (length text)
  end.
(** legacy_formatting.py:195-220: the commands at the end of the text, in the order of the mapping *)
Fixpoint trailing (names : list str) (text : str) (found : list str) : str * list str :=
  match names with
  | [] => (text, found)
  | n :: r => if endswith text (c_bs :: n) then trailing r (rstrip (firstn (length text - length (c_bs :: n)) text)) (found ++ [c_bs :: n])
              else trailing r text found
  end.
Definition modern (command text : str) : str := [c_bs] ++ command ++ [c_lb] ++ text ++ [c_rb].
(** [re.match(r"\\" + command, text)]: a command of the table is taken literally; a colour
    model such as [rgb] is a character class *)
Definition off_switch (color : bool) (command text : str) : bool :=
  match text with
  | x :: r => N.eqb x c_bs && (if color then match r with y :: _ => existsb (N.eqb y) (removelast (skipn 1 command)) | [] => false end else startswith r command)
  | [] => false
  end.
(** legacy_formatting.py:142-222: from the end of the switch on; [command] is group 1
    of the match, [None] when there is none *)
Definition apply_switch (pattern : re) (color : bool) (content : str) (command : option str) (modern_command : str) (next_pos : nat) : res (option (str * nat)) :=
  let next_content := skipn next_pos content in
  let next_content := match extract_nested_content (c_lb :: next_content) c_lb c_rb with
                      | (Some (_ :: _), closing_pos) => firstn (closing_pos - 2) next_content
                      | _ => next_content
                      end in
  do end_pos <- match re_search pattern next_content with
                | Some _ => scope_loop (S (length next_content)) pattern next_content 0
                | None => Ok (length next_content)
                end;
  let text := firstn end_pos next_content in
  let total_pos := next_pos + end_pos in
  let formatted :=
    match rstrip text with
    | [] => modern modern_command text
    | _ => match trailing (map fst LEGACY_FORMAT_MAPPING) (rstrip text) [] with
           | (_, []) => modern modern_command text
           | (t, found) => modern modern_command t ++ [c_sp] ++ join [c_sp] (rev found)
           end
    end in
  let total_pos := match command with
                   | Some (x :: c) => if off_switch color (x :: c) (skipn total_pos content) then total_pos + length (x :: c) + 1 else total_pos
                   | _ => total_pos
                   end in
  Ok (Some (formatted, total_pos)).
(** legacy_formatting.py:133-140: a switch in front of a brace *)
Definition apply_group (content modern_command : str) (next_pos : nat) : res (option (str * nat)) :=
  match extract_nested_content (skipn (next_pos - 1) content) c_lb c_rb with
  | (None, _) => Raise AttributeError
  | (Some text, e) => Ok (Some (modern modern_command (strip text), next_pos - 1 + e))
  end.
(** legacy_formatting.py:97-224 for a match of one of the patterns.  The group
    of \color is a bracket, word characters and a bracket: strip does nothing *)
Definition apply (pattern : re) (content : str) (m : mobj) : res (option (str * nat)) :=
  let matched := m_group0 content m in
  if str_eqb matched (lit "\normalcolor") then Ok (Some ([], m_end m)) else
  let command := m_group content 1 m in
  if startswith matched (lit "\color") then
    match extract_nested_content (c_lb :: skipn (m_end m) content) c_lb c_rb with
    | (Some text, e) =>
        apply_switch pattern true content command (lit "textcolor" ++ match command with Some g => g | None => [] end ++ [c_lb] ++ text ++ [c_rb]) (m_end m + (e - 1))
    | (None, _) => apply_group content (lit "textcolor") (m_end m)
    end
  else
    let name := match command with Some c => c | None => [] end in
    let modern_command := match find (fun kv => str_eqb (fst kv) name) LEGACY_FORMAT_MAPPING with Some (_, v) => v | None => name end in
    if endswith matched [c_lb] then apply_group content modern_command (m_end m)
    else apply_switch pattern false content command modern_command (m_end m).
(** legacy_formatting.py:97-103, 224 *)
Fixpoint try_patterns (l : list re) (content : str) : res (option (str * nat)) :=
  match l with
  | [] => Ok None
  | p :: r => match re_match_at p content 0 with Some m => apply p content m | None => try_patterns r content end
  end.
Definition handle (content : str) : res (option (str * nat)) := try_patterns PATTERNS content.
(** legacy_formatting.py:95-96 *)
Definition can_handle (content : str) : bool := existsb (fun p => match re_match_at p content 0 with Some _ => true | None => false end) PATTERNS.
End Legacy.
