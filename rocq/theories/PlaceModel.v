(** Model of the placeholder passes: verbatim blocks and restoration
    (latex2json/parser/tex_preprocessor.py:58-65, 328-362), table structures
    (latex2json/parser/handlers/tabular.py:195-245, 350-354) and references
    (latex2json/parser/flatten.py:5-28, tabular.py:382-415). *)
From Coq Require Import List NArith ZArith PeanoNat Lia Bool String.
From Verif Require Import PyStr Regex Json TexUtilsModel BuilderModel FactoryModel TableModel.
Import ListNotations.
Notation length := List.length.
Notation concat := List.concat.
Open Scope list_scope.

(** tex_preprocessor.py:58-65; dictionaries are lists in insertion order *)
Definition restore_placeholder_blocks (content : str) (blocks : list (str * str)) : str :=
  fold_left (fun c kb => replace (fst kb) (snd kb) c) blocks content.

(** * Verbatim blocks *)
(** a compiled pattern: [search(content, pos)] gives start and end *)
Definition searcher := str -> nat -> option (nat * nat).
Definition of_re (r : re) : searcher := fun t pos => option_map (fun m => (m_start m, m_end m)) (re_search_from r t pos).

(** code_block.py:7-9, tex_preprocessor.py:32-37:
    r"\\begin\s*\{name\}(.*?)\\end\s*\{name\}" with DOTALL *)
Definition env_pattern (name : str) : re :=
  rseq [rstr (lit "\begin"); rstar rspace; rstr (c_lb :: name ++ [c_rb]); RGrp 1 (rlazy rany);
        rstr (lit "\end"); rstar rspace; rstr (c_lb :: name ++ [c_rb])].
(** code_block.py:10-13 *)
Definition lstlisting_pattern : re :=
  rseq [rstr (lit "\begin"); rstar rspace; rstr (lit "{lstlisting}");
        ropt (rseq [is_ch c_lk; RGrp 1 (rstar (RChr (fun x => negb (N.eqb x c_rk)))); is_ch c_rk]);
        RGrp 2 (rlazy rany); rstr (lit "\end"); rstar rspace; rstr (lit "{lstlisting}")].
(** tex_preprocessor.py:38-42; the back reference \1 ranges over three fixed
    names, so the pattern is the alternative of three patterns *)
Definition picture_pattern : re :=
  ralt [env_pattern (lit "picture"); env_pattern (lit "tikzpicture"); env_pattern (lit "pgfpicture")].
(** code_block.py:14-16 r"\\verb\*?([^a-zA-Z])(.*?)\1": the text from the
    delimiter on; the dot does not match a newline *)
Definition ascii_letter (x : ch) : bool := in_range 65 90 x || in_range 97 122 x.
Fixpoint verb_close (d : ch) (s : str) : option nat :=
  match s with
  | [] => None
  | x :: r => if N.eqb x d then Some 1 else if N.eqb x c_nl then None else option_map S (verb_close d r)
  end.
Definition verb_body (s : str) : option nat :=
  match s with
  | [] => None
  | d :: r => if ascii_letter d then None else option_map S (verb_close d r)
  end.
(** length of the match at the start of [s]: with the star, else without it *)
Definition verb_match (s : str) : option nat :=
  if startswith s (lit "\verb") then
    let r := skipn 5 s in
    match (match r with x :: q => if N.eqb x 42 then option_map (fun n => 6 + n) (verb_body q) else None | [] => None end) with
    | Some n => Some n
    | None => option_map (fun n => 5 + n) (verb_body r)
    end
  else None.
Fixpoint verb_find (s : str) (i : nat) : option (nat * nat) :=
  match verb_match s with
  | Some n => Some (i, i + n)
  | None => match s with [] => None | _ :: r => verb_find r (S i) end
  end.
Definition verb_search : searcher := fun t pos => verb_find (skipn pos t) pos.
(** tex_preprocessor.py:31-42, in the order of the list *)
Definition ALL_VERBATIM_PATTERNS : list searcher :=
  [of_re (env_pattern (lit "verbatim")); of_re lstlisting_pattern; verb_search;
   of_re (env_pattern (lit "algorithm")); of_re (env_pattern (lit "algorithmic")); of_re picture_pattern].

(** tex_preprocessor.py:340-347 *)
Definition earliest_match (patterns : list searcher) (content : str) (pos : nat) : option (nat * nat) :=
  snd (fold_left (fun (st : nat * option (nat * nat)) (p : searcher) =>
         match p content pos with
         | Some (s, e) => if Nat.ltb s (fst st) then (s, Some (s, e)) else st
         | None => st
         end) patterns (length content, None)).
(** tex_preprocessor.py:334, 353 *)
Definition verbatim_key (i : nat) : str := lit "__VERBATIM_BLOCK__" ++ str_of_nat i ++ lit "__".
(** tex_preprocessor.py:339-360 at [pos]; one unit of fuel per round *)
Fixpoint verbatim_loop (fuel : nat) (patterns : list searcher) (content : str) (index pos : nat) : str * list (str * str) :=
  match fuel with
  | O => ([], [])
  | S f =>
      if Nat.ltb pos (length content) then
        match earliest_match patterns content pos with
        | Some (s, e) =>
            let '(out, blocks) := verbatim_loop f patterns content (S index) e in
            (slice pos s content ++ verbatim_key index ++ out, (verbatim_key index, slice s e content) :: blocks)
        | None => (skipn pos content, [])
        end
      else ([], [])
  end.
(** tex_preprocessor.py:328-362 *)
Definition extract_verbatim_blocks (content : str) : str * list (str * str) :=
  verbatim_loop (S (length content)) ALL_VERBATIM_PATTERNS content 0 0.

(** * Table structures *)
(** tabular.py:225 *)
Definition struct_key (i : nat) : str := lit "`|TABLE_STRUCT_" ++ str_of_nat i ++ lit "|`".
(** tabular.py:208-243, the inner while loop of one pattern: the text is
    [before ++ after] with [pos = len(before)]; one unit of fuel per round *)
Fixpoint struct_loop (fuel : nat) (pattern : re) (block_count : nat) (counter : nat) (refs : list (str * str)) (before after : str)
  : option (str * nat * list (str * str)) :=
  match fuel with
  | O => None
  | S f =>
      match re_search pattern after with
      | None => Some (before ++ after, counter, refs)
      | Some m =>
          let start_pos := m_end m - 1 in
          let '(blocks, end_pos) := extract_nested_content_sequence_blocks (skipn start_pos after) c_lb c_rb (Some block_count) in
          match blocks with
          | [] => struct_loop f pattern block_count counter refs (before ++ firstn (start_pos + 1) after) (skipn (start_pos + 1) after)
          | _ => struct_loop f pattern block_count (S counter)
                   (refs ++ [(struct_key counter, slice (m_start m) (start_pos + end_pos) after)])
                   (before ++ firstn (m_start m) after ++ struct_key counter) (skipn (start_pos + end_pos) after)
          end
      end
  end.
(** tabular.py:201-206 *)
Definition struct_patterns : list (re * nat) :=
  [(MULTICOLUMN_PATTERN, 2); (MULTIROW_PATTERN, 2); (MAKECELL_SHORTSTACK_PATTERN, 1)].
(** tabular.py:195-245; [None] = out of fuel (proved unreachable) *)
Definition extract_table_structures (content : str) : option (str * list (str * str)) :=
  option_map (fun st => let '(c, _, refs) := st in (c, refs))
    (fold_left (fun st p => match st with
        | None => None
        | Some (c, n, refs) => struct_loop (S (length c)) (fst p) (snd p) n refs [] c end)
      struct_patterns (Some (content, 0, []))).

(** * References *)
(** flatten.py:22 *)
Definition ref_key (i : nat) : str := lit "`|REF_" ++ str_of_nat i ++ lit "|`".
(** flatten.py:13-26, tokens are dictionaries *)
Fixpoint flatten_go (counter : nat) (tokens : list dict) : res (str * list (str * dict)) :=
  match tokens with
  | [] => Ok ([], [])
  | token :: r =>
      do ty <- getitem k_type token;
      do plain <- (if is_str ty "text" then
          do c <- getitem k_content token;
          Ok (match c, lookup k_styles token with VStr s, None => Some s | _, _ => None end)
        else Ok None);
      match plain with
      | Some s => do rest <- flatten_go counter r; Ok (s ++ fst rest, snd rest)
      | None => do rest <- flatten_go (S counter) r; Ok (ref_key counter ++ fst rest, (ref_key counter, token) :: snd rest)
      end
  end.
Definition flatten_tokens (tokens : list dict) : res (str * list (str * dict)) := flatten_go 1 tokens.

(** tabular.py:382-415: the text of a cell cut at the references; [rest] =
    content[current_pos:] *)
Definition text_chunk (s : str) : list dict := match s with [] => [] | _ => [[(k_type, VStr (lit "text")); (k_content, VStr s)]] end.
Fixpoint reference_chunks (refs : list (str * dict)) (rest : str) : list dict :=
  match refs with
  | [] => text_chunk rest
  | (key, token) :: r =>
      match find_sub key rest with
      | Some p => text_chunk (firstn p rest) ++ token :: reference_chunks r (skipn (p + length key) rest)
      | None => reference_chunks r rest
      end
  end.
