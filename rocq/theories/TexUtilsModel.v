(** Model of latex2json/utils/tex_utils.py, delimiter handling and comments.

    Positions are [nat]; a Python result [(-1, -1)] is [None].  A [while i <
    len(text)] loop that only moves forward by one is structural recursion on
    the not-yet-read suffix [rest] = text[i:]; the index [i] and the whole
    [text] are kept as in the code, because [is_escaped] looks backwards in the
    whole text. *)
From Coq Require Import List NArith PeanoNat Bool.
From Verif Require Import PyStr.
Import ListNotations.

(** tex_utils.py:8-15 (and the identical copy at 310-317).  [text[pos]] outside
    the text would raise IndexError in Python; all callers pass pos < len(text),
    here it simply stops the count. *)
Fixpoint count_preceding_backslashes (text : str) (pos : nat) : nat :=
  match pos with
  | O => 0
  | S p => match nth_error text p with
           | Some c => if N.eqb c c_bs then S (count_preceding_backslashes text p) else 0
           | None => 0
           end
  end.

(** tex_utils.py:18-20 (and 320-322) *)
Definition is_escaped (pos : nat) (text : str) : bool :=
  Nat.odd (count_preceding_backslashes text pos).

(** tex_utils.py:42-54, the scanning loop of [find_matching_delimiter];
    [stack] is the Python list with its top first. *)
Fixpoint fmd_loop (o c : ch) (text : str) (start i : nat) (stack : list nat) (rest : str)
  : option (nat * nat) :=
  match rest with
  | [] => None
  | x :: r =>
      if N.eqb x o && negb (is_escaped i text) then
        fmd_loop o c text start (S i) (i :: stack) r
      else if N.eqb x c && negb (is_escaped i text) then
        match stack with
        | [] => None
        | _ :: stack' =>
            match stack' with
            | [] => Some (start, S i)
            | _ => fmd_loop o c text start (S i) stack' r
            end
        end
      else fmd_loop o c text start (S i) stack r
  end.

(** tex_utils.py:23-56 *)
Definition find_matching_delimiter (text : str) (o c : ch) (start : nat) : option (nat * nat) :=
  let start := start + nlead (skipn start text) in
  match skipn start text with
  | [] => None
  | x :: _ =>
      if N.eqb x o then fmd_loop o c text start start [] (skipn start text) else None
  end.

(** tex_utils.py:59-74 *)
Definition extract_nested_content (text : str) (o c : ch) : option str * nat :=
  match find_matching_delimiter text o c 0 with
  | None => (None, 0)
  | Some (s, e) => (Some (slice (s + 1) (e - 1) text), e)
  end.

(** tex_utils.py:77-111.  [max_blocks = None] is the default float("inf").
    One unit of fuel per round of the outer loop; [None] = out of fuel (proved
    unreachable in [seq_blocks_total]).  The inner whitespace loop (94-96) is
    [nlead]/[skipn]. *)
Fixpoint seq_blocks_loop (fuel : nat) (o c : ch) (max_blocks : option nat) (i : nat)
    (current_text : str) (total_pos last_valid_pos : nat) (blocks : list str)
  : option (list str * nat) :=
  match fuel with
  | O => None
  | S fuel =>
      if match max_blocks with None => true | Some m => Nat.ltb i m end then
        let n := nlead current_text in
        let current_text := skipn n current_text in
        let total_pos := total_pos + n in
        match extract_nested_content current_text o c with
        | (content, next_pos) =>
            if Nat.eqb next_pos 0 then Some (blocks, last_valid_pos)
            else
              let b := match content with Some b => b | None => [] end in
              seq_blocks_loop fuel o c max_blocks (S i) (skipn next_pos current_text)
                (total_pos + next_pos) (total_pos + next_pos) (blocks ++ [b])
        end
      else Some (blocks, last_valid_pos)
  end.

Definition extract_nested_content_sequence_blocks (text : str) (o c : ch) (max_blocks : option nat)
  : list str * nat :=
  match seq_blocks_loop (S (length text)) o c max_blocks 0 text 0 0 [] with
  | Some r => r
  | None => ([], 0)
  end.

(** tex_utils.py:387-401; the stack of characters is kept as a list. *)
Fixpoint cdb_loop (o c : ch) (text : str) (i : nat) (stack : list ch) (rest : str) : bool :=
  match rest with
  | [] => match stack with [] => true | _ => false end
  | x :: r =>
      if N.eqb x o && negb (is_escaped i text) then cdb_loop o c text (S i) (x :: stack) r
      else if N.eqb x c && negb (is_escaped i text) then
        match stack with
        | [] => false
        | _ :: stack' => cdb_loop o c text (S i) stack' r
        end
      else cdb_loop o c text (S i) stack r
  end.
Definition check_delimiter_balance (text : str) (o c : ch) : bool := cdb_loop o c text 0 [] text.

(** tex_utils.py:404-424; None is -1.  [rest] is content[i:]. *)
Fixpoint fde_loop (delim content : str) (i : nat) (stack : list ch) (rest : str) : option nat :=
  match rest with
  | [] => None
  | x :: r =>
      if N.eqb x c_lb && negb (is_escaped i content) then
        fde_loop delim content (S i) (c_lb :: stack) r
      else if N.eqb x c_rb && negb (is_escaped i content) then
        match stack with
        | [] => fde_loop delim content (S i) [] r
        | _ :: stack' => fde_loop delim content (S i) stack' r
        end
      else if startswith rest delim && negb (is_escaped i content)
              && match stack with [] => true | _ => false end then
        Some (i + length delim)
      else fde_loop delim content (S i) stack r
  end.
Definition find_delimiter_end (content : str) (start_pos : nat) (delim : str) : option nat :=
  fde_loop delim content start_pos [] (skipn start_pos content).

(** tex_utils.py:427-447 *)
Definition extract_equation_content (content delim : str) : str * nat :=
  if negb (startswith content delim) then ([], 0)
  else
    let start := length delim in
    match find_delimiter_end content start delim with
    | None => ([], 0)
    | Some e => (strip (slice start (e - length delim) content), e)
    end.

(** tex_utils.py:450-471; returns (req, opt, end_pos). *)
Definition extract_args (content : str) (req_args opt_args : nat) : list str * list str * nat :=
  let '(opt, end_pos, content) :=
    if Nat.ltb 0 opt_args then
      let '(opt, e) := extract_nested_content_sequence_blocks content c_lk c_rk (Some opt_args) in
      (opt, e, if Nat.ltb 0 e then skipn e content else content)
    else ([], 0, content) in
  if Nat.ltb 0 req_args then
    let '(req, e) := extract_nested_content_sequence_blocks content c_lb c_rb (Some req_args) in
    (req, opt, e)
  else ([], opt, end_pos).

(** tex_utils.py:568-598, the for loop of [extract_delimited_args]; a result is
    [None] for an absent optional argument.  [current_pos -= 1] on line 577 is
    dead (the value is not used after the break), so it is not modelled. *)
Fixpoint eda_loop (content : str) (spec : str) (current_pos total_end_pos : nat)
    (results : list (option str)) : list (option str) * nat :=
  match spec with
  | [] => (results, total_end_pos)
  | d :: spec' =>
      let current_pos := current_pos + nlead (skipn current_pos content) in
      match skipn current_pos content with
      | [] => (results, total_end_pos)
      | x :: _ =>
          if negb (N.eqb x c_lb || N.eqb x c_lk) then (results, total_end_pos)
          else if N.eqb d c_lb then
            match extract_nested_content (skipn current_pos content) c_lb c_rb with
            | (None, _) => (results, current_pos)
            | (Some b, e) =>
                eda_loop content spec' (current_pos + e) (current_pos + e) (results ++ [Some b])
            end
          else if N.eqb d c_lk then
            match extract_nested_content (skipn current_pos content) c_lk c_rk with
            | (Some b, e) =>
                eda_loop content spec' (current_pos + e) (current_pos + e) (results ++ [Some b])
            | (None, _) => eda_loop content spec' current_pos total_end_pos (results ++ [None])
            end
          else eda_loop content spec' current_pos total_end_pos results
      end
  end.
(** tex_utils.py:537-598 *)
Definition extract_delimited_args (content spec : str) : list (option str) * nat :=
  eda_loop content spec 0 0 [].

(** tex_utils.py:340-355, one line of [strip_latex_comments] before [rstrip] *)
Fixpoint slc_line (line : str) (i : nat) (rest : str) : str :=
  match rest with
  | [] => []
  | x :: r =>
      if N.eqb x c_pct then
        if negb (is_escaped i line) then [] else c_pct :: slc_line line (S i) r
      else x :: slc_line line (S i) r
  end.

(** tex_utils.py:325-356 *)
Definition strip_latex_comments (text : str) : str :=
  join [c_nl] (map (fun line => rstrip (slc_line line 0 line)) (splitlines text)).

(** tex_utils.py:288-307.  [content.rfind("\n", 0, pos)]: position of the last
    newline before [pos]. *)
Fixpoint line_start_of (content : str) (pos : nat) : nat :=
  match pos with
  | O => 0
  | S p => match nth_error content p with
           | Some c => if N.eqb c c_nl then S p else line_start_of content p
           | None => line_start_of content p
           end
  end.
Fixpoint hcs_loop (prev : option ch) (rest : str) : bool :=
  match rest with
  | [] => false
  | x :: r =>
      if N.eqb x c_pct &&
         match prev with None => true | Some p => negb (N.eqb p c_bs) end
      then true
      else hcs_loop (Some x) r
  end.
Definition has_comment_on_sameline (content : str) (pos : nat) : bool :=
  hcs_loop None (slice (line_start_of content pos) pos content).
