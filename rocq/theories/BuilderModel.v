(** Model of latex2json/structure/builder.py (everything except the logging
    and the unused helpers add_token_spaces_if_needed and
    _convert_inline_equations_to_text). *)
From Coq Require Import List NArith ZArith PeanoNat Lia Bool String.
From Verif Require Import PyStr Json.
Import ListNotations.
Notation length := List.length.
Notation concat := List.concat.
Open Scope list_scope.

Definition k_type := lit "type".
Definition k_content := lit "content".
Definition k_title := lit "title".
Definition k_styles := lit "styles".
Definition k_level := lit "level".
Definition k_numbered := lit "numbered".
Definition k_numbering := lit "numbering".
Definition k_depth := lit "depth".
Definition k_display := lit "display".
Definition k_name := lit "name".
Definition k_proof := lit "proof".

(** builder.py:28-29 *)
Definition OPENING_PUNCTUATION : list str := map lit ["("; "["; "{"; "'"]%string ++ [[34%N]].
Definition CLOSING_PUNCTUATION : list str := map lit ["."; ","; "!"; "?"; ":"; ";"; ")"; "]"; "}"]%string.
(** builder.py:15-24.  TokenType compares and hashes like its string value
    (tokens/types.py), so membership is string membership. *)
Definition INLINE_TOKEN_TYPES : list string := ["text"; "citation"; "ref"; "url"; "footnote"; "command"]%string.

(** builder.py:32-42.  DisplayType is a plain Enum: a string is never equal to
    one of its members, so [display != BLOCK] is always true and
    [display == INLINE] always false. *)
Definition is_inline_token (token : val) : bool :=
  match token with
  | VDict d => if is_str (get k_type d) "equation" then true
               else existsb (is_str (get k_type d)) INLINE_TOKEN_TYPES
  | _ => false
  end.

(** [x.startswith(y)] / [x.endswith(y)] on a value: only strings have them. *)
Definition str_of (v : val) : res str := match v with VStr s => Ok s | _ => Raise AttributeError end.
Definition get_default (k : str) (dflt : val) (d : dict) : val :=
  match lookup k d with Some v => v | None => dflt end.

(** builder.py:45-71 *)
Definition should_add_space (current_token previous_token : val) : res bool :=
  match current_token, previous_token with
  | VDict cur, VDict prev =>
      if negb (is_str (get k_type cur) "text") then Ok false
      else if is_inline_token previous_token then
        do content <- str_of (get_default k_content (VStr []) cur);
        let no_space := negb (startswith content (lit " ")) && negb (existsb (startswith content) CLOSING_PUNCTUATION) in
        if no_space && is_str (get k_type prev) "text" then
          do prev_content <- str_of (get_default k_content (VStr []) prev);
          Ok (negb (endswith prev_content (lit " ")) && negb (existsb (endswith prev_content) OPENING_PUNCTUATION))
        else Ok no_space
      else Ok false
  | _, _ => Ok false
  end.

Definition is_text (token : val) : bool :=
  match token with VDict d => is_str (get k_type d) "text" | _ => false end.

(** builder.py:194-221.  [current] is current_text_token, [acc] is
    concatenated_tokens reversed.  The Python [+=] on a non-string content is
    modelled as a TypeError (a list would be extended by characters). *)
Fixpoint concat_loop (tokens : list val) (current : option dict) (acc : list val) : res (list val) :=
  match tokens with
  | [] => Ok (rev (match current with Some c => VDict c :: acc | None => acc end))
  | token :: rest =>
      match token with
      | VDict d =>
          if is_str (get k_type d) "text" then
            match current with
            | None => concat_loop rest (Some d) acc
            | Some c =>
                do next_content <- getitem k_content d;
                if val_eqb (get k_styles c) (get k_styles d) then
                  do add_space <- should_add_space token (VDict c);
                  do cur_content <- getitem k_content c;
                  match cur_content, next_content with
                  | VStr a, VStr b =>
                      concat_loop rest (Some (set k_content (VStr (a ++ (if add_space then lit " " ++ b else b))) c)) acc
                  | _, _ => Raise TypeError
                  end
                else concat_loop rest (Some d) (VDict c :: acc)
            end
          else concat_loop rest None (token :: match current with Some c => VDict c :: acc | None => acc end)
      | _ => concat_loop rest None (token :: match current with Some c => VDict c :: acc | None => acc end)
      end
  end.
Definition concat_text_with_same_styles (tokens : list val) : res (list val) := concat_loop tokens None [].

(** [name.lower()] on ASCII *)
Definition lower_ascii (s : str) : str := map (fun c => if (N.leb 65 c && N.leb c 90)%bool then (c + 32)%N else c) s.
(** builder.py:86-101; a non-string name is an AttributeError in Python *)
Definition math_env_name (token : val) : option (res str) :=
  match token with
  | VDict d => if is_str (get k_type d) "math_env"
               then Some (do n <- str_of (get_default k_name (VStr []) d); Ok (lower_ascii n)) else None
  | _ => None
  end.
Definition is_nonproof_math_env (token : val) : res bool :=
  match math_env_name token with None => Ok false | Some r => do n <- r; Ok (negb (str_eqb n (lit "proof"))) end.
Definition is_proof_env (token : val) : res bool :=
  match math_env_name token with None => Ok false | Some r => do n <- r; Ok (str_eqb n (lit "proof")) end.

(** builder.py:223-252 *)
Fixpoint merge_proofs (fuel : nat) (tokens : list val) : res (list val) :=
  match fuel with
  | O => Raise NoFuel
  | S fuel =>
      match tokens with
      | [] => Ok []
      | cur :: rest =>
          do a <- is_nonproof_math_env cur;
          do b <- (if a then match rest with [] => Ok false | nxt :: _ => is_proof_env nxt end else Ok false);
          match b, cur, rest with
          | true, VDict d, nxt :: rest' =>
              do r <- merge_proofs fuel rest'; Ok (VDict (set k_proof nxt d) :: r)
          | _, _, _ => do r <- merge_proofs fuel rest; Ok (cur :: r)
          end
      end
  end.

(** monadic map *)
Fixpoint mmap {A B} (f : A -> res B) (l : list A) : res (list B) :=
  match l with [] => Ok [] | x :: r => do y <- f x; do ys <- mmap f r; Ok (y :: ys) end.

Section Process.
(** builder.py:114 *)
Variable merge_proof_environments : bool.

(** builder.py:254-296, [recursive_process]; the fuel bounds the recursion
    depth.  Tabular content or rows that are not lists are a TypeError here
    (Python would iterate over the characters of a string). *)
Fixpoint recursive_process (fuel : nat) (tokens : list val) (should_concat : bool) : res (list val) :=
  match fuel with
  | O => Raise NoFuel
  | S fuel =>
      do processed_tokens <- mmap (fun token =>
        match token with
        | VDict d =>
            do d <- match get k_title d with
                    | VList t => do t' <- recursive_process fuel t true; Ok (set k_title (VList t') d)
                    | _ => Ok d
                    end;
            if is_str (get k_type d) "tabular" then
              do content <- getitem k_content d;
              match content with
              | VList rows =>
                  do rows' <- mmap (fun row => match row with
                                               | VList r => do r' <- recursive_process fuel r false; Ok (VList r')
                                               | _ => Raise TypeError
                                               end) rows;
                  Ok (VDict (set k_content (VList rows') d))
              | _ => Raise TypeError
              end
            else match get k_content d with
                 | VList c => do c' <- recursive_process fuel c true; Ok (VDict (set k_content (VList c') d))
                 | _ => Ok (VDict d)
                 end
        | VList l => do l' <- recursive_process fuel l true; Ok (VList l')
        | _ => Ok token
        end) tokens;
      do merged_tokens <- (if merge_proof_environments
                           then merge_proofs (S (length processed_tokens)) processed_tokens
                           else Ok processed_tokens);
      if should_concat then concat_text_with_same_styles merged_tokens else Ok merged_tokens
  end.
Definition process_tokens (in_tokens : list val) : res (list val) :=
  recursive_process (S (lsize in_tokens)) in_tokens true.
End Process.

(** The counters of a TokenBuilder (builder.py:122-130). *)
Record counters := { section_numbers : list (Z * nat); math_env_number : nat; equation_number : nat;
                     table_env_number : nat; figure_env_number : nat; algorithm_number : nat }.
(** builder.py:122-133 *)
Definition cleared : counters :=
  {| section_numbers := [(1%Z, 0); (2%Z, 0); (3%Z, 0)]; math_env_number := 0; equation_number := 0;
     table_env_number := 0; figure_env_number := 0; algorithm_number := 0 |}.
Definition reset_numbering (st : counters) : counters := cleared.
Definition with_sections (st : counters) (m : list (Z * nat)) : counters :=
  {| section_numbers := m; math_env_number := math_env_number st; equation_number := equation_number st;
     table_env_number := table_env_number st; figure_env_number := figure_env_number st;
     algorithm_number := algorithm_number st |}.
Definition with_math (st : counters) (n : nat) : counters :=
  {| section_numbers := section_numbers st; math_env_number := n; equation_number := equation_number st;
     table_env_number := table_env_number st; figure_env_number := figure_env_number st;
     algorithm_number := algorithm_number st |}.

Fixpoint zget (k : Z) (m : list (Z * nat)) : res nat :=
  match m with [] => Raise KeyError | (k', v) :: r => if Z.eqb k k' then Ok v else zget k r end.
Fixpoint zset (k : Z) (v : nat) (m : list (Z * nat)) : list (Z * nat) :=
  match m with [] => [(k, v)] | (k', w) :: r => if Z.eqb k k' then (k', v) :: r else (k', w) :: zset k v r end.
(** [range(a, b)] *)
Definition zrange (a b : Z) : list Z := map (fun i => (a + Z.of_nat i)%Z) (seq 0 (Z.to_nat (b - a))).
Definition zmax_key (m : list (Z * nat)) : Z := fold_left Z.max (map fst m) 0%Z.

(** [chr(n)] *)
Definition chr (n : nat) : res str := if N.ltb (N.of_nat n) 1114112 then Ok [N.of_nat n] else Raise ValueError.

Definition as_int (v : val) : res Z := match v with VInt z => Ok z | _ => Raise TypeError end.

(** builder.py:135-163.  A level that is not an int is a TypeError. *)
Definition update_section_numbering (st : counters) (token : dict) (reset_lower_levels in_appendix : bool)
  : res (counters * dict) :=
  if negb (truthy (get_default k_numbered (VBool true) token)) then Ok (st, token)
  else
    do level <- as_int (get_default k_level (VInt 1) token);
    let m := section_numbers st in
    let m := if reset_lower_levels
             then fold_left (fun m l => zset l 0 m) (zrange (level + 1) (zmax_key m + 1)) m else m in
    do n <- zget level m;
    let m := zset level (n + 1) m in
    do n1 <- zget 1 m;
    do first_num <- (if in_appendix then chr (64 + n1) else Ok (str_of_nat n1));
    do others <- mmap (fun l => do n <- zget l m; Ok (str_of_nat n)) (zrange 2 (level + 1));
    Ok (with_sections st m, set k_numbering (VStr (join (lit ".") (first_num :: others))) token).

(** builder.py:165-185 and 316-328 *)
Definition check_update_numbering (st : counters) (token : dict) : res (counters * dict) :=
  if truthy (get k_numbered token) then
    do ty <- getitem k_type token;
    if is_str ty "equation" then
      let n := equation_number st + 1 in
      Ok ({| section_numbers := section_numbers st; math_env_number := math_env_number st; equation_number := n;
             table_env_number := table_env_number st; figure_env_number := figure_env_number st;
             algorithm_number := algorithm_number st |}, set k_numbering (VStr (str_of_nat n)) token)
    else if is_str ty "algorithm" then
      let n := algorithm_number st + 1 in
      Ok ({| section_numbers := section_numbers st; math_env_number := math_env_number st;
             equation_number := equation_number st;
             table_env_number := table_env_number st; figure_env_number := figure_env_number st;
             algorithm_number := n |}, set k_numbering (VStr (str_of_nat n)) token)
    else if is_str ty "math_env" then
      let n := math_env_number st + 1 in
      do s <- zget 1 (section_numbers st);
      Ok (with_math st n, set k_numbering (VStr (str_of_nat s ++ lit "." ++ str_of_nat n)) token)
    else if is_str ty "table" then
      let n := table_env_number st + 1 in
      Ok ({| section_numbers := section_numbers st; math_env_number := math_env_number st;
             equation_number := equation_number st;
             table_env_number := n; figure_env_number := figure_env_number st;
             algorithm_number := algorithm_number st |}, set k_numbering (VStr (str_of_nat n)) token)
    else if is_str ty "figure" then
      let n := figure_env_number st + 1 in
      Ok ({| section_numbers := section_numbers st; math_env_number := math_env_number st;
             equation_number := equation_number st;
             table_env_number := table_env_number st; figure_env_number := n;
             algorithm_number := algorithm_number st |}, set k_numbering (VStr (str_of_nat n)) token)
    else Ok (st, token)
  else Ok (st, token).

(** The Python code keeps references to tokens whose content list still grows.
    Here such a token is a cell: its dict and its growing content; lists hold
    closed values and references to cells. *)
Inductive item := IVal (v : val) | IRef (id : nat).
Record cell := { c_tok : dict; c_items : list item }.
(** Local variables of one call of _recursive_organize: organized, the cells,
    root ([None] = organized), the two stacks (top first), in_appendix. *)
Record frame := { organized : list item; cells : list cell; root : option nat;
                  section_stack : list nat; paragraph_stack : list nat; f_app : bool }.

Fixpoint upd_cell (id : nat) (x : item) (cs : list cell) : list cell :=
  match cs, id with
  | [], _ => []
  | c :: r, O => {| c_tok := c_tok c; c_items := c_items c ++ [x] |} :: r
  | c :: r, S id => c :: upd_cell id x r
  end.
(** [target.append(x)] *)
Definition append_to (f : frame) (target : option nat) (x : item) : frame :=
  match target with
  | None => {| organized := organized f ++ [x]; cells := cells f; root := root f;
               section_stack := section_stack f; paragraph_stack := paragraph_stack f; f_app := f_app f |}
  | Some id => {| organized := organized f; cells := upd_cell id x (cells f); root := root f;
                  section_stack := section_stack f; paragraph_stack := paragraph_stack f; f_app := f_app f |}
  end.
(** a new token object with content [items]; its id is the number of cells *)
Definition new_cell (f : frame) (tok : dict) (items : list item) : frame :=
  {| organized := organized f; cells := cells f ++ [{| c_tok := tok; c_items := items |}]; root := root f;
     section_stack := section_stack f; paragraph_stack := paragraph_stack f; f_app := f_app f |}.

(** builder.py:336-341 *)
Definition get_current_target (f : frame) : option nat :=
  match paragraph_stack f with
  | id :: _ => Some id
  | [] => match section_stack f with id :: _ => Some id | [] => root f end
  end.

(** the dict of a stacked token *)
Definition cell_tok (f : frame) (id : nat) : dict := match nth_error (cells f) id with Some c => c_tok c | None => [] end.

(** builder.py:300-303, the while loop *)
Fixpoint pop_stack (f : frame) (token : dict) (stack : list nat) : res (list nat) :=
  match stack with
  | [] => Ok []
  | id :: rest =>
      do l <- getitem k_level (cell_tok f id);
      do l <- as_int l;
      do l' <- getitem k_level token;
      do l' <- as_int l';
      if Z.leb l' l then pop_stack f token rest else Ok stack
  end.

Definition with_stacks (f : frame) (s p : list nat) : frame :=
  {| organized := organized f; cells := cells f; root := root f; section_stack := s; paragraph_stack := p; f_app := f_app f |}.

(** builder.py:298-314 for sections (parent_stack=None) *)
Definition manage_section (f : frame) (token : dict) : res frame :=
  do stack <- pop_stack f token (section_stack f);
  let target := match stack with id :: _ => Some id | [] => root f end in
  let id := length (cells f) in
  let f := append_to f target (IRef id) in
  let f := new_cell f token [] in
  Ok (with_stacks f (id :: stack) (paragraph_stack f)).
(** builder.py:298-314 for paragraphs (parent_stack=section_stack) *)
Definition manage_paragraph (f : frame) (token : dict) : res frame :=
  do stack <- pop_stack f token (paragraph_stack f);
  let target := match section_stack f with
                | id :: _ => Some id
                | [] => match stack with id :: _ => Some id | [] => root f end
                end in
  let id := length (cells f) in
  let f := append_to f target (IRef id) in
  let f := new_cell f token [] in
  Ok (with_stacks f (section_stack f) (id :: stack)).

(** Reading the finished object graph: a reference is the token with its
    content. *)
Fixpoint materialize (fuel : nat) (cs : list cell) (items : list item) : list val :=
  match fuel with
  | O => []
  | S fuel =>
      map (fun it => match it with
                     | IVal v => v
                     | IRef id => match nth_error cs id with
                                  | Some c => VDict (set k_content (VList (materialize fuel cs (c_items c))) (c_tok c))
                                  | None => VNone
                                  end
                     end) items
  end.
Definition finish (f : frame) : list val := materialize (S (length (cells f))) (cells f) (organized f).

Definition init_frame (in_appendix : bool) : frame :=
  {| organized := []; cells := []; root := None; section_stack := []; paragraph_stack := []; f_app := in_appendix |}.

(** builder.py:330-409, the for loop over the tokens; [rec] is the recursive
    call.  An appendix whose content is a non-empty non-list is a TypeError here
    (Python would iterate over a string).  When an exception leaves the loop the
    counters are those of the last completed step (Python may have already reset
    lower section counters; the next document clears them all). *)
Fixpoint org_loop (rec : counters -> list val -> bool -> nat -> counters * res (list val)) (list_depth : nat)
    (st : counters) (f : frame) (tokens : list val) {struct tokens} : counters * res (list val) :=
  match tokens with
  | [] => (st, Ok (finish f))
  | token :: rest =>
      match token with
      | VDict d =>
          match getitem k_type d with
          | Raise e => (st, Raise e)
          | Ok ty =>
              if is_str ty "appendix" then
                let st := with_sections st (section_numbers cleared) in
                let '(st, inner) :=
                  if negb (truthy (get k_content d)) then (st, Ok [])
                  else match get k_content d with
                       | VList c => rec st c true list_depth
                       | _ => (st, Raise TypeError)
                       end in
                match inner with
                | Raise e => (st, Raise e)
                | Ok inner =>
                    let id := length (cells f) in
                    let f := {| organized := organized f ++ [IRef id];
                                cells := cells f ++ [{| c_tok := d; c_items := map IVal inner |}]; root := Some id;
                                section_stack := []; paragraph_stack := []; f_app := true |} in
                    org_loop rec list_depth st f rest
                end
              else
                match check_update_numbering st d with
                | Raise e => (st, Raise e)
                | Ok (st, d) =>
                    let depth := if is_str ty "list" then list_depth + 1 else list_depth in
                    let d := if is_str ty "list" then set k_depth (VInt (Z.of_nat depth)) d else d in
                    let '(st, r) :=
                      match get k_content d with
                      | VList c =>
                          let '(st, r) := rec st c (f_app f) depth in
                          (st, match r with Ok c' => Ok (set k_content (VList c') d) | Raise e => Raise e end)
                      | _ => (st, Ok d)
                      end in
                    match r with
                    | Raise e => (st, Raise e)
                    | Ok d =>
                        if is_str ty "bibliography" then
                          org_loop rec list_depth st (append_to (with_stacks f [] []) None (IVal (VDict d))) rest
                        else if is_str ty "section" then
                          match update_section_numbering st d true (f_app f) with
                          | Raise e => (st, Raise e)
                          | Ok (st, d) =>
                              let st := match get k_level d with VInt 1 => with_math st 0 | _ => st end in
                              match manage_section (with_stacks f (section_stack f) []) d with
                              | Raise e => (st, Raise e)
                              | Ok f => org_loop rec list_depth st f rest
                              end
                          end
                        else if is_str ty "paragraph" then
                          match manage_paragraph f d with
                          | Raise e => (st, Raise e)
                          | Ok f => org_loop rec list_depth st f rest
                          end
                        else org_loop rec list_depth st (append_to f (get_current_target f) (IVal (VDict d))) rest
                    end
                end
          end
      | _ => org_loop rec list_depth st (append_to f (get_current_target f) (IVal token)) rest
      end
  end.
(** builder.py:330-409; [n] bounds the recursion depth. *)
Fixpoint recursive_organize (n : nat) (st : counters) (tokens : list val) (in_appendix : bool) (list_depth : nat)
  {struct n} : counters * res (list val) :=
  match n with
  | O => (st, Raise NoFuel)
  | S n => org_loop (recursive_organize n) list_depth st (init_frame in_appendix) tokens
  end.

(** builder.py:411-423.  The builder object is its counters; the input is
    deep-copied, so the call is a function of the counters and the tokens. *)
Definition organize_content (merge_proof : bool) (st : counters) (in_tokens : list val) : counters * res (list val) :=
  let st := reset_numbering st in
  match process_tokens merge_proof in_tokens with
  | Raise e => (st, Raise e)
  | Ok tokens => recursive_organize (S (lsize tokens)) st tokens false 0
  end.
