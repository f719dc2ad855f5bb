(** Model of latex2json/parser/handlers/if_else_statements.py:80-158
    (extract_else_elseif_fi).  The four compiled patterns are arbitrary search
    functions: [search(text)] gives start, end and group(1) of the first match. *)
From Coq Require Import List NArith PeanoNat Lia Bool String.
From Verif Require Import PyStr Regex Json.
Import ListNotations. Notation length := List.length. Notation concat := List.concat. Open Scope list_scope.

Definition msearch := str -> option (nat * nat * option str).

(** the list objects of the function: [current_buffer] is the object
    [if_content], the object [else_content] or a list of its own *)
Inductive which := CIf | CElse | CBuf (l : list str).
Record ifstate := { if_content : list str; else_content : list str; elsif_branches : list (option str * str); current : which }.
Definition buffer (st : ifstate) : list str :=
  match current st with CIf => if_content st | CElse => else_content st | CBuf l => l end.
(** current_buffer.append(s) *)
Definition push (s : str) (st : ifstate) : ifstate :=
  match current st with
  | CIf => {| if_content := if_content st ++ [s]; else_content := else_content st; elsif_branches := elsif_branches st; current := CIf |}
  | CElse => {| if_content := if_content st; else_content := else_content st ++ [s]; elsif_branches := elsif_branches st; current := CElse |}
  | CBuf l => {| if_content := if_content st; else_content := else_content st; elsif_branches := elsif_branches st; current := CBuf (l ++ [s]) |}
  end.
Fixpoint strs_eqb (a b : list str) : bool :=
  match a, b with [], [] => true | x :: a, y :: b => str_eqb x y && strs_eqb a b | _, _ => false end.
(** elsif_branches[-1] = (condition, content); [None] when the list is empty *)
Definition set_last (content : str) (l : list (option str * str)) : option (list (option str * str)) :=
  match rev l with [] => None | (c, _) :: r => Some (rev r ++ [(c, content)]) end.

Inductive mkind := KStart | KEnd | KElse | KElsif.
(** lines 101-113: the matches considered, in this order *)
Definition valid_matches (S_ E_ L_ X_ : msearch) (level : nat) (rest : str) : list (nat * nat * option str * mkind) :=
  (match S_ rest with Some m => [(m, KStart)] | None => [] end) ++
  (match E_ rest with Some m => [(m, KEnd)] | None => [] end) ++
  (if Nat.eqb level 1 then match L_ rest with Some m => [(m, KElse)] | None => [] end else []) ++
  (if Nat.eqb level 1 then match X_ rest with Some m => [(m, KElsif)] | None => [] end else []).
(** line 118: min by start, the first of equals *)
Fixpoint min_match (l : list (nat * nat * option str * mkind)) : option (nat * nat * option str * mkind) :=
  match l with
  | [] => None
  | m :: r => match min_match r with
              | None => Some m
              | Some m' => if Nat.leb (fst (fst (fst m))) (fst (fst (fst m'))) then Some m else Some m'
              end
  end.
Definition join_strip (l : list str) : str := strip (List.concat l).
(** lines 127-151: what a marker does after the text was added *)
Definition after_marker (k : mkind) (g : option str) (level : nat) (st : ifstate) : res (nat * ifstate) :=
  match k with
  | KStart => Ok (S level, st)
  | KEnd => Ok (level - 1, st)
  | KElse =>
      let br := match set_last (join_strip (buffer st)) (elsif_branches st) with Some b => b | None => elsif_branches st end in
      Ok (level, {| if_content := if_content st; else_content := else_content st; elsif_branches := br; current := CElse |})
  | KElsif =>
      let content := join_strip (buffer st) in
      do st1 <- (if match current st with CIf => true | _ => strs_eqb (buffer st) (if_content st) end
                 then Ok ([content], elsif_branches st)
                 else match set_last content (elsif_branches st) with Some b => Ok (if_content st, b) | None => Raise IndexError end);
      Ok (level, {| if_content := fst st1; else_content := else_content st; elsif_branches := snd st1 ++ [(g, [])]; current := CBuf [] |})
  end.
(** lines 99-153 at [pos]; [rest] = content[pos:]; one unit of fuel per round *)
Fixpoint if_loop (fuel : nat) (S_ E_ L_ X_ : msearch) (level pos : nat) (rest : str) (st : ifstate) : res (ifstate * nat) :=
  match fuel with
  | O => Raise NoFuel
  | S f =>
      if nilb rest || Nat.eqb level 0 then Ok (st, pos)
      else match min_match (valid_matches S_ E_ L_ X_ level rest) with
           | None => Raise ValueError
           | Some (s, e, g, k) =>
               let top := Nat.eqb level 1 && match k with KStart => false | _ => true end in
               let st := push (firstn (if top then s else e) rest) st in
               do ls <- after_marker k g level st;
               if_loop f S_ E_ L_ X_ (fst ls) (pos + e) (skipn e rest) (snd ls)
           end
  end.
(** lines 80-160 *)
Definition extract_else_elseif_fi (S_ E_ L_ X_ : msearch) (content : str) : res (str * str * list (option str * str) * nat) :=
  do r <- if_loop (S (length content)) S_ E_ L_ X_ 1 0 content
      {| if_content := []; else_content := []; elsif_branches := []; current := CIf |};
  Ok (join_strip (if_content (fst r)), join_strip (else_content (fst r)), elsif_branches (fst r), snd r).

(** lines 11-43: the default patterns; \w and letters restricted to ASCII *)
Definition is_letter_at (c : ch) : bool := in_range 65 90 c || in_range 97 122 c || N.eqb c 64.
Definition is_w (c : ch) : bool := in_range 48 57 c || in_range 65 90 c || in_range 97 122 c || N.eqb c 95.
Definition re_char_or_command : re := rseq
  [ropt (rseq [is_ch c_lb; rstar rspace]); RAlt (rseq [is_ch c_bs; rplus (RChr is_letter_at)]) (RChr (fun c => negb (isspace c)));
   ropt (rseq [rstar rspace; is_ch c_rb])].
Definition re_default_if (n : nat) : re := rseq
  [rstar rspace; RGrp n (RAlt (rseq [re_char_or_command; rstar rspace; re_char_or_command]) (rseq [rdot; rlazy rdot]));
   RAhead false (ralt [is_ch c_bs; rspace; REnd; is_ch c_nl])].
Definition IF_PATTERN : re := rseq [is_ch c_bs; ropt (is_ch 64%N); rstr (lit "if"); re_default_if 1].
Definition ELSE_PATTERN : re := rseq [rstr (lit "\else"); RBound is_w].
Definition ELSIF_PATTERN : re := RAlt (rseq [rstr (lit "\els"); ropt (is_ch 101%N); rstr (lit "if"); re_default_if 1])
  (rseq [rstr (lit "\or"); re_default_if 2; RBound is_w]).
Definition FI_PATTERN : re := rseq [rstr (lit "\fi"); RBound is_w].
(** [pattern.search(s)]: start(), end(), group(1); the code reads group(1) of
    ELSIF_PATTERN only, so the others give [None] *)
Definition searcher_group (r : re) : msearch := fun s =>
  option_map (fun m => (m_start m, m_end m, m_group s 1 m)) (re_search r s).
Definition searcher (r : re) : msearch := fun s => option_map (fun m => (m_start m, m_end m, None)) (re_search r s).
Definition extract_default : str -> res (str * str * list (option str * str) * nat) :=
  extract_else_elseif_fi (searcher IF_PATTERN) (searcher FI_PATTERN) (searcher ELSE_PATTERN) (searcher_group ELSIF_PATTERN).
