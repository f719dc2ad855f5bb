(** Model of LatexParser.parse, the main loop (latex2json/parser/tex_parser.py:213-250,
    392-640).  Positions are integers: a handler can return any end position and
    Python slices with negative indices count from the end.

    The components the loop dispatches to (macros, definitions, conditionals, legacy
    formatting, the list of handlers, labels, _process_token) are parameters with the
    interface the loop sees.  They act on an arbitrary state [St] (the mutable
    fields of the parser) and can call parse recursively.  A run is [None] when it
    needs more rounds than the fuel allows, otherwise a result or an exception. *)
From Coq Require Import List NArith ZArith PeanoNat Lia Bool String.
From Verif Require Import PyStr Regex TexUtilsModel Json BuilderModel TokensModel CommandModel.
Import ListNotations. Notation length := List.length. Notation concat := List.concat. Open Scope list_scope.

Definition run (A : Type) := option (res A).
Definition rbind {A B} (x : run A) (f : A -> run B) : run B :=
  match x with None => None | Some (Raise e) => Some (Raise e) | Some (Ok a) => f a end.
Notation "'ask' x <- e ; f" := (rbind e (fun x => f)) (at level 200, x pattern, e at level 100, f at level 200).
Definition ret {A} (a : A) : run A := Some (Ok a).

(** Python slices and subscripts with integer positions *)
Definition clip (t : str) (z : Z) : nat :=
  let n := Z.of_nat (length t) in Z.to_nat (Z.min n (if (z <? 0)%Z then Z.max 0 (n + z) else z)).
Definition from (t : str) (z : Z) : str := skipn (clip t z) t.
Definition upto (t : str) (z : Z) : str := firstn (clip t z) t.
Definition between (t : str) (a b : Z) : str := slice (clip t a) (clip t b) t.
Definition at_pos (t : str) (z : Z) : res ch :=
  let n := Z.of_nat (length t) in
  let i := if (z <? 0)%Z then (n + z)%Z else z in
  if (i <? 0)%Z then Raise IndexError
  else match nth_error t (Z.to_nat i) with Some x => Ok x | None => Raise IndexError end.

(** patterns.py:24-26 DELIM_PATTERN *)
Definition DELIM : re :=
  RSeq (RBehind true (N.eqb c_bs))
    (ralt [rstr [c_bs; c_bs]; is_ch c_dollar; is_ch c_pct;
           RSeq (RAlt RStart (RChr (fun x => N.eqb x c_sp || N.eqb x c_tab))) (is_ch c_lb);
           RSeq rspace (is_ch c_lb); rstr [c_lb; c_rb]; rstr [c_bs; 94%N];
           RSeq (is_ch c_bs) (RAhead true (rcls (lit "$%&_#{}^~\")))]).
(** patterns.py:45-62 *)
Definition P_label : re := rseq [rstr (lit "\label"); rstar rspace; is_ch c_lb].
Definition P_newline : re := rseq [is_ch c_bs; RAlt (rstr (lit "newline")) (rstr (lit "linebreak")); RAhead true (RChr letter)].
Definition P_break : re := rseq [rstr [c_bs; c_bs]; ropt (rseq [rstar rspace; is_ch c_lk; RGrp 1 (rstar (rncls [c_rk])); is_ch c_rk])].
Definition P_continuation : re := RSeq (is_ch c_bs) (RAlt rspace REnd).
(** tex_parser.py:43 UNKNOWN_COMMAND_PATTERN *)
Definition P_unknown : re := RSeq (is_ch c_bs) (RSeq (rplus (RChr (fun x => name_ch x || N.eqb x 42))) (ropt (RSeq (rstar rspace) (is_ch c_lb)))).

Definition k_command := lit "command".
Definition text_token (s : str) : dict := [(k_type, VStr (lit "text")); (k_content, VStr s)].

(** the keyword arguments of parse *)
Record opts := { line_break : str; unknown_on : bool; legacy_on : bool }.
Definition default_opts : opts := {| line_break := [c_nl]; unknown_on := true; legacy_on := true |}.

Section Parse.
Variable St : Type.
Definition parser := opts -> St -> str -> run (St * list dict).

(** one element of self.handlers *)
Record handler := {
  h_can : St -> str -> bool;
  h_run : parser -> St -> str -> option dict -> run (St * tok_in * Z);
  h_env : bool }.

(** _expand_command *)
Variable expand : St -> str -> res str.
(** command_manager.can_handle / handle: None when it cannot handle *)
Variable user_command : St -> str -> res (option (str * Z)).
(** _check_for_new_definitions *)
Variable define : St -> str -> res (St * Z).
(** if_else_block_handler and legacy_formatting_handler: replacement and end *)
Variable if_else : St -> str -> res (option (str * Z)).
Variable legacy : St -> str -> res (option (str * Z)).
Variable handlers : list handler.
(** _process_token *)
Variable process : parser -> bool -> tok_in -> St -> list dict -> run (St * list dict).
(** _handle_label *)
Variable on_label : St -> str -> list dict -> res (St * list dict).

Inductive outcome := Next (s : St) (content : str) (pos : Z) (tokens : list dict) | Halt (s : St) (tokens : list dict).

(** tex_parser.py:482-486; [n] bounds the number of rounds *)
Fixpoint skip_spaces (n : nat) (content : str) (pos : Z) : Z :=
  match n with
  | O => pos
  | S n' => match at_pos content pos with
            | Ok x => if isspace x then skip_spaces n' content (pos + 1) else pos
            | Raise _ => pos
            end
  end.

(** tex_parser.py:399-409: a handler that has accepted *)
Definition apply_handler (ps : parser) (h : handler) (s : St) (t : str) (tokens : list dict) : run (St * list dict * Z) :=
  ask (s1, tok, e) <- h_run h ps s t (option_map snd (last_of tokens));
  match tok with
  | TNone | TStr [] | TDict [] | TList [] => ret (s1, tokens, e)
  | _ => ask (s2, tokens2) <- process ps (h_env h) tok s1 tokens; ret (s2, tokens2, e)
  end.
(** tex_parser.py:392-410; the first handler that accepts *)
Fixpoint check_handlers (ps : parser) (hs : list handler) (s : St) (t : str) (tokens : list dict) : run (St * list dict * option Z) :=
  match hs with
  | [] => ret (s, tokens, None)
  | h :: r =>
      if h_can h s t then ask (s1, tk, e) <- apply_handler ps h s t tokens; ret (s1, tk, Some e)
      else check_handlers ps r s t tokens
  end.

(** tex_parser.py:412-446: None when no pattern matches *)
Definition check_remaining (o : opts) (s : St) (t : str) (tokens : list dict) : res (option (St * list dict * nat)) :=
  match re_match_at P_label t 0 with
  | Some m =>
      let start := m_end m - 1 in
      let '(l, e) := extract_nested_content (skipn start t) c_lb c_rb in
      match l with
      | Some (x :: y) => do (s1, tk) <- on_label s (x :: y) tokens; Ok (Some (s1, tk, start + e))
      | _ => Ok (Some (s, tokens, start + e))
      end
  | None =>
  match re_match_at P_newline t 0 with
  | Some m => do tk <- add_token (TStr [c_nl]) tokens false; Ok (Some (s, tk, m_end m))
  | None =>
  match re_match_at P_break t 0 with
  | Some m => do tk <- add_token (TStr (line_break o)) tokens false; Ok (Some (s, tk, m_end m))
  | None =>
  match re_match_at P_continuation t 0 with
  | Some m => Ok (Some (s, tokens, m_end m))
  | None => Ok None
  end end end end.

(** tex_parser.py:213-250.  extract_nested_content gives (None, 0) for an unclosed
    brace, and [None + "}"] is a TypeError. *)
Definition check_unknown (s : St) (t : str) : res (option (dict * nat)) :=
  match re_match_at P_unknown t 0 with
  | None => Ok None
  | Some m =>
      let g := m_group0 t m in
      do (command, total, e) <-
        (if endswith g [c_lb] then
           match extract_nested_content (skipn (m_end m - 1) t) c_lb c_rb with
           | (Some inner, ie) => Ok (firstn (length g - 1) g, g ++ inner ++ [c_rb], m_end m + ie - 1)
           | (None, _) => Raise TypeError
           end
         else Ok (g, g, m_end m));
      do x <- expand s total;
      if startswith x [c_bs] then
        let y := if startswith x command then skipn (length command) x else x in
        Ok (Some ([(k_type, VStr k_command); (k_command, VStr command)] ++ (if nilb y then [] else [(k_content, VStr y)]), e))
      else Ok (Some (text_token x, e))
  end.

(** replacing [content[pos:pos+e]]: tex_parser.py:540-543, 560-563, 575-580 *)
Definition spliced (content : str) (pos : Z) (r : str) (e : Z) : str := upto content pos ++ r ++ from content (pos + e).

(** One round of the loop, tex_parser.py:480-640, split where the code looks for a
    delimiter. *)
Definition dispatch (ps : parser) (o : opts) (s : St) (content : str) (pos : Z) (tokens : list dict) : run outcome :=
  let t := from content pos in
  ask u <- Some (user_command s t);
  match (match u with Some (r, e) => if (0 <? e)%Z then Some (r, e) else None | None => None end) with
  | Some (r, e) => ret (Next s (spliced content pos r e) pos tokens)
  | None =>
  ask (s, e) <- Some (define s t);
  if (0 <? e)%Z then ret (Next s content (pos + e) tokens)
  else
  ask u <- Some (if_else s t);
  match (match u with Some (r, e) => if (0 <? e)%Z then Some (r, e) else None | None => None end) with
  | Some (r, e) => ret (Next s (spliced content pos r e) pos tokens)
  | None =>
  ask u <- Some (if legacy_on o then legacy s t else Ok None);
  match (match u with Some (r, e) => if (0 <? e)%Z then Some (r, e) else None | None => None end) with
  | Some (r, e) => ret (Next s (spliced content pos r e) pos tokens)
  | None =>
  ask (s, tokens, h) <- check_handlers ps handlers s t tokens;
  match h with
  | Some e => ret (Next s content (pos + e) tokens)
  | None =>
  ask u <- Some (check_remaining o s t tokens);
  match u with
  | Some (s, tokens, e) => ret (Next s content (pos + Z.of_nat e) tokens)
  | None =>
  ask u <- Some (if unknown_on o then check_unknown s t else Ok None);
  match u with
  | Some (tok, e) =>
      ask tk <- Some (add_token (TDict tok) tokens false);
      ret (Next s content (pos + Z.of_nat e) tk)
  | None =>
      ask x <- Some (at_pos content pos);
      ask tk <- Some (add_token (TStr [x]) tokens false);
      ret (Next s content (pos + 1) tk)
  end end end end end end.

(** tex_parser.py:503-530: the text before the next delimiter *)
Definition take_text (o : opts) (s : St) (content : str) (pos : Z) (tokens : list dict) (next_pos : nat) (found : bool) : run outcome :=
  let text := between content pos (pos + Z.of_nat next_pos) in
  ask (tk, n) <-
    (match text with
     | [] => ret (tokens, Z.of_nat next_pos)
     | _ =>
       let cut := endswith text [c_lb] in
       let text := if cut then firstn (length text - 1) text else text in
       let n := if cut then (Z.of_nat next_pos - 1)%Z else Z.of_nat next_pos in
       ask text <- (if unknown_on o then Some (expand s text) else ret text);
       let add_space := (0 <? pos)%Z && match at_pos content (pos - 1) with Ok x => isspace x | Raise _ => false end in
       ask tk <- Some (add_token (TStr text) tokens add_space);
       ret (tk, n)
     end);
  if found then ret (Next s content (pos + n) tk) else ret (Halt s tk).

Definition after_group (ps : parser) (o : opts) (s : St) (content : str) (pos : Z) (tokens : list dict) : run outcome :=
  let t := from content pos in
  let d := re_search DELIM t in
  let next_pos := match d with Some m => m_start m | None => length t end in
  if Nat.ltb 0 next_pos then take_text o s content pos tokens next_pos (match d with Some _ => true | None => false end)
  else dispatch ps o s content pos tokens.

Definition step (ps : parser) (o : opts) (s : St) (content : str) (pos : Z) (tokens : list dict) : run outcome :=
  let len := Z.of_nat (length content) in
  if (pos <? len)%Z then
    let pos := skip_spaces (Z.to_nat (len - pos)) content pos in
    if (len <=? pos)%Z then ret (Halt s tokens)
    else
      ask x <- Some (at_pos content pos);
      if N.eqb x c_lb then
        match extract_nested_content (from content pos) c_lb c_rb with
        | (Some inner, e) =>
            ask (s1, nested) <- ps default_opts s inner;
            ask tk <- Some (add_tokens (map (fun d => (TDict d, false)) nested) tokens);
            ret (Next s1 content (pos + Z.of_nat e) tk)
        | (None, _) => after_group ps o s content pos tokens
        end
      else after_group ps o s content pos tokens
  else ret (Halt s tokens).

(** the while loop; recursive calls of parse get the remaining fuel *)
Fixpoint loop (fuel : nat) (o : opts) (s : St) (content : str) (pos : Z) (tokens : list dict) : run (St * list dict) :=
  match fuel with
  | O => None
  | S f =>
      ask r <- step (fun o' s' c => loop f o' s' (strip_latex_comments c) 0 []) o s content pos tokens;
      match r with
      | Next s content pos tokens => loop f o s content pos tokens
      | Halt s tokens => ret (s, tokens)
      end
  end.
(** tex_parser.py:470-478 with preprocess=False *)
Definition parse (fuel : nat) (o : opts) (s : St) (content : str) : run (St * list dict) :=
  loop fuel o s (strip_latex_comments content) 0 [].
(** tex_parser.py:655-690, after the file has been read: every exception gives the
    empty list (the state after an exception is not modelled) *)
Definition parse_file_result (fuel : nat) (s : St) (content : str) : option (list dict) :=
  match parse fuel default_opts s content with
  | None => None
  | Some (Ok (_, tk)) => Some tk
  | Some (Raise _) => Some []
  end.
End Parse.
Arguments Next {St}. Arguments Halt {St}.
Arguments h_can {St}. Arguments h_run {St}. Arguments h_env {St}.
