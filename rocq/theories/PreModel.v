(** Model of LatexPreprocessor (latex2json/parser/tex_preprocessor.py:67-362).

    The components the loop asks (equation handler, command manager, style
    files, formatting handler, conditionals) are parameters with the interface
    the loop sees.  They act on an arbitrary state [St], which stands for the
    mutable fields of the preprocessor and the list of definition tokens.  An end
    position is a natural number (no component returns a negative one); the end
    [0] means that the component did not handle the text. *)
From Coq Require Import List NArith PeanoNat Lia Bool String.
From Verif Require Import PyStr Regex Json TexUtilsModel CommandModel ParseModel TextModel PlaceModel.
Import ListNotations. Notation length := List.length. Notation concat := List.concat. Open Scope list_scope.

Definition c_tick : ch := 96%N.
Definition c_quote : ch := 39%N.
Definition c_dquote : ch := 34%N.
(** tex_preprocessor.py:31 r"\\addto\s*(?:{?\\[^}\s]+}?)\s*\{" *)
Definition ADD_TO : re :=
  rseq [rstr (lit "\addto"); rstar rspace; ropt (is_ch c_lb); is_ch c_bs; rplus (RChr (fun x => negb (N.eqb x c_rb || isspace x))); ropt (is_ch c_rb);
        rstar rspace; is_ch c_lb].
(** tex_preprocessor.py:46 *)
Definition DELIM_QUOTES : re := RAlt DELIM (is_ch c_tick).
(** tex_preprocessor.py:48-55; both with DOTALL *)
Definition DOUBLE_QUOTES : re := rseq [rstr [c_tick; c_tick]; RGrp 1 (rlazy rany); rstr [c_quote; c_quote]].
Definition SINGLE_QUOTES : re := rseq [is_ch c_tick; RGrp 1 (rlazy rany); is_ch c_quote].
(** patterns.py:5-6, 28-31 *)
Definition DOCUMENTCLASS : re :=
  rseq [rstr (lit "\documentclass"); rstar rspace; ropt (rseq [is_ch c_lk; rstar (rncls [c_rk]); is_ch c_rk]); rstar rspace;
        is_ch c_lb; RGrp 1 (rplus (rncls [c_rb])); is_ch c_rb].

(** tex_preprocessor.py:235-251: one pattern, on content[current_pos:] *)
Definition quote_pass (pattern : re) (mark : ch) (t : str) : str :=
  match re_match_at pattern t 0 with
  | Some m => (mark :: match m_group t 1 m with Some g => g | None => [] end) ++ [mark] ++ skipn (m_end m) t
  | None => t
  end.
(** tex_preprocessor.py:235-251.  The continue statement only continues the for
    loop over the two patterns. *)
Definition convert_quotes (t : str) : str := quote_pass SINGLE_QUOTES c_quote (quote_pass DOUBLE_QUOTES c_dquote t).

(** tex_preprocessor.py:224 *)
Definition math_key (n : nat) : str := lit "__MATH_BLOCK_" ++ str_of_nat n ++ lit "__".

Section Pre.
Variable St : Type.
(** equation_handler.can_handle / handle *)
Variable math : str -> nat.
(** command_manager.process_definition and tex_preprocessor.py:257-270: no
    token, a definition that is skipped, or one that is registered *)
Inductive definition := DNone | DSkip (n : nat) | DTake (s : St) (n : nat).
Variable define : St -> str -> res definition.
(** _check_usepackage *)
Variable usepackage : St -> str -> res (St * nat).
(** formatting_handler, command_manager, if_else_block_handler *)
Variable format : str -> option (str * nat).
Variable expand : St -> str -> res (option (str * nat)).
Variable if_else : St -> str -> res (option (str * nat)).

(** What one round does to content[current_pos:]: [Move s t n]: it becomes [t],
    and the position moves over the first [n] characters of [t]; [Math n]: its
    first [n] characters are a formula; [Finish]: the loop ends. *)
Inductive action := Move (s : St) (t : str) (n : nat) | Math (n : nat) | Finish.
Definition handled (x : option (str * nat)) : option (str * nat) :=
  match x with Some (b, n) => if Nat.ltb 0 n then Some (b, n) else None | None => None end.
(** tex_preprocessor.py:253-321: the text after the quotes have been converted *)
Definition dispatch_rest (s : St) (t : str) : res action :=
  do d <- define s t;
  match d with
  | DSkip n => Ok (Move s t n)
  | DTake s (S n) => Ok (Move s (skipn (S n) t) 0)
  | DNone | DTake _ O =>
      let s := match d with DTake s1 _ => s1 | _ => s end in
      do (s, e) <- usepackage s t;
      if Nat.ltb 0 e then Ok (Move s (skipn e t) 0) else
      match handled (format t) with
      | Some (b, n) => Ok (Move s (b ++ skipn n t) 0)
      | None =>
      do x <- expand s t;
      match handled x with
      | Some (b, n) => Ok (Move s (b ++ skipn n t) 0)
      | None =>
      do x <- if_else s t;
      match handled x with
      | Some (b, n) => Ok (Move s (b ++ skipn n t) 0)
      | None => Ok (Move s t 1)
      end end end
  end.
(** tex_preprocessor.py:199-321, one round on a nonempty text *)
Definition round (s : St) (t : str) : res action :=
  let d := re_search DELIM_QUOTES t in
  let next_pos := match d with Some m => m_start m | None => length t end in
  if Nat.ltb 0 next_pos then Ok (match d with Some _ => Move s t next_pos | None => Finish end)
  else
  match re_match_at ADD_TO t 0 with
  | Some m => Ok (Move s (skipn (m_end m - 1) t) 0)
  | None =>
  if Nat.ltb 0 (math t) then Ok (Math (math t))
  else dispatch_rest s (convert_quotes t)
  end.

(** tex_preprocessor.py:195-326: the loop, with content = [before ++ rest] and
    current_pos = len(before); one unit of fuel per round.  [None] = out of
    fuel. *)
Fixpoint pre_loop (fuel : nat) (s : St) (before rest : str) (blocks : list (str * str)) : option (res (St * str)) :=
  match fuel with
  | O => None
  | S f =>
      match rest with
      | [] => Some (Ok (s, restore_placeholder_blocks before blocks))
      | _ =>
          match round s rest with
          | Raise e => Some (Raise e)
          | Ok Finish => Some (Ok (s, restore_placeholder_blocks (before ++ rest) blocks))
          | Ok (Move s1 t n) => pre_loop f s1 (before ++ firstn n t) (skipn n t) blocks
          | Ok (Math n) =>
              pre_loop f s before (math_key (length blocks) ++ skipn n rest) (blocks ++ [(math_key (length blocks), firstn n rest)])
          end
      end
  end.
(** tex_preprocessor.py:182-326 *)
Definition process_definitions_and_expand (fuel : nat) (s : St) (content : str) : option (res (St * str)) := pre_loop fuel s [] content [].

(** tex_preprocessor.py:133-146: the end of the declaration; [load] reads the
    class file *)
Variable load : St -> str -> res St.
Definition check_documentclass (s : St) (content : str) : res (St * nat) :=
  match re_search DOCUMENTCLASS content with
  | Some m => do s <- load s (strip (match m_group content 1 m with Some g => g | None => [] end)); Ok (s, m_end m)
  | None => Ok (s, 0)
  end.
(** tex_preprocessor.py:102-107, step 4 *)
Definition normalize_outside_verbatim (content : str) : str :=
  let '(c, blocks) := extract_verbatim_blocks content in
  restore_placeholder_blocks (normalize_whitespace_and_lines c) blocks.
(** tex_preprocessor.py:84-109 *)
Definition preprocess (fuel : nat) (s : St) (content : str) : option (res (St * str)) :=
  let content := strip_latex_comments content in
  match check_documentclass s content with
  | Raise e => Some (Raise e)
  | Ok (s, e) =>
      match process_definitions_and_expand fuel s (skipn e content) with
      | None => None
      | Some (Raise x) => Some (Raise x)
      | Some (Ok (s, c)) => Some (Ok (s, normalize_outside_verbatim c))
      end
  end.
End Pre.
Arguments DNone {St}. Arguments DSkip {St}. Arguments DTake {St}.
Arguments Move {St}. Arguments Math {St}. Arguments Finish {St}.
