(** Model of token objects: LatexParser.add_token, _process_token and _handle_label
    (parser/tex_parser.py:150-216, 347-414) on a heap, so that a token which is in two
    places is one object.  Saved boxes (packages/boxes.py:138-176) hold token
    objects; using a box puts these objects, not copies, into the token list.

    Simplified: the tokens made by other components are given; only the
    updates that these methods make to existing token objects are modelled (the
    last token of the list; re-processing a token of a box by _process_token
    replaces its fields by equal ones); no environment is open for labels. *)
From Coq Require Import List NArith PeanoNat Bool String.
From Verif Require Import PyStr Json BuilderModel TokensModel.
Import ListNotations. Notation length := List.length. Open Scope list_scope.

Definition k_labels_ := lit "labels".
(** tex_parser.py:160-164: the label is added to a token *)
Definition with_label (d : dict) (s : str) : res dict :=
  match lookup k_labels_ d with
  | None => Ok (set k_labels_ (VList [VStr s]) d)
  | Some (VList l) => Ok (set k_labels_ (VList (l ++ [VStr s])) d)
  | Some _ => Raise AttributeError
  end.
Definition label_token (s : str) : dict := [(k_type, VStr (lit "label")); (k_content, VStr s)].

(** What happens while one text is parsed: a new token is added, a label is met, a box is
    saved (its text is parsed into a list of its own), declared or used. *)
Inductive act :=
| AAdd (d : dict) (sp : bool)
| ALabel (s : str)
| ASave (x : str) (body : list act)
| ADeclare (x : str)
| AUse (x : str).

Definition heap := list dict.
Definition hget (h : heap) (a : nat) : dict := nth a h [].
Fixpoint hset (h : heap) (a : nat) (d : dict) : heap :=
  match h, a with [], _ => [] | _ :: r, O => d :: r | x :: r, S b => x :: hset r b d end.
Fixpoint last_addr (toks : list nat) : option nat :=
  match toks with [] => None | [a] => Some a | _ :: r => last_addr r end.
Definition tables (A : Type) := list (str * option (list A)).
Fixpoint tget {A} (x : str) (t : tables A) : option (list A) :=
  match t with [] => None | (y, v) :: r => if str_eqb x y then v else tget x r end.

(** tex_parser.py:184-216: the object [a] is added.  (When [a] is also the last
    token its content is read once; add_space is False in that case.) *)
Definition add_object (h : heap) (toks : list nat) (a : nat) (sp : bool) : res (heap * list nat) :=
  let d := hget h a in
  if is_str (get k_type d) "text" then
    match last_addr toks with
    | Some b =>
        if is_str (get k_type (hget h b)) "text" && negb (has_key k_styles d) && negb (has_key k_styles (hget h b)) then
          do m <- merge_text (hget h b) d sp; Ok (hset h b m, toks)
        else Ok (h, toks ++ [a])
    | None => Ok (h, toks ++ [a])
    end
  else if existsb (is_str (get k_type d)) ["group"; "environment"; "list"]%string then
    do c <- getitem k_content d;
    do n <- py_len c;
    if n <? 1 then Ok (h, toks) else Ok (h, toks ++ [a])
  else Ok (h, toks ++ [a]).
Definition add_new (h : heap) (toks : list nat) (d : dict) (sp : bool) : res (heap * list nat) :=
  add_object (h ++ [d]) toks (length h) sp.
(** tex_parser.py:352-355: the tokens of a list, one after the other *)
Fixpoint add_objects (h : heap) (toks : list nat) (l : list nat) : res (heap * list nat) :=
  match l with
  | [] => Ok (h, toks)
  | a :: r => do s <- add_object h toks a false; add_objects (fst s) (snd s) r
  end.
(** tex_parser.py:158-166 *)
Definition add_label (h : heap) (toks : list nat) (s : str) : res (heap * list nat) :=
  match last_addr toks with
  | Some b => match hget h b with [] => add_new h toks (label_token s) false | d => do m <- with_label d s; Ok (hset h b m, toks) end
  | None => add_new h toks (label_token s) false
  end.

Fixpoint exec (a : act) (h : heap) (bx : tables nat) (toks : list nat) {struct a} : res (heap * tables nat * list nat) :=
  match a with
  | AAdd d sp => do s <- add_new h toks d sp; Ok (fst s, bx, snd s)
  | ALabel s => do r <- add_label h toks s; Ok (fst r, bx, snd r)
  | ASave x body =>
      do s <- (fix go l h bx ts := match l with [] => Ok (h, bx, ts) | a :: r => do s <- exec a h bx ts; go r (fst (fst s)) (snd (fst s)) (snd s) end) body h bx [];
      Ok (fst (fst s), (x, Some (snd s)) :: snd (fst s), toks)
  | ADeclare x => Ok (h, (x, None) :: bx, toks)
  | AUse x => match tget x bx with
              | Some l => do s <- add_objects h toks l; Ok (fst s, bx, snd s)
              | None => Ok (h, bx, toks)
              end
  end.
Fixpoint exec_all (l : list act) (h : heap) (bx : tables nat) (toks : list nat) : res (heap * tables nat * list nat) :=
  match l with [] => Ok (h, bx, toks) | a :: r => do s <- exec a h bx toks; exec_all r (fst (fst s)) (snd (fst s)) (snd s) end.
(** The token list of a text parsed with a new parser. *)
Definition parse_acts (l : list act) : res (list dict) :=
  do s <- exec_all l [] [] []; Ok (map (hget (fst (fst s))) (snd s)).
