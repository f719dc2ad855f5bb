(** Model of latex2json/parser/packages/keyval.py:21-160. *)
From Coq Require Import List NArith ZArith PeanoNat Lia Bool String.
From Verif Require Import PyStr Regex Json TexUtilsModel SubstModel.
Import ListNotations. Notation length := List.length. Notation concat := List.concat. Open Scope list_scope.

Definition c_eq : ch := 61%N.
(** keyval.py:21-24 *)
Definition define_key_pattern : re := RSeq (rstr (lit "\define@key")) (rstar rspace).
Definition setkeys_pattern : re := RSeq (rstr (lit "\setkeys")) (rstar rspace).
(** keyval.py:27 *)
Definition key_char (x : ch) : bool := negb (N.eqb x c_eq || N.eqb x c_comma || isspace x).
Definition not_comma (x : ch) : bool := negb (N.eqb x c_comma).
Definition KEY_VALUE_PATTERN : re :=
  RSeq (RGrp 1 (rplus (RChr key_char))) (ropt (RSeq (is_ch c_eq) (RGrp 2 (rplus (RChr not_comma))))).

(** keyval.py:100-104: the loop over finditer *)
Definition key_value (s : str) (m : mobj) : str * str :=
  (match m_group s 1 m with Some k => k | None => [] end,
   match m_group s 2 m with Some v => if nilb v then lit "true" else strip v | None => lit "true" end).
Definition key_values (s : str) : list (str * str) := map (key_value s) (re_finditer KEY_VALUE_PATTERN s).

(** self.key_definitions: family -> key -> (default, codeblock).  The nested
    dictionaries are flattened to one keyed by (family, key); a family is
    present iff one of its keys is (keyval.py:69-74, 150-157). *)
Definition kdefs := list (str * str * (option str * str)).
Fixpoint klookup (f k : str) (d : kdefs) : option (option str * str) :=
  match d with
  | [] => None
  | (f', k', v) :: r => if str_eqb f f' && str_eqb k k' then Some v else klookup f k r
  end.
Fixpoint kset (f k : str) (v : option str * str) (d : kdefs) : kdefs :=
  match d with
  | [] => [(f, k, v)]
  | (f', k', w) :: r => if str_eqb f f' && str_eqb k k' then (f', k', v) :: r else (f', k', w) :: kset f k v r
  end.
(** process_keyval_definition, keyval.py:147-157 *)
Definition process_keyval_definition (d : kdefs) (f k : str) (default : option str) (code : str) : kdefs := kset f k (default, code) d.

Inductive ktoken :=
| KDefinition (family key : str) (default : option str) (code : str)
| KSetting (family : str) (kvs : list (str * str)) (codeblocks : list (str * str)).

Fixpoint sset (k v : str) (d : list (str * str)) : list (str * str) :=
  match d with
  | [] => [(k, v)]
  | (k', w) :: r => if str_eqb k k' then (k', v) :: r else (k', w) :: sset k v r
  end.

Section Keyval.
(** str.isalpha of the next character, used by substitute_args *)
Variable isalpha : ch -> bool.
(** _process_setkeys_token, keyval.py:112-126 *)
Definition add_codeblock (d : kdefs) (family : str) (cbs : list (str * str)) (kv : str * str) : list (str * str) :=
  match klookup family (fst kv) d with
  | Some (_, code) => if nilb code then cbs else sset (fst kv) (substitute_args isalpha code [Some (snd kv)] false) cbs
  | None => cbs
  end.
Definition process_setkeys_token (d : kdefs) (family : str) (kvs : list (str * str)) : list (str * str) :=
  fold_left (add_codeblock d family) kvs [].

(** _handle_define_key_match, keyval.py:37-87 *)
Definition handle_define_key (d : kdefs) (content : str) (m : mobj) : kdefs * (option ktoken * nat) :=
  let pos := m_end m in
  let c1 := skipn pos content in
  let '(blocks, e1) := extract_nested_content_sequence_blocks c1 c_lb c_rb (Some 2) in
  match blocks with
  | [family; key] =>
      let pos := pos + e1 in
      let c2 := skipn e1 c1 in
      let '(dbs, e2) := extract_nested_content_sequence_blocks c2 c_lk c_rk (Some 1) in
      let '(default, pos, c3) := match dbs with b :: _ => (Some b, pos + e2, skipn e2 c2) | [] => (None, pos, c2) end in
      let '(hbs, e3) := extract_nested_content_sequence_blocks c3 c_lb c_rb (Some 1) in
      match hbs with
      | [] => (d, (None, 0))
      | code :: _ => (kset family key (default, code) d, (Some (KDefinition family key default code), pos + e3))
      end
  | _ => (d, (None, 0))
  end.
(** _handle_setkeys_match and _handle, keyval.py:89-144 *)
Definition handle_setkeys (d : kdefs) (content : str) (m : mobj) : kdefs * (option ktoken * nat) :=
  let '(blocks, e) := extract_nested_content_sequence_blocks (skipn (m_end m) content) c_lb c_rb (Some 2) in
  match blocks with
  | [family; s] => (d, (Some (KSetting family (key_values s) (process_setkeys_token d family (key_values s))), m_end m + e))
  | _ => (d, (None, 0))
  end.
Definition keyval_handle (d : kdefs) (content : str) : kdefs * (option ktoken * nat) :=
  match re_match_at define_key_pattern content 0 with
  | Some m => handle_define_key d content m
  | None => match re_match_at setkeys_pattern content 0 with
            | Some m => handle_setkeys d content m
            | None => (d, (None, 0))
            end
  end.
End Keyval.
