(** Model of latex2json/parser/bib/compiled_bibtex.py (is_compiled_bibtex is in BibModel.v).  [isword] is the class
    of the regex escape \w on str. *)
From Coq Require Import List NArith ZArith PeanoNat Bool String.
From Verif Require Import PyStr Regex TexUtilsModel KeyvalModel BibModel.
Import ListNotations. Notation length := List.length. Notation concat := List.concat. Open Scope list_scope.

Definition group (t : str) (n : nat) (m : mobj) : str := match m_group t n m with Some g => g | None => [] end.
Definition no_rb : re := RChr (fun x => negb (N.eqb x c_rb)).
(** match.end(1) *)
Definition group_end (n : nat) (m : mobj) : nat := match cap_get n (m_caps m) with Some (_, j) => j | None => 0 end.
Section Compiled.
Variable isword : ch -> bool.
(** compiled_bibtex.py:11-14 *)
Definition PERIOD : re := RSeq (rstr (lit "\bibinitperiod")) (RBound isword).
Definition RANGE : re := rseq [rstr (lit "\bibrangedash"); rstar rspace; RBound isword].
(** compiled_bibtex.py:17-24 *)
Definition apply_pattern_replacements (text : str) : str := re_sub RANGE (fun _ => lit "--") (re_sub PERIOD (fun _ => lit ".") text).
(** compiled_bibtex.py:42 *)
Definition HEADER : re := rseq [rstr (lit "\entry{"); RGrp 1 (rplus no_rb); rstr (lit "}{"); RGrp 2 (rplus no_rb); rstr (lit "}{"); rstar no_rb; is_ch c_rb].
(** compiled_bibtex.py:52, 67, 75-76, 89, 105-107 *)
Definition AUTHOR : re := rstr (lit "\name{author}").
Definition HASH : re := rseq [rstr (lit "{hash="); rplus (RChr isword); rstr (lit "}{")].
Definition NAMEPART (k : string) : re := rseq [RGrp 1 (rstr (lit k ++ lit "=")); is_ch c_lb; RGrp 2 (rplus no_rb); is_ch c_rb].
Definition FIELD : re := rseq [RGrp 1 (rstr (lit "\field")); is_ch c_lb; RGrp 2 (rplus no_rb); rstr (lit "}{")].
Definition EPRINT : re := rseq [rstr (lit "\verb{eprint}"); rstar rspace; rstr (lit "\verb"); rplus rspace; RGrp 1 (RSeq rany (rlazy rany)); rplus rspace; rstr (lit "\endverb")].

(** compiled_bibtex.py:73-85, one author block.  [None]: an exception (given is None).  A family name that is not
    closed would be printed as None. *)
Definition person (block : str) : option (list str) :=
  match re_search (NAMEPART "family") block, re_search (NAMEPART "given") block with
  | Some fm, Some gm =>
      let family := match fst (extract_nested_content (skipn (group_end 1 fm) block) c_lb c_rb) with Some f => f | None => lit "None" end in
      match fst (extract_nested_content (skipn (group_end 1 gm) block) c_lb c_rb) with
      | None => None
      | Some given => Some [family ++ lit ", " ++ firstn 1 given ++ lit "."]
      end
  | _, _ => Some []
  end.
(** compiled_bibtex.py:67-85 *)
Fixpoint people (text : str) (ms : list mobj) : option (list str) :=
  match ms with
  | [] => Some []
  | m :: ms =>
      let this := match fst (extract_nested_content (skipn (m_end m - 1) text) c_lb c_rb) with Some (x :: b) => person (x :: b) | _ => Some [] end in
      match this with None => None | Some a => match people text ms with None => None | Some l => Some (a ++ l) end end
  end.
(** compiled_bibtex.py:51-88: the author string, if any; outer [None] is an IndexError or a TypeError *)
Definition authors (text : str) : option (option str) :=
  match re_search AUTHOR text with
  | None => Some None
  | Some m =>
      match nth_error (fst (extract_nested_content_sequence_blocks (skipn (m_end m) text) c_lb c_rb (Some 3))) 2 with
      | None => None
      | Some block =>
          match (match block with [] => Some [] | _ => people block (re_finditer HASH block) end) with
          | None => None
          | Some [] => Some None
          | Some l => Some (Some (join (lit " and ") l))
          end
      end
  end.
(** compiled_bibtex.py:91-103; [None] is an IndexError *)
Definition skip_field (k : str) : bool := str_eqb k (lit "labelnamesource") || str_eqb k (lit "labeltitlesource").
Fixpoint fields (text : str) (ms : list mobj) (entry : list (str * str)) : option (list (str * str)) :=
  match ms with
  | [] => Some entry
  | m :: ms =>
      match fst (extract_nested_content_sequence_blocks (skipn (group_end 1 m) text) c_lb c_rb (Some 2)) with
      | k :: v :: _ =>
          let k := strip k in
          fields text ms (if skip_field k then entry else sset (if str_eqb k (lit "journaltitle") then lit "journal" else k) (strip v) entry)
      | _ => None
      end
  end.
(** compiled_bibtex.py:27-114; [None] is an exception *)
Definition parse_compiled_bibtex_entry (entry_text : str) : option (list (str * str)) :=
  let text := apply_pattern_replacements entry_text in
  match re_search HEADER text with
  | None => None
  | Some h =>
      match authors text with
      | None => None
      | Some a =>
          let entry := [(lit "key", strip (group text 1 h)); (lit "type", strip (group text 2 h))] ++ match a with Some s => [(lit "author", s)] | None => [] end in
          match fields text (re_finditer FIELD text) entry with
          | None => None
          | Some entry =>
              Some (match re_search EPRINT text with Some m => sset (lit "eprint") (strip (group text 1 m)) entry | None => entry end)
          end
      end
  end.
(** compiled_bibtex.py:117-140 *)
Definition field_order : list str := [lit "author"; lit "title"; lit "year"; lit "eprint"; lit "eprinttype"; lit "eprintclass"].
Fixpoint sget (k : str) (d : list (str * str)) : option str :=
  match d with [] => None | (k', v) :: d => if str_eqb k k' then Some v else sget k d end.
Definition field_line (k v : str) : str := lit "  " ++ k ++ lit " = {" ++ v ++ lit "},".
Definition in_order (k : str) : bool := existsb (str_eqb k) field_order.
Definition convert_to_regular_bibtex (entry : list (str * str)) : str :=
  let ty := match sget (lit "type") entry with Some t => t | None => lit "misc" end in
  let key := match sget (lit "key") entry with Some t => t | None => lit "unknown" end in
  join [c_nl]
    ([lit "@" ++ ty ++ lit "{" ++ key ++ lit ","] ++
     flat_map (fun k => match sget k entry with Some v => [field_line k v] | None => [] end) field_order ++
     flat_map (fun kv => if str_eqb (fst kv) (lit "key") || str_eqb (fst kv) (lit "type") || in_order (fst kv) then [] else [field_line (fst kv) (snd kv)]) entry ++
     [lit "}"]).
(** compiled_bibtex.py:143-158; the entries whose parsing raises an exception are left out *)
Definition process_compiled_bibtex_to_bibtex (input_text : str) : list str :=
  flat_map (fun m => match parse_compiled_bibtex_entry (m_group0 input_text m) with Some e => [convert_to_regular_bibtex e] | None => [] end)
    (re_finditer compiled_pattern input_text).
End Compiled.
