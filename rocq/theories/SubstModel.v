(** Model of tex_utils.py:476-534: macro argument substitution. *)
From Coq Require Import List NArith PeanoNat Lia Bool String.
From Verif Require Import PyStr Regex.
Import ListNotations.
Notation length := List.length.
Open Scope list_scope.

(** tex_utils.py:476  re.compile(r"(?<!\\)(#+)(\d+)").  \d is modelled by the
    ASCII digits (Python also accepts other Unicode decimal digits). *)
Definition NO_ESC_HASH_NUMBER_PATTERN : re :=
  RSeq (RBehind true (N.eqb c_bs)) (RSeq (RGrp 1 (rplus (is_ch c_hash))) (RGrp 2 (rplus rdigit))).
(** tex_utils.py:478  re.compile(r"(\\#)|(#+)(\d+)") *)
Definition HASH_NUMBER_PATTERN : re :=
  RAlt (RGrp 1 (rstr [c_bs; c_hash]))
       (RSeq (RGrp 2 (rplus (is_ch c_hash))) (RGrp 3 (rplus rdigit))).

(** tex_utils.py:481-482 *)
Definition check_string_has_hash_number (text : str) : bool :=
  match re_search NO_ESC_HASH_NUMBER_PATTERN text with Some _ => true | None => false end.

(** length of a captured group *)
Definition group_len (text : str) (n : nat) (m : mobj) : nat :=
  match m_group text n m with Some g => length g | None => 0 end.

Definition list_min (l : list nat) : nat :=
  match l with [] => 0 | x :: r => fold_left Nat.min r x end.

(** Python list indexing [args[k - 1]] for [k - 1 < len(args)]: k = 0 gives
    index -1, the last element. *)
Definition arg_at (args : list (option str)) (k : nat) : option str :=
  match k with
  | O => last args None
  | S j => nth j args None
  end.

Section Subst.
(** [str.isalpha] on one character (Unicode property, kept abstract) *)
Variable isalpha : ch -> bool.

(** tex_utils.py:506-534, [sub_fn] *)
Definition sub_fn (definition : str) (args : list (option str)) (math_mode : bool) (min_hashes : nat)
    (m : mobj) : str :=
  match m_group definition 1 m with
  | Some _ => m_group0 definition m
  | None =>
      let hashes := match m_group definition 2 m with Some g => g | None => [] end in
      let number := match m_group definition 3 m with Some g => g | None => [] end in
      if Nat.eqb (length hashes) min_hashes then
        let k := match int_of_str number with Some k => k | None => 0 end in
        (* arg_index = k - 1;  arg_index >= len(args) *)
        if Nat.ltb (length args) k then m_group0 definition m
        else
          let replacement := match arg_at args k with Some a => a | None => [] end in
          if math_mode && negb (nilb replacement) then
            let char_before := prev_is isalpha definition (m_start m) in
            let char_after := next_is isalpha definition (m_end m) in
            if char_before || char_after then [c_lb] ++ replacement ++ [c_rb] else replacement
          else replacement
      else m_group0 definition m
  end.

(** tex_utils.py:485-534 *)
Definition substitute_args (definition : str) (args : list (option str)) (math_mode : bool) : str :=
  match args with
  | [] => definition
  | _ =>
      match re_finditer NO_ESC_HASH_NUMBER_PATTERN definition with
      | [] => definition
      | ms =>
          let min_hashes := list_min (map (group_len definition 1) ms) in
          if Nat.ltb min_hashes 1 then definition
          else re_sub HASH_NUMBER_PATTERN (sub_fn definition args math_mode min_hashes) definition
      end
  end.
End Subst.
