(** Model of parser/handlers/item.py, of find_pattern_while_skipping_nested_envs
    (environment.py:138-182), BaseEnvironmentHandler.search (382-400) and
    try_handle (360-374), and of parser/handlers/for_loop_statements.py. *)
From Coq Require Import List NArith PeanoNat Bool String.
From Verif Require Import PyStr Regex TexUtilsModel EnvModel EnvHandlerModel.
Import ListNotations.
Notation length := List.length.
Open Scope list_scope.

Section Item.
Variable w : ch -> bool.
Variable lower : str -> str.
Variable isalpha : ch -> bool.

Definition ITEM_WORD : re := RSeq (rstr (lit "\item")) (RBound w).
(** item.py:9-11 *)
Definition ITEM_PATTERN : re :=
  RSeq ITEM_WORD (RSeq (rstar rspace)
    (RSeq (ropt (RSeq (is_ch c_lk) (RSeq (RGrp 1 (rlazy rany)) (is_ch c_rk))))
      (RSeq (rstar rspace) (RSeq (RGrp 2 (rlazy rany)) (RAhead false (RAlt ITEM_WORD REnd)))))).

(** ENVIRONMENT_PATTERN.search(content), the start of the match *)
Fixpoint env_search (content : str) : option nat :=
  match re_match_at BEGIN_PATTERN content 0, pair_match w content with
  | None, None => match content with [] => None | _ :: r => option_map S (env_search r) end
  | _, _ => Some 0
  end.
(** environment.py:382-400, search: the start of the reported match *)
Definition search_any (content : str) : option nat :=
  match env_search content, re_search (BEGIN_GROUP_PATTERN w) content with
  | None, None => None
  | None, Some g => Some (m_start g)
  | Some s, None => Some s
  | Some s, Some g => Some (if Nat.ltb s (m_start g) then s else m_start g)
  end.
(** environment.py:360-374, try_handle: whether there is a token, and the position *)
Inductive tried := TryOut (token : bool) (pos : nat) | TryRaises.
Definition try_handle (content : str) : tried :=
  match try_match_env w content with
  | TRaises => TryRaises
  | Found _ e _ => TryOut true e
  | NoEnv => match try_match_group w content with
             | Out (Some _) e => TryOut true e
             | Out None e => TryOut false e
             | EnvHandlerModel.Raises => TryRaises
             end
  end.

(** environment.py:136-180: [end_pos] is [None] for -1; one unit of fuel per round *)
Inductive found := FPos (p : option nat) | FRaises | FNoFuel.
Fixpoint find_skipping (pattern : re) (fuel : nat) (content : str) (start : nat) (end_pos : option nat) : found :=
  match fuel with
  | O => FNoFuel
  | S f =>
      match re_search pattern (skipn start content) with
      | None => FPos (match end_pos with Some _ => Some (length content) | None => None end)
      | Some nm =>
          match search_any (skipn start content) with
          | None => FPos (Some (start + m_start nm))
          | Some s =>
              if Nat.ltb (m_start nm) s then FPos (Some (start + m_start nm))
              else match try_handle (skipn (start + s) content) with
                   | TryRaises => FRaises
                   | TryOut false _ => FPos end_pos
                   | TryOut true n => find_skipping pattern f content (start + s + n) (Some (start + s + n))
                   end
          end
      end
  end.

(** item.py:19-44; the token: content and title *)
Record item_token := { it_content : str; it_title : option str }.
Inductive item_res := IOut (t : option item_token) (pos : nat) | IRaises | INoFuel.
Definition handle_item (content : str) : item_res :=
  match re_match_at ITEM_PATTERN content 0 with
  | None => IOut None 0
  | Some m =>
      match cap_get 2 (m_caps m) with
      | Some (start, stop) =>
          if Nat.ltb start stop then
            match find_skipping ITEM_PATTERN (S (length content)) content start None with
            | FRaises => IRaises
            | FNoFuel => INoFuel
            | FPos p =>
                let end_pos := match p with Some p => p | None => m_end m end in
                (* self._handle_environment("item", ...), then type and title *)
                let t := base_environment lower env_clear (lit "item") (strip (slice start end_pos content)) in
                IOut (Some {| it_content := et_content t;
                              it_title := match m_group content 1 m with
                                          | Some (x :: g) => Some (strip (x :: g))
                                          | _ => et_title t
                                          end |}) end_pos
            end
          else IOut None (m_end m)
      | None => IOut None (m_end m)
      end
  end.
End Item.

(** for_loop_statements.py:10-15 *)
Definition FORLOOP : re := RSeq (rstr (lit "\forloop")) (RSeq (rstar rspace) (is_ch c_lb)).
Definition FOREACH : re := RSeq (rstr (lit "\foreach")) (RSeq (rplus rspace) (RSeq (rplus rdot) (RSeq (rstar rspace) (is_ch c_lb)))).
(** for_loop_statements.py:23-37, handle: the position *)
Definition for_blocks (k : nat) (content : str) (m : mobj) : nat :=
  let start := m_end m - 1 in start + snd (extract_nested_content_sequence_blocks (skipn start content) c_lb c_rb (Some k)).
Definition handle_for (content : str) : nat :=
  match re_match_at FORLOOP content 0 with
  | Some m => for_blocks 4 content m
  | None => match re_match_at FOREACH content 0 with
            | Some m => for_blocks 2 content m
            | None => 0
            end
  end.
