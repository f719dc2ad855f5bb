(** Specification vocabulary for list items. *)
From Coq Require Import List NArith PeanoNat Bool String.
From Verif Require Import PyStr DelimSpec EnvSpec EnvHandlerCases.
Import ListNotations.
Notation length := List.length.
Open Scope list_scope.

Definition starts_with (p : ch -> bool) (s : str) : bool := match s with x :: _ => p x | [] => false end.
(** the suffix [s] starts with the command \item; [w]: word characters *)
Definition item_here (w : ch -> bool) (s : str) : Prop := exists r, s = lit "\item" ++ r /\ starts_with w r = false.
(** it starts with \begin{name} *)
Definition begin_here (s : str) : Prop := exists ws name r, blank ws /\ ~ In c_rb name /\ s = lit "\begin" ++ ws ++ [c_lb] ++ name ++ [c_rb] ++ r.
(** it starts with \begingroup or \bgroup *)
Definition group_here (w : ch -> bool) (s : str) : Prop := exists short r, s = group_word short ++ r /\ starts_with w r = false.
Definition opens_here (w : ch -> bool) (s : str) : Prop := begin_here s \/ group_here w s.

(** [block w s n]: the environment or group at the start of [s] has [n]
    characters (an environment that is never closed: just its \begin) *)
Inductive block (w : ch -> bool) (s : str) : nat -> Prop :=
| bk_env : forall ws name r a b, blank ws -> ~ In c_rb name -> strip name = name -> s = lit "\begin" ++ ws ++ [c_lb] ++ name ++ [c_rb] ++ r ->
    closed_at name s (6 + length ws + length name + 2) a b -> block w s b
| bk_open : forall ws name r, blank ws -> ~ In c_rb name -> strip name = name -> s = lit "\begin" ++ ws ++ [c_lb] ++ name ++ [c_rb] ++ r ->
    (forall a b, ~ closed_at name s (6 + length ws + length name + 2) a b) -> block w s (6 + length ws + length name + 2)
| bk_group : forall short r a b, s = group_word short ++ r -> starts_with w r = false ->
    pclosed_at (fst (group_patterns w short)) (snd (group_patterns w short)) s (length (group_word short)) a b -> block w s b.

(** [item_ends w text pos e]: reading on from [pos] inside an item, the item
    ends at [e]: at the next \item outside every environment and group, or at
    the end of the text. *)
Inductive item_ends (w : ch -> bool) (text : str) : nat -> nat -> Prop :=
| ie_item : forall pos p, pos <= p -> item_here w (skipn p text) ->
    (forall i, pos <= i < p -> ~ item_here w (skipn i text) /\ ~ opens_here w (skipn i text)) -> item_ends w text pos p
| ie_block : forall pos s n e, pos <= s -> opens_here w (skipn s text) -> block w (skipn s text) n ->
    (forall i, pos <= i < s -> ~ item_here w (skipn i text) /\ ~ opens_here w (skipn i text)) ->
    item_ends w text (s + n) e -> item_ends w text pos e
| ie_last : forall pos, (forall i, pos <= i -> ~ item_here w (skipn i text)) -> item_ends w text pos (length text).

(** [item_head u title n]: the text [u] after \item starts with an optional
    [title] and blanks, [n] characters in all *)
Inductive item_head : str -> option str -> nat -> Prop :=
| ih_title : forall ws1 t ws2 body, blank ws1 -> ~ In c_rk t -> blank ws2 -> starts_with isspace body = false ->
    item_head (ws1 ++ [c_lk] ++ t ++ [c_rk] ++ ws2 ++ body) (Some t) (length (ws1 ++ [c_lk] ++ t ++ [c_rk] ++ ws2))
| ih_plain : forall ws1 body, blank ws1 -> starts_with isspace body = false -> (forall r, body = c_lk :: r -> ~ In c_rk r) ->
    item_head (ws1 ++ body) None (length ws1).

(** the handler reports the body without a leading [..] group *)
Definition kept_body (body kept : str) : Prop :=
  (kept = body /\ forall v n, ~ group_at c_lk c_rk body v n) \/ (exists v n, group_at c_lk c_rk body v n /\ kept = skipn n body).
(** the reported title: none for an empty one *)
Definition shown_title (title : option str) : option str :=
  match title with Some [] => None | Some t => Some (strip t) | None => None end.
