(** C85: reading a document piece by piece, without positions.  [prev] is the
    character before the text that is left. *)
From Coq Require Import List NArith ZArith PeanoNat Bool String.
From Verif Require Import PyStr Json TexUtilsModel DelimSpec BuilderModel TokensModel CommandModel CommandSpec ParseModel.
Import ListNotations. Notation length := List.length. Notation concat := List.concat. Open Scope list_scope.

Definition escapable : str := lit "$%&_#{}~".
(** text without delimiters: ordinary characters, escaped special ones, and opening braces glued to
    what precedes them (the flag: there is a character before and it is not a blank) *)
Inductive inert : bool -> str -> Prop :=
| in_nil : forall b, inert b []
| in_char : forall b x w, ~ In x [c_bs; c_dollar; c_pct; c_lb] -> inert (negb (isspace x)) w -> inert b (x :: w)
| in_escape : forall b x w, In x escapable -> inert true w -> inert b (c_bs :: x :: w)
| in_brace : forall w, (forall r, w <> c_rb :: r) -> inert true w -> inert true (c_lb :: w).
(** a command, a formula or a comment sign *)
Definition command_start (d : str) : Prop :=
  exists x r, d = x :: r /\ (x = c_dollar \/ x = c_pct \/ (x = c_bs /\ forall y q, r = y :: q -> ~ In y escapable)).
(** an opening brace that is not closed *)
Definition open_brace (d : str) : Prop := exists r, d = c_lb :: r /\ forall b n, ~ group_at c_lb c_rb d b n.
(** the text [w] ends before [d] *)
Inductive delimits (w : str) : str -> Prop :=
| de_command : forall d, command_start d -> delimits w d
| de_group : forall x r, isspace x = true -> delimits w (x :: c_lb :: r)
| de_empty : forall r, (forall a x, w = a ++ [x] -> isspace x = false) -> delimits w (c_lb :: c_rb :: r).
Definition last_char (prev : option ch) (s : str) : option ch := match rev s with x :: _ => Some x | [] => prev end.
Definition after_space (prev : option ch) (s : str) : bool := match last_char prev s with Some x => isspace x | None => false end.

Section Reading.
Variable St : Type.
Variable expand : St -> str -> res str.
Variable user_command : St -> str -> res (option (str * Z)).
Variable define : St -> str -> res (St * Z).
Variable if_else : St -> str -> res (option (str * Z)).
Variable legacy : St -> str -> res (option (str * Z)).
Variable handlers : list (handler St).
Variable process : parser St -> bool -> tok_in -> St -> list dict -> run (St * list dict).
Variable on_label : St -> str -> list dict -> res (St * list dict).

(** what happens at a command: a replacement, or tokens *)
Inductive act := Replaced (s : St) (r : str) (e : nat) | Consumed (s : St) (tk : list dict) (e : nat).
Definition idle (f : St -> str -> res (option (str * Z))) (s : St) (d : str) : Prop :=
  f s d = Ok None \/ exists r z, f s d = Ok (Some (r, z)) /\ (z <= 0)%Z.
Definition no_macro (s : St) (d : str) (s1 : St) : Prop := idle user_command s d /\ exists z, define s d = Ok (s1, z) /\ (z <= 0)%Z.
Definition unclaimed (o : opts) (s : St) (d : str) (s1 : St) : Prop := no_macro s d s1 /\ idle if_else s1 d /\ (legacy_on o = true -> idle legacy s1 d).
Definition nothing (t : tok_in) : Prop := t = TNone \/ t = TStr [] \/ t = TDict [] \/ t = TList [].
Definition nobody (o : opts) (s : St) (d : str) (s1 : St) : Prop := unclaimed o s d s1 /\ Forall (fun h => h_can h s1 d = false) handlers.
Definition not_builtin (d : str) : Prop := exists x r, d = c_bs :: x :: r /\ isspace x = false /\ x <> c_bs /\
  forall q, d <> lit "\label" ++ q /\ d <> lit "\newline" ++ q /\ d <> lit "\linebreak" ++ q.

(** The component that acts at [d]: user macros, definitions, conditionals, legacy formatting,
    the first handler that accepts, labels and line breaks, unknown commands, one character. *)
Inductive acts (o : opts) (ps : parser St) (s : St) (tk : list dict) (d : str) : act -> Prop :=
| ac_macro : forall r e, user_command s d = Ok (Some (r, Z.of_nat e)) -> 0 < e -> acts o ps s tk d (Replaced s r e)
| ac_define : forall s1 e, idle user_command s d -> define s d = Ok (s1, Z.of_nat e) -> 0 < e -> acts o ps s tk d (Consumed s1 tk e)
| ac_if : forall s1 r e, no_macro s d s1 -> if_else s1 d = Ok (Some (r, Z.of_nat e)) -> 0 < e -> acts o ps s tk d (Replaced s1 r e)
| ac_legacy : forall s1 r e, no_macro s d s1 -> idle if_else s1 d -> legacy_on o = true -> legacy s1 d = Ok (Some (r, Z.of_nat e)) -> 0 < e -> acts o ps s tk d (Replaced s1 r e)
| ac_silent : forall s1 hs1 h hs2 s2 t e, unclaimed o s d s1 -> handlers = hs1 ++ h :: hs2 -> Forall (fun g => h_can g s1 d = false) hs1 -> h_can h s1 d = true ->
    h_run h ps s1 d (option_map snd (last_of tk)) = ret (s2, t, Z.of_nat e) -> nothing t -> acts o ps s tk d (Consumed s2 tk e)
| ac_token : forall s1 hs1 h hs2 s2 t e s3 tk3, unclaimed o s d s1 -> handlers = hs1 ++ h :: hs2 -> Forall (fun g => h_can g s1 d = false) hs1 -> h_can h s1 d = true ->
    h_run h ps s1 d (option_map snd (last_of tk)) = ret (s2, t, Z.of_nat e) -> ~ nothing t -> process ps (h_env h) t s2 tk = ret (s3, tk3) -> acts o ps s tk d (Consumed s3 tk3 e)
| ac_label : forall s1 ws l rest s2 tk2, nobody o s d s1 -> d = lit "\label" ++ ws ++ [c_lb] ++ l ++ [c_rb] ++ rest -> blank ws -> good_body l -> l <> [] ->
    on_label s1 l tk = Ok (s2, tk2) -> acts o ps s tk d (Consumed s2 tk2 (length d - length rest))
| ac_newline : forall s1 name rest tk1, nobody o s d s1 -> In name [lit "\newline"; lit "\linebreak"] -> d = name ++ rest -> (forall x q, rest = x :: q -> ~ is_letter x) ->
    add_token (TStr [c_nl]) tk false = Ok tk1 -> acts o ps s tk d (Consumed s1 tk1 (length name))
| ac_break : forall s1 rest tk1, nobody o s d s1 -> d = [c_bs; c_bs] ++ rest -> (forall ws a q, blank ws -> ~ In c_rk a -> rest <> ws ++ [c_lk] ++ a ++ [c_rk] ++ q) ->
    add_token (TStr (line_break o)) tk false = Ok tk1 -> acts o ps s tk d (Consumed s1 tk1 2)
| ac_break_by : forall s1 ws a rest tk1, nobody o s d s1 -> d = [c_bs; c_bs] ++ ws ++ [c_lk] ++ a ++ [c_rk] ++ rest -> blank ws -> ~ In c_rk a ->
    add_token (TStr (line_break o)) tk false = Ok tk1 -> acts o ps s tk d (Consumed s1 tk1 (length d - length rest))
| ac_space : forall s1 x rest, nobody o s d s1 -> d = c_bs :: x :: rest -> isspace x = true -> acts o ps s tk d (Consumed s1 tk 2)
| ac_unknown : forall s1 tok e tk1, nobody o s d s1 -> not_builtin d -> unknown_on o = true -> check_unknown St expand s1 d = Ok (Some (tok, e)) ->
    add_token (TDict tok) tk false = Ok tk1 -> acts o ps s tk d (Consumed s1 tk1 e)
| ac_backslash : forall s1 x rest tk1, nobody o s d s1 -> not_builtin d -> d = c_bs :: x :: rest -> unknown_on o = false \/ (~ word_char x /\ x <> 42%N) ->
    add_token (TStr [c_bs]) tk false = Ok tk1 -> acts o ps s tk d (Consumed s1 tk1 1)
| ac_char : forall s1 x rest tk1, nobody o s d s1 -> d = x :: rest -> x <> c_bs -> add_token (TStr [x]) tk false = Ok tk1 -> acts o ps s tk d (Consumed s1 tk1 1).

(** the text as it is added *)
Definition shown_as (o : opts) (s : St) (w x : str) : Prop := if unknown_on o then expand s w = Ok x else x = w.
Definition visible (w : str) : Prop := exists x r, w = x :: r /\ isspace x = false.
(** a call of parse made by a component: options, state, text, result *)
Definition call := (opts * St * str * (St * list dict))%type.
Definition answers (ps : parser St) (calls : list call) : Prop := forall o s c r, In (o, s, c, r) calls -> ps o s c = ret r.

Inductive reading : opts -> St -> option ch -> list dict -> str -> St -> list dict -> Prop :=
| rd_end : forall o s prev tk text, blank text -> reading o s prev tk text s tk
| rd_text_end : forall o s prev tk ws w x tk1, blank ws -> inert false w -> visible w -> (forall p, w <> p ++ [c_lb]) -> shown_as o s w x ->
    add_token (TStr x) tk (after_space prev ws) = Ok tk1 -> reading o s prev tk (ws ++ w) s tk1
| rd_text : forall o s prev tk ws w x tk1 d s' tk', blank ws -> inert false w -> visible w -> (forall p, w <> p ++ [c_lb]) -> shown_as o s w x ->
    add_token (TStr x) tk (after_space prev ws) = Ok tk1 -> delimits w d -> reading o s (last_char prev w) tk1 d s' tk' -> reading o s prev tk (ws ++ w ++ d) s' tk'
(** text that ends with an opening brace, glued or escaped: the brace is read again as the start of a
    group, and it is lost at the end of the document *)
| rd_cut : forall o s prev tk ws p x tk1 d s' tk', blank ws -> inert false (p ++ [c_lb]) -> visible p -> shown_as o s p x ->
    add_token (TStr x) tk (after_space prev ws) = Ok tk1 -> delimits (p ++ [c_lb]) d -> reading o s (last_char prev p) tk1 (c_lb :: d) s' tk' ->
    reading o s prev tk (ws ++ p ++ [c_lb] ++ d) s' tk'
| rd_cut_end : forall o s prev tk ws p x tk1, blank ws -> inert false (p ++ [c_lb]) -> visible p -> shown_as o s p x ->
    add_token (TStr x) tk (after_space prev ws) = Ok tk1 -> reading o s prev tk (ws ++ p ++ [c_lb]) s tk1
| rd_group : forall o s prev tk ws inner rest s1 nested tk1 s' tk', blank ws -> good_body inner ->
    reading default_opts s None [] (strip_latex_comments inner) s1 nested ->
    add_tokens (map (fun d => (TDict d, false)) nested) tk = Ok tk1 ->
    reading o s1 (Some c_rb) tk1 rest s' tk' -> reading o s prev tk (ws ++ [c_lb] ++ inner ++ [c_rb] ++ rest) s' tk'
| rd_act : forall o s prev tk ws d calls s1 tk1 e s' tk', blank ws -> command_start d \/ open_brace d ->
    (forall o1 s0 c s2 tk2, In (o1, s0, c, (s2, tk2)) calls -> reading o1 s0 None [] (strip_latex_comments c) s2 tk2) ->
    (forall ps, answers ps calls -> acts o ps s tk d (Consumed s1 tk1 e)) -> e <= length d ->
    reading o s1 (last_char prev (ws ++ firstn e d)) tk1 (skipn e d) s' tk' -> reading o s prev tk (ws ++ d) s' tk'
| rd_replace : forall o s prev tk ws d s1 r e s' tk', blank ws -> command_start d \/ open_brace d ->
    (forall ps, acts o ps s tk d (Replaced s1 r e)) -> e <= length d ->
    reading o s1 (last_char prev ws) tk (r ++ skipn e d) s' tk' -> reading o s prev tk (ws ++ d) s' tk'.
End Reading.
Arguments Replaced {St}. Arguments Consumed {St}.
