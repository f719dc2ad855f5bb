(** Vocabulary for C91-C92: bibliographies made of \bibitem. *)
From Coq Require Import List NArith PeanoNat Bool String.
From Verif Require Import PyStr DelimSpec RegexLocal StyleSpec ItemSpec BibitemModel.
Import ListNotations. Notation length := List.length. Notation concat := List.concat. Open Scope list_scope.

(** One item: \bibitem[label]{key} body; the body goes up to the next \bibitem. *)
Record source := { so_label : option str; so_key : str; so_body : str }.
Definition item_word : str := lit "\bibitem".
Inductive item_text (it : source) : str -> Prop :=
| it_plain : forall ws, so_label it = None -> blank ws -> ~ In c_rb (so_key it) -> ~ occurs item_word (so_body it) ->
    item_text it (item_word ++ ws ++ [c_lb] ++ so_key it ++ [c_rb] ++ so_body it)
| it_label : forall l ws ws2, so_label it = Some l -> ~ In c_rk l -> blank ws -> blank ws2 -> ~ In c_rb (so_key it) -> ~ occurs item_word (so_body it) ->
    item_text it (item_word ++ ws ++ [c_lk] ++ l ++ [c_rk] ++ ws2 ++ [c_lb] ++ so_key it ++ [c_rb] ++ so_body it).
Inductive items_text : list source -> str -> Prop :=
| its_nil : items_text [] []
| its_cons : forall it l s t, item_text it s -> items_text l t -> items_text (it :: l) (s ++ t).

(** [replaced w cmd by s out]: every \cmd of [s], as a whole word, is replaced *)
Inductive replaced (w : ch -> bool) (cmd by_ : str) : str -> str -> Prop :=
| rp_nil : replaced w cmd by_ [] []
| rp_hit : forall r out, starts_with w r = false -> replaced w cmd by_ r out -> replaced w cmd by_ (cmd ++ r) (by_ ++ out)
| rp_other : forall x r out, (forall q, x :: r = cmd ++ q -> starts_with w q = true) -> replaced w cmd by_ r out -> replaced w cmd by_ (x :: r) (x :: out).

(** [author p a]: [a] is the text before the first comma *)
Definition author (p a : str) : Prop := ~ In c_comma a /\ (p = a \/ exists r, p = a ++ [c_comma] ++ r).
(** the content of an entry whose predecessor has the content [prev]: without \newblock,
    with the author of the predecessor for \bysame *)
Inductive content_of (w : ch -> bool) (prev : option str) (body : str) : str -> Prop :=
| co_first : forall c, prev = None -> replaced w (lit "\newblock") [] (strip body) c -> content_of w prev body c
| co_next : forall p a c c', prev = Some p -> author p a -> a <> [] -> ~ In c_bs a -> replaced w (lit "\newblock") [] (strip body) c -> replaced w (lit "\bysame") a c c' -> content_of w prev body c'
| co_noauthor : forall p c, prev = Some p -> author p [] -> replaced w (lit "\newblock") [] (strip body) c -> content_of w prev body c
| co_nobysame : forall p c, prev = Some p -> replaced w (lit "\newblock") [] (strip body) c -> ~ occurs (lit "\bysame") c -> content_of w prev body c.
(** the entries of the items that have a text *)
Inductive entries_of (w : ch -> bool) : option str -> list source -> list bibitem -> Prop :=
| en_nil : forall prev, entries_of w prev [] []
| en_empty : forall prev it l out, blank (so_body it) -> entries_of w prev l out -> entries_of w prev (it :: l) out
| en_item : forall prev it l c out lab, ~ blank (so_body it) -> content_of w prev (so_body it) c ->
    lab = match so_label it with None | Some [] => None | Some l => Some (strip l) end ->
    entries_of w (Some c) l out -> entries_of w prev (it :: l) ({| bi_key := strip (so_key it); bi_content := c; bi_label := lab |} :: out).

(** \w: the letters are word characters, a backslash and a closing brace are not *)
Definition word_class (w : ch -> bool) : Prop := (forall x, letter x -> w x = true) /\ w c_bs = false /\ w c_rb = false.
(** An environment whose name ends in "bibliography" *)
Definition open_tag (name : str) : str := lit "\begin{" ++ name ++ [c_rb].
Definition close_tag (name : str) : str := lit "\end{" ++ name ++ [c_rb].
Definition bibliography_env (w : ch -> bool) (content pre name inner post : str) : Prop :=
  content = pre ++ open_tag name ++ inner ++ close_tag name ++ post /\ exists p, name = p ++ lit "bibliography" /\ forallb w p = true.
(** the text that is searched for items: the inside of the first such environment, the
    whole text if there is none *)
Inductive searched (w : ch -> bool) (content : str) : str -> Prop :=
| se_env : forall pre name inner post, bibliography_env w content pre name inner post -> ~ occurs (lit "bibliography}") pre -> ~ occurs (close_tag name) inner -> searched w content inner
| se_all : (forall pre name inner post, ~ bibliography_env w content pre name inner post) -> searched w content content.
