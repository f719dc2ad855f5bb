(** C107: the handlers of packages (packages/titlesec.py, overpic.py, tikz_pgf.py).  [titlesec t] is
    TitlesecHandler.handle: the token and the position; [tikz] and [overpic] are the handlers of ParseCore.v:
    [h_can h st t] is can_handle, [h_run h p st t prev] is handle (state, token, position).  The specification is
    in PackSpec.v and EnvSpec.v ([closed_at]: the \end that closes an environment). *)
From Coq Require Import List NArith ZArith PeanoNat Lia Bool String.
From Verif Require Import PyStr DelimSpec CommandSpec EnvSpec Json BuilderModel TokensModel ParseModel ParseCore PackModel PackSpec PackProofs PackProofs2 PackCases.
Import ListNotations. Notation length := List.length. Open Scope list_scope.

(** A title command is what can be handled, *)
Theorem C107_title_which : forall t, titlesec_can t = true <-> exists head spec r, title_command head spec /\ t = head ++ c_lb :: r.
Proof. exact title_can. Qed.
Print Assumptions C107_title_which.
(** with its arguments it is removed from the text, all of it and nothing more; *)
Theorem C107_title_taken : forall head spec r rs p, title_command head spec -> args_at (c_lb :: r) spec rs p -> titlesec (head ++ c_lb :: r) = (None, length head + p).
Proof. exact title_taken. Qed.
Print Assumptions C107_title_taken.
Example C107_title_taken_ex : title_command (lit "\titleformat ") (lit "{[{{{{") /\
  args_at (lit "{\section}{\Large}{\thesection}{1em}{}[x] text") (lit "{[{{{{") [Some (lit "\section"); None; Some (lit "\Large"); Some (lit "\thesection"); Some (lit "1em"); Some []] 38 /\
  titlesec (lit "\titleformat {\section}{\Large}{\thesection}{1em}{}[x] text") = (None, 51).
Proof. exact titleformat_case. Qed.
(** whatever follows, the handler makes no token, moves forward and stays inside the text; other text it leaves. *)
Theorem C107_title_bounds : forall t, titlesec_can t = true -> fst (titlesec t) = None /\ 0 < snd (titlesec t) <= length t.
Proof. exact title_bounds. Qed.
Print Assumptions C107_title_bounds.
Theorem C107_title_other : forall t, titlesec_can t = false -> titlesec t = (None, 0).
Proof. exact title_other. Qed.
Print Assumptions C107_title_other.

(** A closed picture becomes one diagram token with the environment's name and its content, and the text
    goes on behind its \end; *)
Theorem C107_picture : forall St (p : parser St) st prev ws name r s e, blank ws -> picture_name name -> let t := begin_text ws name ++ r in closed_at name t (length (begin_text ws name)) s e ->
  h_can (tikz St) st t = true /\
  h_run (tikz St) p st t prev = ret (st, TDict [(lit "type", VStr (lit "diagram")); (lit "name", VStr name); (lit "content", VStr (strip (slice (length (begin_text ws name)) s t)))], Z.of_nat e).
Proof. exact picture_token. Qed.
Print Assumptions C107_picture.
Example C107_picture_ex : picture_name (lit "tikzpicture") /\ exists s, closed_at (lit "tikzpicture") (begin_text [] (lit "tikzpicture") ++ pic_text) (length (begin_text [] (lit "tikzpicture"))) s 86 /\
  strip (slice (length (begin_text [] (lit "tikzpicture"))) s (begin_text [] (lit "tikzpicture") ++ pic_text)) = lit "[scale=2]\begin{tikzpicture}\draw\end{tikzpicture}".
Proof. exact picture_case. Qed.
(** an overpic becomes the token of its image, without its options and without what is written over it, *)
Theorem C107_overpic : forall St (p : parser St) st prev ws r s e rest file m, blank ws -> let t := begin_text ws (lit "overpic") ++ r in let j := length (begin_text ws (lit "overpic")) in
  closed_at (lit "overpic") t j s e -> behind_options (strip (slice j s t)) rest -> group_at c_lb c_rb rest file m ->
  h_can (overpic St) st t = true /\ h_run (overpic St) p st t prev = ret (st, TDict [(lit "type", VStr (lit "includegraphics")); (lit "content", VStr file)], Z.of_nat e).
Proof. exact overpic_token. Qed.
Print Assumptions C107_overpic.
Example C107_overpic_ex : exists s, closed_at (lit "overpic") (begin_text (lit " ") (lit "overpic") ++ lit "[width=1cm]{a.png}\put(1,2){x}\end{overpic}") (length (begin_text (lit " ") (lit "overpic"))) s 59 /\
  behind_options (strip (slice (length (begin_text (lit " ") (lit "overpic"))) s (begin_text (lit " ") (lit "overpic") ++ lit "[width=1cm]{a.png}\put(1,2){x}\end{overpic}"))) (lit "{a.png}\put(1,2){x}") /\
  group_at c_lb c_rb (lit "{a.png}\put(1,2){x}") (lit "a.png") 7.
Proof. exact overpic_case. Qed.
(** and without an image it is removed. *)
Theorem C107_overpic_empty : forall St (p : parser St) st prev ws r s e rest, blank ws -> let t := begin_text ws (lit "overpic") ++ r in let j := length (begin_text ws (lit "overpic")) in
  closed_at (lit "overpic") t j s e -> behind_options (strip (slice j s t)) rest -> (forall b n, ~ group_at c_lb c_rb rest b n) ->
  h_can (overpic St) st t = true /\ h_run (overpic St) p st t prev = ret (st, TNone, Z.of_nat e).
Proof. exact overpic_none. Qed.
Print Assumptions C107_overpic_empty.
(** A library command is removed with its group; *)
Theorem C107_library : forall St (p : parser St) st prev word g body rest, library_word word -> blank g -> good_body body ->
  h_can (tikz St) st (word ++ g ++ [c_lb] ++ body ++ [c_rb] ++ rest) = true /\
  h_run (tikz St) p st (word ++ g ++ [c_lb] ++ body ++ [c_rb] ++ rest) prev = ret (st, TNone, Z.of_nat (length (word ++ g ++ [c_lb] ++ body ++ [c_rb]))).
Proof. exact library_taken. Qed.
Print Assumptions C107_library.
Example C107_library_ex : library_word (lit "\usepgfplotslibrary") /\ good_body (lit "fill{b}etween").
Proof. exact library_case. Qed.
(** without a closing brace the word alone is removed. *)
Theorem C107_library_bounds : forall St (p : parser St) st prev word g r, library_word word -> blank g ->
  exists n, h_run (tikz St) p st (word ++ g ++ c_lb :: r) prev = ret (st, TNone, Z.of_nat n) /\ length word <= n <= length (word ++ g ++ c_lb :: r).
Proof. exact library_bounds. Qed.
Print Assumptions C107_library_bounds.

(** The handlers do not always move forward: a picture that is not closed is accepted and the position is -1
    (the main loop does not end then, C38). *)
Theorem C107_picture_open_refuted : forall St (p : parser St) st prev ws name r, blank ws -> picture_name name -> let t := begin_text ws name ++ r in (forall s e, ~ closed_at name t (length (begin_text ws name)) s e) ->
  h_can (tikz St) st t = true /\ h_run (tikz St) p st t prev = ret (st, TDict [(lit "type", VStr (lit "diagram")); (lit "name", VStr name); (lit "content", VStr [])], (-1)%Z).
Proof. exact picture_open. Qed.
Print Assumptions C107_picture_open_refuted.
Example C107_picture_open_refuted_ex : forall s e, ~ closed_at (lit "tikzpicture") (begin_text [] (lit "tikzpicture") ++ lit "\draw") (length (begin_text [] (lit "tikzpicture"))) s e.
Proof. exact open_case. Qed.
Theorem C107_overpic_open_refuted : forall St (p : parser St) st prev ws r, blank ws -> let t := begin_text ws (lit "overpic") ++ r in (forall s e, ~ closed_at (lit "overpic") t (length (begin_text ws (lit "overpic"))) s e) ->
  h_can (overpic St) st t = true /\ h_run (overpic St) p st t prev = ret (st, TNone, (-1)%Z).
Proof. exact overpic_open. Qed.
Print Assumptions C107_overpic_open_refuted.
