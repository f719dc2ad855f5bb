(** Properties C40 and C78-C80: box commands (parser/packages/boxes.py) and the token
    objects kept in saved boxes.  Specification vocabulary: BoxSpec.v, AliasSpec.v. *)
From Coq Require Import List NArith PeanoNat Bool String.
From Verif Require Import PyStr Json DelimSpec TextModel BuilderModel TokensModel CommandSpec BoxModel BoxSpec BoxProofs BoxProofs2 BoxProofs3 AliasModel AliasSpec AliasProofs BoxCases.
Import ListNotations.
Notation length := List.length.
Open Scope list_scope.

(** * C40 *)
(** Instances share their boxes: a new handler shows a text that was saved through
    another one, *)
Theorem C40_shared_boxes_refuted :
  snd (do_calls raw fresh [Create; Create; Handle 0 (lit "\sbox{\a}{secret}"); Handle 1 (lit "\usebox{\a}")]) =
    [None; None; Some (Ok (VNone, 17)); Some (Ok (BoxModel.text_token (lit "secret"), 11))] /\
  snd (do_calls raw fresh [Create; Create; Handle 1 (lit "\usebox{\a}")]) = [None; None; Some (Ok (VNone, 11))].
Proof. exact shared. Qed.
Print Assumptions C40_shared_boxes_refuted.
(** unless it was cleared before: then it has boxes of its own and answers as if it
    were alone, whatever the other instances do. *)
Theorem C40_isolated_after_clear_partial : forall process i cs w b, nth i (own w) None = Some b ->
  map snd (filter (fun p => on i (fst p)) (combine cs (snd (do_calls process w cs)))) = snd (do_calls process w (filter (on i) cs)).
Proof. exact isolated. Qed.
Print Assumptions C40_isolated_after_clear_partial.
Theorem C40_clear_gives_own_boxes_partial : forall process cs w i, i < length (own w) ->
  nth i (own (fst (do_calls process w (cs ++ [Clear i])))) None = Some no_boxes.
Proof. exact cleared. Qed.
Print Assumptions C40_clear_gives_own_boxes_partial.
(** Clearing an instance leaves the boxes of the others as they are. *)
Theorem C40_clear_leaves_others_partial : forall process w i j, i <> j -> seen_by (fst (do_call process w (Clear i))) j = seen_by w j.
Proof. exact clear_others. Qed.
Print Assumptions C40_clear_leaves_others_partial.
Example C40_case : snd (do_calls raw fresh [Create; Create; Clear 1; Handle 0 (lit "\sbox{\a}{secret}"); Handle 1 (lit "\usebox{\a}")]) =
  [None; None; None; Some (Ok (VNone, 17)); Some (Ok (VNone, 11))].
Proof. vm_compute. reflexivity. Qed.

(** * C78 *)
(** A box command with its arguments is consumed exactly and yields its text. *)
Theorem C78_box_partial : forall process st st' name spec args rs b p v w, In (name, spec) box_commands -> name <> lit "mbox" ->
  args_at args spec (rs ++ [Some b]) p -> b <> [] -> process st b = (st', Ok v) -> yields v w ->
  handle process st ([c_bs] ++ name ++ args) = (st', Ok (w, 1 + length name + p)).
Proof. exact box_yields. Qed.
Print Assumptions C78_box_partial.
(** \mbox yields its text in one line *)
Theorem C78_mbox_partial : forall process st st' args b p, args_at args (lit "{") [Some b] p -> b <> [] ->
  (forall s, process st b = (st', Ok (VStr s)) -> handle process st (lit "\mbox" ++ args) = (st', Ok (BoxModel.text_token (strip_latex_newlines s), 5 + p))) /\
  (forall l, process st b = (st', Ok (VList (map BoxModel.text_token l))) -> handle process st (lit "\mbox" ++ args) = (st', Ok (BoxModel.text_token (strip_latex_newlines (join [c_sp] l)), 5 + p))).
Proof. exact mbox_yields. Qed.
Print Assumptions C78_mbox_partial.
(** In full it is false: \mbox raises when its text contains an unknown command, *)
Theorem C78_mbox_raises_refuted : handle unknown_command no_boxes (lit "\mbox{\foo}") = (no_boxes, Raise KeyError).
Proof. exact mbox_raises. Qed.
Print Assumptions C78_mbox_raises_refuted.
(** turns a formula into plain text, *)
Theorem C78_mbox_formula_refuted : handle (formula (lit "x^2")) no_boxes (lit "\mbox{$x^2$}") = (no_boxes, Ok (BoxModel.text_token (lit "x^2"), 12)).
Proof. exact mbox_formula. Qed.
Print Assumptions C78_mbox_formula_refuted.
(** the optional argument of \scalebox makes its text stay behind, *)
Theorem C78_scalebox_refuted : handle raw no_boxes (lit "\scalebox{0.5}[0.8]{text}") = (no_boxes, Ok (VNone, 14)).
Proof. exact scalebox_vertical. Qed.
Print Assumptions C78_scalebox_refuted.
(** \resizebox* is not a box command, *)
Theorem C78_star_refuted : handle raw no_boxes (lit "\resizebox*{2cm}{!}{text}") = (no_boxes, Ok (VNone, 0)).
Proof. exact starred_box. Qed.
Print Assumptions C78_star_refuted.
(** and an \hbox to without braces swallows the text up to the next brace. *)
Theorem C78_hbox_to_refuted : handle raw no_boxes (lit "\hbox to 3cm\bgroup a\egroup b {c} d") = (no_boxes, Ok (BoxModel.text_token (lit "c"), 34)).
Proof. exact hbox_to. Qed.
Print Assumptions C78_hbox_to_refuted.
Example C78_case : handle raw no_boxes (lit "\parbox[t] {3cm} {some {nested} text} rest") = (no_boxes, Ok (BoxModel.text_token (lit "some {nested} text"), 37)).
Proof. vm_compute. reflexivity. Qed.

(** * C79 *)
(** In every history of declaring, saving and using boxes, in every spelling, a use
    yields what its box was given last, and every command is consumed exactly. *)
Theorem C79_history_partial : forall p cs ts ns out, Forall2 (fun c '(t, n) => written c t n) cs (combine ts ns) -> length ts = length ns ->
  answers p [] cs ns out -> snd (handle_all (pure p) no_boxes ts) = out.
Proof. exact (fun p cs ts ns out F L A => history p cs ts ns [] no_boxes out F L (shows_empty p) A). Qed.
Print Assumptions C79_history_partial.
(** Boxes saved while a text is processed stay saved when that text is saved itself. *)
Theorem C79_nested_partial : forall process st st1 x b t n v, written (Save x b) t n -> process st b = (st1, Ok v) ->
  exists st2, handle process st t = (st2, Ok (VNone, n)) /\ get x (saved st2) = kept v /\ forall y, y <> x -> get y (saved st2) = get y (saved st1).
Proof. exact save_keeps. Qed.
Print Assumptions C79_nested_partial.
(** every history has an expected answer *)
Theorem C79_every_history_covered : forall p cs h ns, length ns = length cs -> exists out, answers p h cs ns out.
Proof. exact answers_total. Qed.
Print Assumptions C79_every_history_covered.
(** In full it is false: \savebox with a width saves nothing, *)
Theorem C79_width_refuted : handle raw no_boxes (lit "\savebox{\a}[3cm]{text}") = (no_boxes, Ok (VNone, 12)).
Proof. exact savebox_width. Qed.
Print Assumptions C79_width_refuted.
(** \setbox needs an equals sign, *)
Theorem C79_setbox_refuted : handle raw no_boxes (lit "\setbox\a\hbox{text}") = (no_boxes, Ok (VNone, 0)).
Proof. exact setbox_no_equals. Qed.
Print Assumptions C79_setbox_refuted.
(** and numbered boxes are written but never read. *)
Theorem C79_numbered_refuted : forall p s n n' t, snd (handle (pure p) {| saved := s; numbered := n |} t) = snd (handle (pure p) {| saved := s; numbered := n' |} t).
Proof. exact numbered_unread. Qed.
Print Assumptions C79_numbered_refuted.
Example C79_case : snd (handle_all (pure VStr) no_boxes [lit "\newsavebox{\a}"; lit "\usebox\a x"; lit "\sbox{\a} {one}"; lit "\setbox\b={two}"; lit "\usebox{a}"; lit "\savebox\a{three}"; lit "\usebox \a"; lit "\usebox{\b}"]) =
  [Ok (VNone, 15); Ok (VNone, 9); Ok (VNone, 15); Ok (VNone, 15); Ok (BoxModel.text_token (lit "one"), 10); Ok (VNone, 17); Ok (BoxModel.text_token (lit "three"), 10); Ok (BoxModel.text_token (lit "two"), 11)].
Proof. vm_compute. reflexivity. Qed.

(** * C80 *)
(** Using a box puts the tokens it holds, not copies, into the result: the text
    after a use is added to the box, and with it to the first use, *)
Theorem C80_box_grows_refuted :
  parse_acts [ASave (lit "a") [AAdd (txt "X") false]; AAdd (eqn "x") false; AUse (lit "a"); AAdd (txt " y ") false; AUse (lit "a")] =
  Ok [eqn "x"; txt "X y X y "].
Proof. exact box_grows. Qed.
Print Assumptions C80_box_grows_refuted.
(** and a label after one use labels all uses. *)
Theorem C80_box_label_refuted :
  parse_acts [ASave (lit "a") [AAdd (eqn "x") false]; AUse (lit "a"); ALabel (lit "one"); AAdd (txt " y ") false; AUse (lit "a")] =
  Ok [set (lit "labels") (VList [VStr (lit "one")]) (eqn "x"); txt " y "; set (lit "labels") (VList [VStr (lit "one")]) (eqn "x")].
Proof. exact box_label. Qed.
Print Assumptions C80_box_label_refuted.
(** As long as nothing is merged into a token that came from a box, the result is the
    one with boxes as values. *)
Theorem C80_boxes_are_values_partial : forall l vbx ts f, means [] l ([], false) vbx (ts, f) -> parse_acts l = Ok ts.
Proof. exact parse_refines. Qed.
Print Assumptions C80_boxes_are_values_partial.
Example C80_case : exists l vbx ts f, means [] l ([], false) vbx (ts, f) /\ length l = 5 /\ ts = [txt "p X"; eqn "e"; eqn "x"; txt "X"; eqn "e"].
Proof. exact (ex_intro _ _ (ex_intro _ _ (ex_intro _ _ (ex_intro _ _ (conj box_means (conj eq_refl eq_refl)))))). Qed.
