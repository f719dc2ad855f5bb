(** C107: cases. *)
From Coq Require Import List NArith ZArith PeanoNat Lia Bool String.
From Verif Require Import PyStr DelimSpec DelimProofs DelimFinal CommandSpec CommandCases EnvModel EnvSpec EnvProofs TexUtilsModel ParseModel ParseCore PackModel PackSpec PackProofs PackProofs2.
Import ListNotations. Notation length := List.length. Notation concat := List.concat. Open Scope list_scope.
Lemma block_found : forall ws name r i e c, blank ws -> let t := begin_text ws name ++ r in find_matching_env_block t name 0 = Some (i, e, c) ->
  exists s, closed_at name t (length (begin_text ws name)) s e /\ strip (slice (length (begin_text ws name)) s t) = c.
Proof.
  intros ws name r i e c B t E. destruct (fmeb_spec t name 0) as [(i' & j' & s' & e' & F & C' & E')|(_ & E')]; cbn [skipn] in *; rewrite E in E'; [|discriminate].
  injection E' as -> -> ->. destruct (marker_first_fun _ _ _ _ _ _ _ (begin_marker ws name r B) F) as (<- & <-). exists s'. split; [exact C'|reflexivity].
Qed.
Lemma block_not_found : forall ws name r, blank ws -> let t := begin_text ws name ++ r in find_matching_env_block t name 0 = None -> forall s e, ~ closed_at name t (length (begin_text ws name)) s e.
Proof. intros ws name r B t E s e C. destruct (block_closed ws name r s e B C) as (i & E'). fold t in E'. congruence. Qed.
Lemma titleformat_case : title_command (lit "\titleformat ") (lit "{[{{{{") /\
  args_at (lit "{\section}{\Large}{\thesection}{1em}{}[x] text") (lit "{[{{{{") [Some (lit "\section"); None; Some (lit "\Large"); Some (lit "\thesection"); Some (lit "1em"); Some []] 38 /\
  titlesec (lit "\titleformat {\section}{\Large}{\thesection}{1em}{}[x] text") = (None, 51).
Proof.
  assert (A : args_at (lit "{\section}{\Large}{\thesection}{1em}{}[x] text") (lit "{[{{{{") [Some (lit "\section"); None; Some (lit "\Large"); Some (lit "\thesection"); Some (lit "1em"); Some []] (10 + (8 + (13 + (5 + (2 + 0)))))).
  { apply (aa_req _ (lit "\section") 10); [apply (proj1 (extract_nested_content_iff _ _ _ _ _ delims_curly)); reflexivity|]. apply aa_absent; [intros b n G; apply (proj2 (extract_nested_content_iff _ _ _ _ _ delims_square)) in G; discriminate G|].
    apply (aa_req _ (lit "\Large") 8); [apply (proj1 (extract_nested_content_iff _ _ _ _ _ delims_curly)); reflexivity|]. apply (aa_req _ (lit "\thesection") 13); [apply (proj1 (extract_nested_content_iff _ _ _ _ _ delims_curly)); reflexivity|].
    apply (aa_req _ (lit "1em") 5); [apply (proj1 (extract_nested_content_iff _ _ _ _ _ delims_curly)); reflexivity|]. apply (aa_req _ [] 2); [apply (proj1 (extract_nested_content_iff _ _ _ _ _ delims_curly)); reflexivity|]. apply aa_nil. }
  split; [apply (tc_format (lit " ")); reflexivity|]. split; [exact A|reflexivity].
Qed.
Definition pic_text : str := lit "[scale=2]\begin{tikzpicture}\draw\end{tikzpicture}\end{tikzpicture} after".
Lemma picture_case : picture_name (lit "tikzpicture") /\ exists s, closed_at (lit "tikzpicture") (begin_text [] (lit "tikzpicture") ++ pic_text) (length (begin_text [] (lit "tikzpicture"))) s 86 /\
  strip (slice (length (begin_text [] (lit "tikzpicture"))) s (begin_text [] (lit "tikzpicture") ++ pic_text)) = lit "[scale=2]\begin{tikzpicture}\draw\end{tikzpicture}".
Proof. split; [left; reflexivity|]. eapply (block_found [] (lit "tikzpicture") pic_text 0); [reflexivity|]. vm_compute. reflexivity. Qed.
Lemma open_case : forall s e, ~ closed_at (lit "tikzpicture") (begin_text [] (lit "tikzpicture") ++ lit "\draw") (length (begin_text [] (lit "tikzpicture"))) s e.
Proof. apply block_not_found; reflexivity. Qed.
Lemma overpic_case : exists s, closed_at (lit "overpic") (begin_text (lit " ") (lit "overpic") ++ lit "[width=1cm]{a.png}\put(1,2){x}\end{overpic}") (length (begin_text (lit " ") (lit "overpic"))) s 59 /\
  behind_options (strip (slice (length (begin_text (lit " ") (lit "overpic"))) s (begin_text (lit " ") (lit "overpic") ++ lit "[width=1cm]{a.png}\put(1,2){x}\end{overpic}"))) (lit "{a.png}\put(1,2){x}") /\
  group_at c_lb c_rb (lit "{a.png}\put(1,2){x}") (lit "a.png") 7.
Proof.
  destruct (block_found (lit " ") (lit "overpic") (lit "[width=1cm]{a.png}\put(1,2){x}\end{overpic}") 0 59 (lit "[width=1cm]{a.png}\put(1,2){x}")) as (s & C & E); [reflexivity|vm_compute; reflexivity|].
  exists s. split; [exact C|]. rewrite E. split.
  - change (lit "{a.png}\put(1,2){x}") with (skipn 11 (lit "[width=1cm]{a.png}\put(1,2){x}")). apply (bo_some _ (lit "width=1cm") 11). apply (proj1 (extract_nested_content_iff _ _ _ _ _ delims_square)). reflexivity.
  - apply (proj1 (extract_nested_content_iff _ _ _ _ _ delims_curly)). reflexivity.
Qed.
Lemma library_case : library_word (lit "\usepgfplotslibrary") /\ good_body (lit "fill{b}etween").
Proof. split; [right; right; left; reflexivity|apply closed_grp; reflexivity]. Qed.
