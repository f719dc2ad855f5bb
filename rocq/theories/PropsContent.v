(** Content commands: C39, C48, C49. *)
From Coq Require Import List NArith ZArith PeanoNat Lia Bool String.
From Verif Require Import PyStr Regex Json TexUtilsModel DelimSpec DelimProofs DelimFinal ContentModel ContentSpec ContentProofs ContentProofs2 ContentProofs3 ContentProofs4.
Import ListNotations. Notation length := List.length. Notation concat := List.concat. Open Scope list_scope.

(** * C39 *)
(** A citation command with any notes and blanks: the keys of its expanded
    argument, trimmed and in order, the notes as title, and the end of the command. *)
Theorem C39_citations : forall word expand d name ws1 pre post ws2 body rest ks,
  In name cite_commands -> blank ws1 -> blank ws2 -> good_note pre -> good_note post -> (pre = None -> post = None) -> closed body ->
  expand body = join [c_comma] ks -> ks <> [] -> (forall k, In k ks -> ~ In c_comma k) ->
  content_handle word expand d (cite_text name ws1 pre post ws2 body rest) =
    Ok (d, (VDict ([(lit "type", VStr (lit "citation")); (lit "content", key_list ks)] ++ note_title pre post),
            length (cite_text name ws1 pre post ws2 body []))).
Proof. exact citation. Qed.
Print Assumptions C39_citations.
Theorem C39_cref : forall word expand d name star ws body rest ks, In name ["\cref"; "\Cref"]%string -> blank ws -> closed body ->
  expand body = join [c_comma] ks -> ks <> [] -> (forall k, In k ks -> ~ In c_comma k) ->
  content_handle word expand d (lit name ++ starred star ++ ws ++ [c_lb] ++ body ++ [c_rb] ++ rest) =
    Ok (d, (VDict [(lit "type", VStr (lit "ref")); (lit "content", key_list ks)], length (lit name ++ starred star ++ ws ++ [c_lb] ++ body ++ [c_rb]))).
Proof. exact cref_command. Qed.
Print Assumptions C39_cref.
Lemma closed_group : forall body, extract_nested_content ([c_lb] ++ body ++ [c_rb]) c_lb c_rb = (Some body, 1 + length body + 1) -> closed body.
Proof.
  intros body H. apply (proj1 (extract_nested_content_iff c_lb c_rb _ _ _ delims_curly)) in H as (ws & rest & E & Hw & Hb & Hc & L).
  split; assumption.
Qed.
Example C39_case : In "\citep"%string cite_commands /\ closed (lit "a b, c ,{d}") /\ lit "a b, c ,{d}" = join [c_comma] [lit "a b"; lit " c "; lit "{d}"] /\
  cite_text "\citep" (lit " ") (Some (lit " see")) (Some (lit "p. 3")) [] (lit "a b, c ,{d}") (lit " tail") = lit "\citep [ see][p. 3]{a b, c ,{d}} tail" /\
  content_handle (fun _ => false) (fun s => s) [] (lit "\citep [ see][p. 3]{a b, c ,{d}} tail") =
    Ok ([], (VDict [(lit "type", VStr (lit "citation")); (lit "content", VList [VStr (lit "a b"); VStr (lit "c"); VStr (lit "{d}")]); (lit "title", VStr (lit "see, p. 3"))], 32)).
Proof. exact (conj (or_intror (or_introl eq_refl)) (conj (closed_group (lit "a b, c ,{d}") eq_refl) (conj eq_refl (conj eq_refl eq_refl)))). Qed.

(** * C48 *)
(** \sub...section and \sub...paragraph with n subs have level n + 1, and
    only the starred form is unnumbered. *)
Theorem C48_sections : forall word expand d n star ws title rest, blank ws -> closed title ->
  content_handle word expand d (level_command n "section" star ws title rest) =
    Ok (d, (VDict [(lit "type", VStr (lit "section")); (lit "title", VStr (strip (expand title))); (lit "level", VInt (Z.of_nat n + 1)); (lit "numbered", VBool (negb star))],
            length (level_command n "section" star ws title []))).
Proof. exact section_command. Qed.
Print Assumptions C48_sections.
Theorem C48_paragraphs : forall word expand d n star ws title rest, blank ws -> closed title ->
  content_handle word expand d (level_command n "paragraph" star ws title rest) =
    Ok (d, (VDict [(lit "type", VStr (lit "paragraph")); (lit "title", VStr (strip (expand title))); (lit "level", VInt (Z.of_nat n + 1))],
            length (level_command n "paragraph" star ws title []))).
Proof. exact paragraph_command. Qed.
Print Assumptions C48_paragraphs.
Example C48_case : closed (lit " A {B} ") /\ level_command 2 "section" true (lit " ") (lit " A {B} ") (lit " x") = lit "\subsubsection* { A {B} } x" /\
  content_handle (fun _ => false) (fun s => s) [] (lit "\subsubsection* { A {B} } x") =
    Ok ([], (VDict [(lit "type", VStr (lit "section")); (lit "title", VStr (lit "A {B}")); (lit "level", VInt 3); (lit "numbered", VBool false)], 25)).
Proof. exact (conj (closed_group (lit " A {B} ") eq_refl) (conj eq_refl eq_refl)). Qed.
(** The patterns ignore case but the level and the star are read from the
    spelling: \SUBSECTION*{A} becomes a numbered section of level 1. *)
Theorem C48_case_refuted : forall word, content_handle word (fun s => s) [] (lit "\SUBSECTION*{A}") =
    Ok ([], (VDict [(lit "type", VStr (lit "section")); (lit "title", VStr (lit "A")); (lit "level", VInt 1); (lit "numbered", VBool true)], 15)).
Proof. exact (fun _ => eq_refl). Qed.
Print Assumptions C48_case_refuted.

(** * C49 *)
(** Whatever the text, the handler consumes at least one and at most all
    characters of a text it accepts and none of a text it does not; the only
    exception is AttributeError, on \hyperref without an optional argument. *)
Theorem C49_progress_partial : forall word expand d t,
  match content_handle word expand d t with
  | Ok (_, (v, n)) => n <= length t /\ (content_can_handle word t = true -> 0 < n) /\ (content_can_handle word t = false -> v = VNone /\ n = 0)
  | Raise e => e = AttributeError /\ bare_hyperref t
  end.
Proof. exact content_progress. Qed.
Print Assumptions C49_progress_partial.
Theorem C49_hyperref_refuted : forall word expand d, content_handle word expand d (lit "\hyperref{http://a}{b}") = Raise AttributeError.
Proof. exact (fun _ _ _ => eq_refl). Qed.
Print Assumptions C49_hyperref_refuted.
Example C49_case : content_can_handle (fun _ => false) (lit "\url{a") = true /\ content_handle (fun _ => false) (fun s => s) [] (lit "\url{a") = Ok ([], (VNone, 5)) /\
  content_can_handle (fun _ => false) (lit "\urlx{a}") = false.
Proof. exact (conj eq_refl (conj eq_refl eq_refl)). Qed.
