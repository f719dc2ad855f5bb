(** C94-C95: computed cases. *)
From Coq Require Import List NArith PeanoNat Lia Bool String.
From Verif Require BibCases BibitemSpec BibitemCases BibdivCases BibitemModel BibProofs2.
From Verif Require Import ExtractModel PyStr Regex RegexLocal BuilderModel TableCases DelimSpec TextModel EnvHandlerCases BibModel BibSpec BibdivSpec BibParserModel BibParserSpec BibParserProofs.
Import ListNotations. Notation length := List.length. Notation concat := List.concat. Open Scope list_scope.
Definition no_convert (_ : str) : list str := [].
Definition parse_bib (s : str) := bib_parse BibCases.ascii_word lower_ascii no_convert (S (length s)) s.
Definition key_of (e : entry) : str := match e with ETex e => bx_key e | EItem e => BibitemModel.bi_key e end.
Definition keys (o : option (list entry)) := option_map (map key_of) o.
(** an e-mail address and a group in a \bibitem: every item is lost *)
Example at_word_lost : keys (parse_bib (lit "\begin{thebibliography}{9} \bibitem{a} A, smith@mit {\em J}. \bibitem{b} B. \end{thebibliography}")) = Some [].
Proof. vm_compute. reflexivity. Qed.
Example at_word_kept : keys (parse_bib (lit "\begin{thebibliography}{9} \bibitem{a} A, smith@mit.edu {\em J}. \bibitem{b} B. \end{thebibliography}")) = Some [lit "a"; lit "b"].
Proof. vm_compute. reflexivity. Qed.
(** a percent sign in a field: the rest of its line is lost, and the entry with it *)
Example percent_lost : keys (parse_bib (lit "@misc{a, url={http://x/a%20b}}" ++ [10%N] ++ lit "@misc{c, t={d}}")) = Some [lit "c"].
Proof. vm_compute. reflexivity. Qed.
Example percent_kept : keys (parse_bib (lit "@misc{a, url={http://x/a_20b}}" ++ [10%N] ++ lit "@misc{c, t={d}}")) = Some [lit "a"; lit "c"].
Proof. vm_compute. reflexivity. Qed.
Lemma bibdiv_sample : bibdiv_text (preprocess BibdivCases.sample). Proof. apply bibdiv_iff. vm_compute. reflexivity. Qed.
Lemma sample_same : preprocess BibdivCases.sample = BibdivCases.sample. Proof. vm_compute. reflexivity. Qed.
Lemma item_hyps : ~ bibdiv_text (preprocess BibitemCases.sample) /\ ~ at_entry aw (preprocess BibitemCases.sample) /\ ~ compiled_text (preprocess BibitemCases.sample) /\ preprocess BibitemCases.sample = BibitemCases.sample.
Proof.
  split; [|split; [|split; [|vm_compute; reflexivity]]].
  - intros H. apply bibdiv_iff in H. vm_compute in H. discriminate.
  - intros H. apply bibtex_iff in H. vm_compute in H. discriminate.
  - intros H. apply compiled_iff in H. vm_compute in H. discriminate.
Qed.
Definition tex_sample : str := lit "@article{k1, title = {On {X}}, year = 2020}".
Lemma tex_hyps : ~ bibdiv_text (preprocess tex_sample) /\ at_entry aw (preprocess tex_sample) /\ ~ compiled_text (preprocess tex_sample) /\ preprocess tex_sample = tex_sample.
Proof.
  split; [|split; [|split; [|vm_compute; reflexivity]]].
  - intros H. apply bibdiv_iff in H. vm_compute in H. discriminate.
  - apply bibtex_iff. vm_compute. reflexivity.
  - intros H. apply compiled_iff in H. vm_compute in H. discriminate.
Qed.

(** files *)
Definition disk (p : str) : option str :=
  if str_eqb p (lit "d/refs.bib") then Some (lit "R") else if str_eqb p (lit "d/main.bbl") then Some (lit "M") else if str_eqb p (lit "e/x.bbl") then Some (lit "X") else None.
Definition dirs (d : str) : option (list str) := if str_eqb d (lit "d") then Some [lit "refs.bib"; lit "main.bbl"] else if str_eqb d (lit "e") then Some [lit "a.tex"; lit "x.bbl"; lit "y.bbl"] else None.
Definition echo (s : str) : option (list str) := Some [s].
Lemma named_sample : named disk (lit "d/refs") (lit "R").
Proof. apply na_bib; [left; reflexivity|reflexivity|reflexivity]. Qed.
Lemma nothing_ok : forall p, own_content disk p = None -> nothing_named disk p.
Proof. intros p H c N. rewrite (own_exact _ _ _ N) in H. discriminate. Qed.
Lemma nothing_d : nothing_named disk (lit "d/other"). Proof. apply nothing_ok. vm_compute. reflexivity. Qed.
Lemma nothing_e : nothing_named disk (lit "e/other"). Proof. apply nothing_ok. vm_compute. reflexivity. Qed.
Lemma in_d : in_directory (lit "d/other") (lit "d").
Proof. apply (dir_some [] 100%N (lit "other")); [intros I; cbn in I; repeat (destruct I as [I|I]; [discriminate I|]); exact I|discriminate]. Qed.
Lemma in_e : in_directory (lit "e/other") (lit "e").
Proof. apply (dir_some [] 101%N (lit "other")); [intros I; cbn in I; repeat (destruct I as [I|I]; [discriminate I|]); exact I|discriminate]. Qed.
Lemma e_names : (forall g, In g [lit "a.tex"] -> ~ has_ext (lit ".bbl") g) /\ has_ext (lit ".bbl") (lit "x.bbl").
Proof. split; [|exists (lit "x"); reflexivity]. intros g [<-|[]] (b & E). apply (f_equal (@rev ch)) in E. rewrite rev_app_distr in E. discriminate. Qed.
Example bare_raises : parse_file disk dirs echo (lit "other") = None. Proof. vm_compute. reflexivity. Qed.
Example unrelated : parse_file disk dirs echo (lit "d/other") = Some [lit "M"] /\ parse_file disk dirs echo (lit "e/other.bib") = Some [lit "X"]. Proof. split; vm_compute; reflexivity. Qed.
Definition disk2 (p : str) : option str := if str_eqb p (lit "d/refs.txt") then Some (lit "R") else None.
Definition dirs2 (d : str) : option (list str) := Some [lit "refs.txt"].
Example other_ext : parse_file disk2 dirs2 echo (lit "d/refs.txt") = Some []. Proof. vm_compute. reflexivity. Qed.
