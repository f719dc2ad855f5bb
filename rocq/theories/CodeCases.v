(** C96: computed cases. *)
From Coq Require Import List NArith PeanoNat Lia Bool String.
From Verif Require Import PyStr Regex RegexLemmas DelimSpec DelimFinal Json StyleModel StyleSpec StyleProofs3 BibModel CodeModel CodeSpec CodeProofs.
Import ListNotations. Notation length := List.length. Open Scope list_scope.
Example indent_lost : code_handle (lit "\begin{verbatim}" ++ [10%N] ++ lit "    if x:" ++ [10%N] ++ lit "    y" ++ [10%N] ++ lit "\end{verbatim}")
  = (Some (VDict [(lit "type", VStr (lit "code")); (lit "content", VStr (lit "if x:" ++ [10%N] ++ lit "    y"))]), 47).
Proof. vm_compute. reflexivity. Qed.
Example blank_lost : code_handle (lit "\verb|  |") = (Some (VDict [(lit "type", VStr (lit "code")); (lit "content", VStr []); (lit "display", VStr (lit "inline"))]), 9).
Proof. vm_compute. reflexivity. Qed.
Example options_cut : code_handle (lit "\begin{lstlisting}[caption={x[1]}] y\end{lstlisting}")
  = (Some (VDict [(lit "type", VStr (lit "code")); (lit "content", VStr (lit "}] y")); (lit "title", VStr (lit "caption={x[1"))]), 52).
Proof. vm_compute. reflexivity. Qed.
Example star_not_code : code_handle (lit "\begin{verbatim*}a\end{verbatim*}") = (None, 0).
Proof. vm_compute. reflexivity. Qed.
Lemma first_ok : forall name body ws rest, blank ws -> forallb (fun k => match rm (tag_re (lit "\end") name) (body ++ tag (lit "\end") ws name ++ rest) k [] with [] => true | _ => false end) (seq 0 (length body)) = true ->
  up_to_end name (body ++ tag (lit "\end") ws name ++ rest) body rest.
Proof.
  intros name body ws rest W H. split; [exists ws; split; [exact W|reflexivity]|]. intros a w2 b W2 E. destruct (Compare_dec.le_lt_dec (length body) (length a)) as [L|L]; [exact L|]. exfalso.
  rewrite forallb_forall in H. specialize (H (length a) (proj2 (in_seq _ _ _) (conj (le_0_n _) L))). set (t := body ++ tag (lit "\end") ws name ++ rest) in *.
  assert (R : rel (tag_re (lit "\end") name) t (length a) (length a + length (tag (lit "\end") w2 name))). { apply rel_tag. exists w2, b. split; [exact W2|]. split; [rewrite E; apply skipn_app_exact; reflexivity|reflexivity]. }
  assert (Lt : length a <= length t) by (rewrite E, app_length; lia). destruct (rm_complete _ _ _ _ R Lt []) as (c & I). destruct (rm (tag_re (lit "\end") name) t (length a) []); [exact I|discriminate].
Qed.
Lemma sample_verbatim : code_source (lit "\begin {verbatim} % \end{x} {$ \end {verbatim} z") Block (lit " % \end{x} {$ ") (lit " z").
Proof.
  apply (cs_verbatim _ (lit " % \end{x} {$ \end {verbatim} z")); [exists [c_sp]; split; reflexivity|]. apply (first_ok (lit "verbatim") (lit " % \end{x} {$ ") [c_sp] (lit " z")); [reflexivity|vm_compute; reflexivity].
Qed.
Lemma sample_options : code_source (lit "\begin{lstlisting}[language=C] x \end{lstlisting}") (Listing (Some (lit "language=C"))) (lit " x ") [].
Proof.
  apply (cs_options _ (lit "[language=C] x \end{lstlisting}") _ (lit " x \end{lstlisting}")); [exists []; split; reflexivity|split; [intros I; cbn in I; repeat (destruct I as [I|I]; [discriminate I|]); exact I|reflexivity]|].
  apply (first_ok (lit "lstlisting") (lit " x ") [] []); [reflexivity|vm_compute; reflexivity].
Qed.
Lemma sample_listing : code_source (lit "\begin{lstlisting}x[1]\end{lstlisting}") (Listing None) (lit "x[1]") [].
Proof.
  apply (cs_listing _ (lit "x[1]\end{lstlisting}")); [exists []; split; reflexivity|intros o s' (_ & E); discriminate E|apply (first_ok (lit "lstlisting") (lit "x[1]") [] []); [reflexivity|vm_compute; reflexivity]].
Qed.
Lemma sample_verb : code_source (lit "\verb|\a{| b|") Inline (lit "\a{") (lit " b|").
Proof.
  apply (cs_verb (lit "|\a{| b|")); [|intros s' b r E; discriminate E]. destruct (proj1 (delimited_iff (lit "|\a{| b|") (lit "\a{") 5) eq_refl) as (_ & r & B). assert (E := between_end _ _ _ B). cbn in E. subst r. exact B.
Qed.
Lemma sample_star : code_source (lit "\verb*+x y+.") Inline (lit "x y") (lit ".").
Proof.
  apply (cs_star (lit "+x y+.")). destruct (proj1 (delimited_iff (lit "+x y+.") (lit "x y") 5) eq_refl) as (_ & r & B). assert (E := between_end _ _ _ B). cbn in E. subst r. exact B.
Qed.
