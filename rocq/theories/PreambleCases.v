(** C106: cases and counterexamples. *)
From Coq Require Import List NArith ZArith PeanoNat Lia Bool String.
From Verif Require DefProofs9.
From Verif Require Import PyStr DelimSpec CommandSpec CommandCases TexUtilsModel DefModel DefSpec PreambleModel PreambleSpec PreambleProofs PreambleProofs4.
Import ListNotations. Notation length := List.length. Open Scope list_scope.
Section Any.
Variables u ualpha ualnum : ch -> bool.
Local Notation get := (get_preamble u ualpha ualnum).
Lemma get_total : forall content, get content <> Spin /\ (get content = Raise -> In c_hash content).
Proof. intros content. destruct (get_ok u ualpha ualnum content) as (A & _ & C). split; assumption. Qed.
Lemma get_reads : forall content out, get content = Ok out -> exists body ps, preamble_text (strip_latex_comments content) body /\ reads u ualpha ualnum body ps /\ out = lines ps.
Proof. intros content. apply (get_ok u ualpha ualnum content). Qed.
Lemma inner_def : get (lit "\documentclass{a}\newenvironment{e}{\def\x{1}}{}") = Ok (lit "\def\x{1}" ++ [10%N]).
Proof. vm_compute. reflexivity. Qed.
Lemma options_lost : get (lit "\documentclass{a}\usepackage[x={[1]}]{p}") = Ok [].
Proof. vm_compute. reflexivity. Qed.
Lemma before_lost : get (lit "\RequirePackage{fix-cm}\documentclass{a}") = Ok [].
Proof. vm_compute. reflexivity. Qed.
Lemma expand_cut : get (lit "\expandafter \def\foo{x}") = Ok (lit "\expandafter" ++ [10%N] ++ lit "\def\foo{x}" ++ [10%N]).
Proof. vm_compute. reflexivity. Qed.
Lemma preamble_raises : get (lit "\def\\#1{x}") = Raise.
Proof. vm_compute. reflexivity. Qed.
End Any.
Definition sample : str := lit "\documentclass[12pt]{article}" ++ [10%N] ++ lit "\usepackage[utf8]{inputenc} % \def\no{x}" ++ [10%N] ++ lit "\newif\ifdraft" ++ [10%N; 10%N] ++ lit "some text \gdef\foo#1{a {#1}} " ++ [10%N] ++ lit "\begin{document}\def\x{1}\end{document}".
Definition sample_body : str := [10%N] ++ lit "\usepackage[utf8]{inputenc}" ++ [10%N] ++ lit "\newif\ifdraft" ++ [10%N; 10%N] ++ lit "some text \gdef\foo#1{a {#1}}".
Definition sample_items : list str := [lit "\usepackage[utf8]{inputenc}"; lit "\newif\ifdraft"; lit "\gdef\foo#1{a {#1}}"].
Lemma c106_case : preamble_text (strip_latex_comments sample) sample_body /\ written sample_body sample_items /\
  lines sample_items = lit "\usepackage[utf8]{inputenc}" ++ [10%N] ++ lit "\newif\ifdraft" ++ [10%N] ++ lit "\gdef\foo#1{a {#1}}" ++ [10%N].
Proof.
  split; [|split; [|reflexivity]].
  - pose proof (preamble_text_ok sample) as H. assert (E : after_class (before_document sample) = sample_body) by (vm_compute; reflexivity). rewrite E in H. exact H.
  - unfold sample_body, sample_items.
    assert (N : forall s : str, forallb (fun x => negb (N.eqb x c_bs)) s = true -> ~ In c_bs s) by (intros s H I; rewrite forallb_forall in H; apply H in I; rewrite N.eqb_refl in I; discriminate).
    apply (wr_item [10%N] (lit "\usepackage[utf8]{inputenc}") (fun _ => True)); [apply N; reflexivity|apply i_use|exact I|].
    { apply (ul_intro (lit "\usepackage") [] (Some (lit "utf8")) [] (lit "inputenc")); try reflexivity; [apply uc_package|intros s E; injection E as <-|discriminate|]; cbn; intuition discriminate. }
    apply (wr_item [10%N] (lit "\newif\ifdraft") (stops [c_lb; c_bs])); [apply N; reflexivity| |left; reflexivity|].
    { apply (i_declares _ (DIf (lit "draft"))). apply (d_if (lit "\newif") [] (lit "draft")); [left; reflexivity|reflexivity|split; [discriminate|]]. intros x I. cbn in I. repeat (destruct I as [<-|I]; [split; [reflexivity|cbn; intuition discriminate]|]). destruct I. }
    apply (wr_item ([10%N; 10%N] ++ lit "some text ") (lit "\gdef\foo#1{a {#1}}") (fun _ => True) []); [apply N; reflexivity| |exact I|apply wr_end; apply N; reflexivity].
    apply (i_def "\gdef" [] (lit "foo") [] 1 (lit "a {#1}")); [cbn; tauto|reflexivity|reflexivity| |apply closed_grp; reflexivity].
    split; [exact (DefProofs9.word_command _ word_foo)|]. intros s q I. cbn in I. destruct I as [<-|[<-|[<-|[]]]]; discriminate.
Qed.
