(** C89-C90: cases. *)
From Coq Require Import List NArith PeanoNat Lia Bool String Compare_dec.
From Verif Require Import PyStr Regex Json TexUtilsModel DelimSpec DelimProofs EnvSpec EqSpec EnvHandlerCases CommandSpec StyleSpec ItemSpec LegacyModel LegacySpec LegacyProofs3 LegacyProofs4 LegacyProofs5.
From Verif Require TableCases CommandCases.
Import ListNotations. Notation length := List.length. Notation concat := List.concat. Open Scope list_scope.

Theorem switch_reads : forall w size name cmd ws rest text e out, w 112%N = true ->
  In (name, cmd) (kind_of size) -> blank ws -> starts_with isspace rest = false -> ends_word (ws ++ rest) -> (forall r, rest <> c_lb :: r) ->
  reaches rest text -> plain_ends w text -> scope w (command_here (map fst (kind_of size))) text e -> styled cmd (firstn e text) out ->
  exists n, handle w ([c_bs] ++ name ++ ws ++ rest) = Ok (Some (out, n)) /\
    (forall r, skipn e rest = [c_bs] ++ name ++ r -> n = 1 + length name + length ws + e + 1 + length name) /\
    ((forall r, skipn e rest <> [c_bs] ++ name ++ r) -> n = 1 + length name + length ws + e).
Proof.
  intros w size name cmd ws rest text e out H1 H2 H3 H4 H5 H6 H7 H8 H9 H10. eexists. split; [exact (switch_styles w size name cmd ws rest text e out H1 H2 H3 H4 H5 H6 H7 H8 H9 H10)|].
  destruct (startswith (skipn e rest) ([c_bs] ++ name)) eqn:Es; split.
  - intros; lia.
  - intros N. exfalso. apply startswith_spec in Es as (r & Es). exact (N r Es).
  - intros r E. exfalso. rewrite E in Es. change ([c_bs] ++ name ++ r) with (([c_bs] ++ name) ++ r) in Es. rewrite startswith_app in Es. discriminate.
  - intros _. lia.
Qed.

(** * Where the switch does not do what it says *)
Lemma prefix_switch : handle aw (lit "\it a \itshape b") = Ok (Some (lit "\textit{a }", 9)).
Proof. vm_compute. reflexivity. Qed.
Lemma group_only : handle aw (lit "\bf {a} b") = Ok (Some (lit "\textbf{a}", 7)).
Proof. vm_compute. reflexivity. Qed.
Lemma past_group : handle aw (lit "\bf} c") = Ok (Some (lit "\textbf{} c}", 6)).
Proof. vm_compute. reflexivity. Qed.
Lemma same_again : handle aw (lit "\bf a \bf b") = Ok (Some (lit "\textbf{a }", 9)).
Proof. vm_compute. reflexivity. Qed.
Lemma model_char : handle aw (lit "\color[named]{Red} a \emph b") = Ok (Some (lit "\textcolor[named]{Red}{ a \emph b}", 28)) /\
  handle aw (lit "\color[rgb]{1,0,0} a} \bar b") = Ok (Some (lit "\textcolor[rgb]{1,0,0}{ a}", 20)) /\
  handle aw (lit "\color[cmyk]{0,0,0,1} a \color{red} b") = Ok (Some (lit "\textcolor[cmyk]{0,0,0,1}{ a }", 31)).
Proof. vm_compute. repeat split. Qed.

(** * The hypotheses are met *)
Definition sample : str := lit "a {\it b} \em c".
Lemma sample_scope : scope aw (command_here (map fst (kind_of false))) sample 10.
Proof.
  right. eapply (sc_group aw _ sample 0 2 (lit "\it b") 7); [lia| | | |].
  - unfold calm. intros i Hi. destruct i as [|[|i]]; [| |exfalso; lia].
    + split; [intros (n & r & _ & E & _); discriminate E|split; [intros (r & E & _); discriminate E|intros [(a & b & d & _ & _ & E)|([|] & d & E & _)]; discriminate E]].
    + split; [intros (n & r & _ & E & _); discriminate E|split; [intros (r & E & _); discriminate E|intros [(a & b & d & _ & _ & E)|([|] & d & E & _)]; discriminate E]].
  - exists (lit "\it b} \em c"). split; [reflexivity|right; vm_compute; discriminate].
  - apply (extract_nested_content_iff _ _ _ _ _ delims_curly). vm_compute. reflexivity.
  - apply sc_switch; [lia| |].
    + unfold calm. intros i Hi. destruct (Nat.eq_dec i 9) as [->|N]; [|exfalso; lia].
      split; [intros (n & r & _ & E & _); discriminate E|split; [intros (r & E & _); discriminate E|intros [(a & b & d & _ & _ & E)|([|] & d & E & _)]; discriminate E]].
    + exists (lit "em"), (lit " c"). split; [vm_compute; tauto|]. split; [reflexivity|]. intros x q E. injection E as <- _. unfold letter. lia.
Qed.
Lemma sample_styled : styled (lit "textbf") (firstn 10 sample) (lit "\textbf{a {\it b} }").
Proof.
  left. split; [|reflexivity]. intros name I a E. change (rstrip (firstn 10 sample)) with (lit "a {\it b}") in E.
  assert (X : endswith (lit "a {\it b}") (c_bs :: name) = true) by (apply endswith_iff; exists a; exact E).
  assert (D : forallb (fun n => negb (endswith (lit "a {\it b}") (c_bs :: n))) all_names = true) by (vm_compute; reflexivity). rewrite forallb_forall in D. specialize (D name I). rewrite X in D. discriminate.
Qed.
Lemma sample_read : exists n, handle aw (lit "\bf a {\it b} \em c} d") = Ok (Some (lit "\textbf{a {\it b} }", n)) /\ n = 14.
Proof.
  destruct (switch_reads aw false (lit "bf") (lit "textbf") (lit " ") (sample ++ lit "} d") sample 10 (lit "\textbf{a {\it b} }")) as (n & H & _ & Hn).
  - reflexivity.
  - vm_compute. tauto.
  - reflexivity.
  - reflexivity.
  - intros x q E. injection E as <- _. unfold letter. lia.
  - intros r E. discriminate.
  - apply (re_group sample (lit " d")); [discriminate|]. apply CommandCases.closed_grp. vm_compute. reflexivity.
  - intros p x r E. exfalso. apply (TableCases.not_occurs (lit "\end") sample eq_refl). exists p, (x :: r). exact E.
  - exact sample_scope.
  - exact sample_styled.
  - exists n. split; [exact H|]. apply Hn. intros r E. discriminate.
Qed.
Definition colored : str := lit " a \normalcolor b".
Lemma color_read : handle aw (lit "\color [HTML]{FF0000} a \normalcolor b") = Ok (Some (lit "\textcolor[HTML]{FF0000}{ a }", 24)).
Proof.
  apply (color_styles aw eq_refl eq_refl (Some (lit "HTML")) (lit " [HTML]") [] (lit "FF0000") colored colored 3 (lit "\textcolor[HTML]{FF0000}{ a }")).
  - reflexivity.
  - apply (mo_some aw (lit " ") (lit "HTML")); [reflexivity|discriminate|reflexivity].
  - reflexivity.
  - apply CommandCases.closed_grp. reflexivity.
  - apply re_all. intros b n G. apply (extract_nested_content_iff _ _ _ _ _ delims_curly) in G. vm_compute in G. discriminate.
  - intros p x r E. exfalso. apply (TableCases.not_occurs (lit "\end") colored eq_refl). exists p, (x :: r). exact E.
  - right. apply sc_switch; [lia| |].
    + unfold calm. intros i Hi. destruct i as [|[|[|i]]]; [| | |exfalso; lia];
      (split; [intros [(m & g & ws & r & _ & _ & E)|(r & E & _)]; discriminate E|split; [intros (r & E & _); discriminate E|intros [(a & b & d & _ & _ & E)|([|] & d & E & _)]; discriminate E]]).
    + right. exists (lit " b"). split; reflexivity.
  - left. split; [|reflexivity]. intros name I a E. change (rstrip (firstn 3 colored)) with (lit " a") in E.
    assert (X : endswith (lit " a") (c_bs :: name) = true) by (apply endswith_iff; exists a; exact E).
    assert (D : forallb (fun n => negb (endswith (lit " a") (c_bs :: n))) all_names = true) by (vm_compute; reflexivity). rewrite forallb_forall in D. specialize (D name I). rewrite X in D. discriminate.
  - intros m x r Em E. injection Em as <-. change (skipn 3 colored) with (lit "\normalcolor b") in E. injection E as <- _. intros [X|[X|[X|[X|[]]]]]; discriminate X.
Qed.
