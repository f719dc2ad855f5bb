(** C105: \DeclareMathAlphabet; the counterexamples for C104 and C105. *)
From Coq Require Import List NArith ZArith PeanoNat Lia Bool String.
From Verif Require CommandModel CommandProofs CommandProofs4.
From Verif Require Import PyStr Regex RegexLemmas RegexHead RegexAbs DelimSpec DelimProofs DelimFinal TexUtilsModel StyleModel CommandSpec DefModel DefSpec DefProofs DefProofs3 DefProofs4 DefProofs6 DefProofs8 DefProofs9 DefProofs11.
Import ListNotations. Notation length := List.length. Notation concat := List.concat. Open Scope list_scope.
Lemma drop_bs_name : forall name, ~ In c_bs name -> drop_bs name = name.
Proof. intros [|x name] N; [reflexivity|]. cbn [drop_bs]. destruct (N.eqb_spec x c_bs) as [->|_]; [destruct N; left; reflexivity|reflexivity]. Qed.
Lemma strip_bs_name : forall name, ~ In c_bs name -> strip_bs (c_bs :: name) = name.
Proof.
  intros name N. unfold strip_bs. change (drop_bs (c_bs :: name)) with (drop_bs name). rewrite (drop_bs_name _ N), drop_bs_name; [apply rev_involutive|]. intros H. apply N. apply in_rev. exact H.
Qed.
Section Any.
Variables u ualpha ualnum : ch -> bool.
Local Notation handle := (handle u ualpha ualnum).
Lemma alphabet_ok : forall keyword n gap name others rest e, In (keyword, n) alphabet_words -> blank gap -> word name -> length others + 1 = n ->
  groups_at c_lb c_rb (braced ([c_bs] ++ name) ++ rest) (([c_bs] ++ name) :: others) e ->
  handle (lit keyword ++ gap ++ braced ([c_bs] ++ name) ++ rest) = Ok (Some (DCommand name (lit "#1") 1 [] (use_text name 0) true), Z.of_nat (length (lit keyword ++ gap) + e)).
Proof.
  intros keyword n gap name others rest e I B W L G. set (tl := ([c_bs] ++ name) ++ [c_rb] ++ rest).
  assert (Eb : braced ([c_bs] ++ name) ++ rest = lit "{" ++ tl) by (unfold braced, tl; rewrite <- !app_assoc; reflexivity). rewrite Eb in G |- *.
  assert (S : forall m, m_end m = length (lit keyword ++ gap) + 1 -> (if str_eqb (grp (lit keyword ++ gap ++ lit "{" ++ tl) 1 m) (lit "DeclareMathAlphabet") then 5 else 2) = n ->
    handle_alphabets (lit keyword ++ gap ++ lit "{" ++ tl) m = (Some (DCommand name (lit "#1") 1 [] (use_text name 0) true), Z.of_nat (length (lit keyword ++ gap) + e))).
  { intros m Em En. unfold handle_alphabets. rewrite Em, En. cbv zeta. replace (length (lit keyword ++ gap) + 1 - 1) with (length (lit keyword ++ gap)) by lia. rewrite (app_assoc (lit keyword) gap), skipn_app_exact by reflexivity.
    rewrite (CommandProofs4.blocks_max c_lb c_rb (lit "{" ++ tl) (([c_bs] ++ name) :: others) e n); [|repeat split; discriminate|exact G|cbn [List.length]; change (@List.length (list ch) others) with (@List.length str others) in *; lia|intros Hl; exfalso; cbn [List.length] in Hl; change (@List.length (list ch) others) with (@List.length str others) in *; lia].
    destruct (no_blanks_word _ W) as (_ & Nb). change ([c_bs] ++ name) with (c_bs :: name). rewrite (strip_bs_name _ Nb). change (escape (c_bs :: name)) with (lit "\\" ++ escape name). rewrite (escape_word _ (word_command _ W)). unfold use_text, behind_name. cbn [repeat concat]. rewrite <- app_assoc. rewrite (Nat.add_comm e). reflexivity. }
  unfold alphabet_words in I. destruct I as [I|[I|[]]].
  - assert (Ek : keyword = "\DeclareMathAlphabet"%string) by congruence. assert (En : n = 5) by congruence. subst keyword. clear I. assert (Bt : forall x r, lit "{" ++ tl = x :: r -> isspace x = false) by (intros x r E; injection E as <- _; reflexivity).
    erewrite handle_finish; [|apply (clear_first (lit "\DeclareMathAlphabet") KAlphabets _ P_alphabets); [vm_compute; reflexivity|]; apply fm_match; unfold P_alphabets; cbn [rseq]; eapply fm_seq; [eexists; reflexivity|]; eapply fm_seq; [apply fm_grp; apply fm_alt_left; apply (fm_rstr (lit "DeclareMathAlphabet") _ _ _ (gap ++ lit "{" ++ tl)); reflexivity|]].
    2:{ change (1 + length (lit "DeclareMathAlphabet")) with (length (lit "\DeclareMathAlphabet")). pose proof (sk_pre (lit "\DeclareMathAlphabet") (gap ++ lit "{" ++ tl)) as E. eapply fm_seq; [apply (fm_star isspace _ _ _ gap _ E B); reflexivity|]. apply skipn_more in E. apply (fm_rstr (lit "{") _ _ _ tl E). }
    cbn [finish]. rewrite S; [reflexivity|cbn [m_end]; rewrite app_length; reflexivity|rewrite En; reflexivity].
  - assert (Ek : keyword = "\DeclareSymbolFontAlphabet"%string) by congruence. assert (En : n = 2) by congruence. subst keyword. clear I.
    erewrite handle_finish; [|apply (clear_first (lit "\DeclareSymbolFontAlphabet") KAlphabets _ P_alphabets); [vm_compute; reflexivity|]; apply fm_match; unfold P_alphabets; cbn [rseq]; eapply fm_seq; [eexists; reflexivity|]; eapply fm_seq; [apply fm_grp; apply fm_alt_right; [reflexivity|]; apply (fm_rstr (lit "DeclareSymbolFontAlphabet") _ _ _ (gap ++ lit "{" ++ tl)); reflexivity|]].
    2:{ change (1 + length (lit "DeclareSymbolFontAlphabet")) with (length (lit "\DeclareSymbolFontAlphabet")). pose proof (sk_pre (lit "\DeclareSymbolFontAlphabet") (gap ++ lit "{" ++ tl)) as E. eapply fm_seq; [apply (fm_star isspace _ _ _ gap _ E B); reflexivity|]. apply skipn_more in E. apply (fm_rstr (lit "{") _ _ _ tl E). }
    cbn [finish]. rewrite S; [reflexivity|cbn [m_end]; rewrite app_length; reflexivity|rewrite En; reflexivity].
Qed.
Lemma let_lost : forall r, r = lit " x" \/ r = [] -> handle (lit "\let\csname a\endcsname\bar" ++ r) = Ok (None, 0%Z).
Proof. intros r [->| ->]; vm_compute; reflexivity. Qed.
Lemma let_end_lost : handle (lit "\let\csname a\endcsname\csname b\endcsname") = Ok (None, 0%Z).
Proof. vm_compute. reflexivity. Qed.
Lemma def_glued : exists us, handle (lit "\def\csname a\endcsname\bar{x}") = Ok (Some (DDef (lit "abar") (lit "x") 0 us false), 30%Z).
Proof. eexists. vm_compute. reflexivity. Qed.
Lemma raw_regex : handle (lit "\def\csname a+b\endcsname{x}") = Ok (Some (DDef (lit "a+b") (lit "x") 0 (lit "\\a\+b(?![a-zA-Z@])|\\csname a+b\\endcsname") false), 28%Z).
Proof. vm_compute. reflexivity. Qed.
Lemma expand_blank : handle (lit "\expandafter \def\foo{x}") = Ok (None, 12%Z).
Proof. vm_compute. reflexivity. Qed.
Lemma noexpandable : handle (lit "\def\noexpandable{x}") = Ok (None, 0%Z).
Proof. vm_compute. reflexivity. Qed.
End Any.
