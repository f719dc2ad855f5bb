(** Cases for C99-C101. *)
From Coq Require Import List NArith PeanoNat Lia Bool String.
From Verif Require Import PyStr Regex DelimSpec Json TexUtilsModel StyleModel StyleSpec CommandSpec CommandCases FormatModel FormatSpec FormatProofs FormatProofs2 FormatProofs3 FormatProofs4 FormatProofs5.
Import ListNotations. Notation length := List.length. Notation concat := List.concat. Open Scope list_scope.
Section C.
Variable u : ch -> bool.
Variable quantize : str -> str -> option str.
Theorem total : forall exclude prev content, token_ok prev ->
  (exists tok n after, fmt_handle u quantize exclude prev content = Ok (tok, n, after) /\ (1 <= n <= length content /\ number_cut prev after \/ tok = None /\ n = 0 /\ after = prev)) \/
  (fmt_handle u quantize exclude prev content = Raise TypeError /\ exists ws s, blank ws /\ content = lit "\hphantom" ++ ws ++ c_lb :: s /\ forall b n, ~ group_at c_lb c_rb (c_lb :: s) b n).
Proof.
  intros exclude prev content K. destruct (fmt_total u quantize exclude prev content K) as [(_ & [(tok & n & after & E & L & C)|(E & U)])|(_ & E)].
  - left. exists tok, n, after. split; [exact E|]. left. split; assumption.
  - right. split; [exact E|exact U].
  - left. exists None, 0, prev. split; [exact E|]. right. auto.
Qed.
Theorem can : forall prev content, token_ok prev -> (fmt_can_handle u content = true <-> fmt_handle u quantize [] prev content <> Ok (None, 0, prev)).
Proof.
  intros prev content K. rewrite can_iff. destruct (fmt_total u quantize [] prev content K) as [(M & [(tok & n & after & E & L & C)|(E & U)])|(N & E)].
  - split; [intros _|intros _; exact M]. rewrite E. intros H. injection H as _ -> _. lia.
  - split; [intros _|intros _; exact M]. rewrite E. discriminate.
  - split; [intros M; contradiction|intros H; contradiction].
Qed.
Theorem words_removed : forall word rest prev, In word removed -> name_over u rest -> fmt_handle u quantize [] prev (lit "\" ++ lit word ++ rest) = Ok (None, 1 + length (lit word), prev).
Proof. intros word rest prev I H. rewrite app_assoc. rewrite (words_ok u quantize removed None (removed_ok u) word rest prev I H). rewrite app_length. reflexivity. Qed.
Theorem words_new_line : forall word rest prev, In word new_line -> name_over u rest -> fmt_handle u quantize [] prev (lit "\" ++ lit word ++ rest) = Ok (Some (text_of [10%N]), 1 + length (lit word), prev).
Proof. intros word rest prev I H. rewrite app_assoc. rewrite (words_ok u quantize new_line _ (new_line_ok u) word rest prev I H). rewrite app_length. reflexivity. Qed.
Theorem words_blank : forall word rest prev, In word blanks -> name_over u rest -> fmt_handle u quantize [] prev (lit "\" ++ lit word ++ rest) = Ok (Some (text_of [c_sp]), 1 + length (lit word), prev).
Proof. intros word rest prev I H. rewrite app_assoc. rewrite (words_ok u quantize blanks _ (blanks_ok u) word rest prev I H). rewrite app_length. reflexivity. Qed.
Lemma flat : forall a b c d : str, (a ++ b) ++ c ++ d = a ++ b ++ c ++ d. Proof. intros. rewrite <- app_assoc. reflexivity. Qed.
Theorem group_removed : forall cmd ws body rest prev, In cmd setup_commands -> blank ws -> good_body body ->
  fmt_handle u quantize [] prev (lit "\" ++ lit cmd ++ ws ++ [c_lb] ++ body ++ [c_rb] ++ rest) = Ok (None, length (lit "\" ++ lit cmd ++ ws ++ [c_lb] ++ body ++ [c_rb]), prev).
Proof. intros cmd ws body rest prev I B G. rewrite <- !(flat (lit "\") (lit cmd) ws). apply setup_ok; assumption. Qed.
Theorem group_unclosed : forall cmd ws s prev, In cmd setup_commands -> blank ws -> (forall b n, ~ group_at c_lb c_rb (c_lb :: s) b n) ->
  fmt_handle u quantize [] prev (lit "\" ++ lit cmd ++ ws ++ [c_lb] ++ s) = Ok (None, length (lit "\" ++ lit cmd ++ ws), prev).
Proof. intros cmd ws s prev I B N. rewrite <- (flat (lit "\") (lit cmd) ws). change ([c_lb] ++ s) with (c_lb :: s). rewrite (setup_unclosed u quantize cmd ws s prev I B N). rewrite !app_length, Nat.add_assoc. reflexivity. Qed.
Theorem style_removed : forall cmd ws arg rest prev, In cmd style_commands -> blank ws -> ~ In c_rb arg ->
  fmt_handle u quantize [] prev (lit "\" ++ lit cmd ++ ws ++ [c_lb] ++ arg ++ [c_rb] ++ rest) = Ok (None, length (lit "\" ++ lit cmd ++ ws ++ [c_lb] ++ arg ++ [c_rb]), prev).
Proof. intros cmd ws arg rest prev I B N. rewrite <- !(flat (lit "\") (lit cmd) ws). apply style_ok; assumption. Qed.
Theorem space_cmd : forall cmd ws arg rest prev out, In (cmd, out) [("vspace"%string, 10%N); ("vspace*"%string, 10%N); ("hspace"%string, c_sp); ("linespread"%string, c_sp)] -> blank ws -> ~ In c_rb arg -> arg <> [] ->
  fmt_handle u quantize [] prev (lit "\" ++ lit cmd ++ ws ++ [c_lb] ++ arg ++ [c_rb] ++ rest) = Ok (Some (text_of [out]), length (lit "\" ++ lit cmd ++ ws ++ [c_lb] ++ arg ++ [c_rb]), prev).
Proof.
  intros cmd ws arg rest prev out I B N Ne. rewrite <- !(flat (lit "\") (lit cmd) ws). destruct I as [I|[I|[I|[I|[]]]]]; injection I as <- <-.
  - apply vspace_ok; [left; reflexivity|exact B|exact N].
  - apply vspace_ok; [right; left; reflexivity|exact B|exact N].
  - exact (hspace_ok u quantize ws arg rest prev B N Ne).
  - exact (linespread_ok u quantize ws arg rest prev B N).
Qed.
(** * Counterexamples *)
Lemma no_boundary : forall prev, fmt_handle u quantize [] prev (lit "\quadrant") = Ok (Some (text_of [c_sp]), 5, prev) /\ fmt_handle u quantize [] prev (lit "\spacefactor") = Ok (Some (text_of [c_sp]), 6, prev).
Proof. intros prev. split; vm_compute; reflexivity. Qed.
Lemma protect_loses : forall prev, fmt_handle u quantize [] prev (lit "\protect\textbf{important} x") = Ok (None, 26, prev) /\ fmt_handle u quantize [] prev (lit "\protect\cite{a}") = Ok (None, 16, prev).
Proof. intros prev. split; vm_compute; reflexivity. Qed.
Lemma labelsep_loses : forall prev, fmt_handle u quantize [] prev (lit "\labelsep and then all of this text") = Ok (None, 35, prev).
Proof. intros prev. vm_compute. reflexivity. Qed.
Lemma two_backslashes : forall prev, fmt_handle u quantize [] prev (lit "\textbackslash x") = Ok (Some (text_of [c_bs; c_bs]), 14, prev).
Proof. intros prev. vm_compute. reflexivity. Qed.
Lemma glue_left : forall prev, fmt_handle u quantize [] prev (lit "\vskip 1em plus 2em") = Ok (None, 10, prev).
Proof. intros prev. vm_compute. reflexivity. Qed.
Lemma nested_left : forall prev, fmt_handle u quantize [] prev (lit "\hspace{\widthof{abc}}") = Ok (Some (text_of [c_sp]), 21, prev) /\ fmt_handle u quantize [] prev (lit "\vspace{\fpeval{1+1}pt} x") = Ok (Some (text_of [10%N]), 20, prev).
Proof. intros prev. split; vm_compute; reflexivity. Qed.
Lemma math_unclosed : forall prev, fmt_handle u quantize [] prev (lit "\ensuremath{x") = Ok (Some (VDict [(lit "type", VStr (lit "equation")); (lit "content", VNone); (lit "display", VStr (lit "inline"))]), 11, prev).
Proof. intros prev. vm_compute. reflexivity. Qed.
Lemma number_taken : fmt_handle u quantize [] (text_of (lit "see page 0.5")) (lit "\baselineskip x") = Ok (None, 13, text_of (lit "see page ")).
Proof. vm_compute. reflexivity. Qed.
Lemma word_taken : fmt_handle u quantize [] (text_of (lit "as of 2024")) (lit "\baselineskip") = Ok (None, 13, text_of (lit "as of ")).
Proof. vm_compute. reflexivity. Qed.
Lemma case_over : name_over u (lit " x") /\ name_over u (lit "{x}") /\ name_over u [] /\ In "noindent"%string removed.
Proof. split; [|split; [|split]]; [intros x r E; injection E as <- <-|intros x r E; injection E as <- <-|intros x r E; discriminate|cbn; tauto]; unfold letter, digit; repeat split; try lia. Qed.
Lemma case_body : good_body (lit "pdftitle={A {B}},colorlinks").
Proof. apply closed_grp. reflexivity. Qed.
Lemma case_open : forall b n, ~ group_at c_lb c_rb (c_lb :: lit "abc") b n.
Proof. intros b n G. apply (proj2 (DelimProofs.extract_nested_content_iff _ _ _ _ _ DelimProofs.delims_curly)) in G. vm_compute in G. discriminate. Qed.
End C.
