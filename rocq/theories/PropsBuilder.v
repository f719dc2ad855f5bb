(** Properties C18-C23 (TokenBuilder) and C44.  Specification vocabulary:
    BuilderSpec.v ([preorder], [walk], [number_of], [section_number],
    [document]) and TidySpec.v ([joined], [tidy], [parsed], [similar]). *)
From Coq Require Import List NArith ZArith PeanoNat Lia Bool String.
From Verif Require Import PyStr Json BuilderModel BuilderSpec BuilderProofs BuilderProofs2 BuilderProofs3 TidySpec TidyProofs TidyProofs2 BuilderFinal BuilderSample.
Import ListNotations.
Notation length := List.length.
Notation concat := List.concat.
Open Scope list_scope.


(** * Organising a document *)
(** [organize_content] on every document (sections of level 1 to 3 without
    content, at most one bibliography after an appendix and last): it returns,
    whatever the builder did before, and the pre-order sequence of the result is
    that of the tidied input with the numbers of [number_of] and the list depths
    added.  Fewer than a million tokens: [chr] fails beyond. *)
Theorem C21_document_order_kept : forall st tokens es, parsed tokens -> document false tokens -> walk false 0 tokens es ->
  (N.of_nat (length es) < 1000000)%N ->
  exists st' out toks es', organize_content false st tokens = (st', Ok out) /\
    tidy true tokens toks /\ walk false 0 toks es' /\ preorder out (annotate [] es').
Proof. exact organize_document. Qed.
(** The same from the input: apart from texts, every token is there, in order,
    decorated, its title possibly tidied. *)
Theorem C21_every_token_kept : forall st tokens es, parsed tokens -> document false tokens -> walk false 0 tokens es ->
  (N.of_nat (length es) < 1000000)%N ->
  exists st' out hs, organize_content false st tokens = (st', Ok out) /\ preorder out hs /\
    Forall2 similar (annotate [] (filter nontext_event es)) (filter nontext hs).
Proof. exact organize_from_input. Qed.
(** [preorder] and [walk] are functions. *)
Theorem C21_preorder_is_functional : forall l h h', preorder l h -> preorder l h' -> h = h'.
Proof. intros l h h' H H'. exact (preorder_fun l h H h' H'). Qed.
Theorem C21_walk_is_functional : forall app dep l es es', walk app dep l es -> walk app dep l es' -> es = es'.
Proof. intros app dep l es es' H H'. exact (walk_fun app dep l es H es' H'). Qed.
(** Without the conditions it is false: content after a bibliography that
    follows an appendix moves before it; the content of a section token is
    lost. *)
Theorem C21_order_refuted : exists tokens st out hs, parsed tokens /\ organize_content false cleared tokens = (st, Ok out) /\
  preorder out hs /\ ~ preorder tokens hs /\ (forall hs', preorder tokens hs' -> length hs' = length hs).
Proof.
  exists [tok "appendix" [(k_content, VList [])]; tok "bibliography" [(k_content, VList [])]; txt "z"]. do 3 eexists.
  split; [solve_parsed|]. split; [vm_compute; reflexivity|]. split; [solve_preorder|]. split.
  - intros K. refine (_ (preorder_fun _ _ K _ _)); [|solve_preorder]. discriminate.
  - intros hs' K. refine (_ (preorder_fun _ _ K _ _)); [|solve_preorder]. intros ->. reflexivity.
Qed.
Theorem C21_section_content_refuted : exists tokens st out, parsed tokens /\ organize_content false cleared tokens = (st, Ok out) /\
  (exists hs, preorder tokens hs /\ length hs = 2) /\ (exists hs, preorder out hs /\ length hs = 1).
Proof.
  exists [tok "section" [(k_level, VInt 1); (k_content, VList [txt "z"])]]. do 2 eexists.
  split; [solve_parsed|]. split; [vm_compute; reflexivity|]. split; eexists; split; try solve_preorder; reflexivity.
Qed.
Example C21_case : parsed sample /\ document false sample /\ exists es, walk false 0 sample es /\ (N.of_nat (length es) < 1000000)%N.
Proof.
  split; [exact sample_parsed|]. split; [exact sample_document|]. destruct sample_walk as (es & W & L). exists es. rewrite L. split; [exact W|reflexivity].
Qed.

(** * C18 *)
(** A numbered section of level [z] gets [section_number]: its components are
    the counts of numbered sections of levels 1, 2, ..., z since the last
    section of a lower level or the appendix; the first one as the character
    64+n in the appendix. *)
Theorem C18_section_numbers : forall st tokens before e after z, parsed tokens -> document false tokens ->
  walk false 0 tokens (before ++ e :: after) -> (N.of_nat (length (before ++ e :: after)) < 1000000)%N ->
  numbered_section e = Some z ->
  exists st' out hs1 d' hs2, organize_content false st tokens = (st', Ok out) /\
    (exists hs, preorder out hs /\ filter nontext hs = hs1 ++ VDict d' :: hs2) /\
    length hs1 = length (filter nontext_event before) /\ of_type "section" d' /\
    lookup k_numbering d' = Some (VStr (section_number (e_app e) z (before ++ [e]))).
Proof. exact section_numbers_ok. Qed.
Example C18_case : numberings "section" sample = map lit ["1"; "1.1"; "1.2"; "2"; "2.0.1"; "A"; "A.1"]%string.
Proof. vm_compute. reflexivity. Qed.

(** * C44 *)
(** The appendix letter is the capital letter of the count for 1 to 26 ... *)
Theorem C44_appendix_letter_partial : forall n, 1 <= n <= 26 ->
  exists c, first_component true n = [c] /\ nth_error (lit "ABCDEFGHIJKLMNOPQRSTUVWXYZ") (n - 1) = Some c.
Proof. exact letter_ok. Qed.
(** ... but not beyond, nor for a subsection before the first section. *)
Theorem C44_appendix_letter_refuted :
  numberings "section" [tok "appendix" [(k_content, VList [])]; sec 2] = [lit "@.1"] /\
  nth_error (numberings "section" (tok "appendix" [(k_content, VList [])] :: repeat (sec 1) 27)) 26 = Some (lit "[").
Proof. exact letter_refuted. Qed.

(** * C19 *)
(** \part (level 0) and level 4 raise KeyError. *)
Theorem C19_every_level_refuted :
  snd (organize_content false cleared [sec 0]) = Raise KeyError /\ snd (organize_content false cleared [sec 4]) = Raise KeyError.
Proof. exact part_refuted. Qed.
(** Documents with levels 1 to 3 never raise. *)
Theorem C19_levels_one_to_three_partial : forall st tokens es, parsed tokens -> document false tokens -> walk false 0 tokens es ->
  (N.of_nat (length es) < 1000000)%N -> exists out, snd (organize_content false st tokens) = Ok out.
Proof. exact never_raises. Qed.

(** * C20 *)
(** Equations, algorithms, tables, figures: 1, 2, 3, ... per type. *)
Theorem C20_numbered_in_order : forall st tokens before e after s, parsed tokens -> document false tokens ->
  walk false 0 tokens (before ++ e :: after) -> (N.of_nat (length (before ++ e :: after)) < 1000000)%N ->
  In s ["equation"; "algorithm"; "table"; "figure"]%string -> numbered_as s e = true ->
  exists st' out hs1 d' hs2, organize_content false st tokens = (st', Ok out) /\
    (exists hs, preorder out hs /\ filter nontext hs = hs1 ++ VDict d' :: hs2) /\
    length hs1 = length (filter nontext_event before) /\ of_type s d' /\
    lookup k_numbering d' = Some (VStr (str_of_nat (S (count (numbered_as s) before)))).
Proof. exact simple_numbers_ok. Qed.
(** Theorems and the like: section number, dot, position within the section. *)
Theorem C20_theorems_per_section : forall st tokens before e after, parsed tokens -> document false tokens ->
  walk false 0 tokens (before ++ e :: after) -> (N.of_nat (length (before ++ e :: after)) < 1000000)%N ->
  numbered_as "math_env" e = true ->
  exists st' out hs1 d' hs2, organize_content false st tokens = (st', Ok out) /\
    (exists hs, preorder out hs /\ filter nontext hs = hs1 ++ VDict d' :: hs2) /\
    length hs1 = length (filter nontext_event before) /\ of_type "math_env" d' /\
    lookup k_numbering d' = Some (VStr (str_of_nat (section_count 1 before) ++ lit "." ++
      str_of_nat (S (count (numbered_as "math_env") (since level_one_section before))))).
Proof. exact theorem_numbers_ok. Qed.
(** Tokens that are not numbered get no number. *)
Theorem C20_unnumbered_get_none : forall st tokens before e after d, parsed tokens -> document false tokens ->
  walk false 0 tokens (before ++ e :: after) -> (N.of_nat (length (before ++ e :: after)) < 1000000)%N ->
  nontext_event e = true -> e_head e = VDict d -> truthy (get_default k_numbered (VBool true) d) = false ->
  exists st' out hs1 d' hs2, organize_content false st tokens = (st', Ok out) /\
    (exists hs, preorder out hs /\ filter nontext hs = hs1 ++ VDict d' :: hs2) /\
    length hs1 = length (filter nontext_event before) /\ lookup k_numbering d' = lookup k_numbering d.
Proof. exact unnumbered_ok. Qed.
Example C20_case : numberings "equation" sample = map lit ["1"; "2"; "3"]%string /\ numberings "math_env" sample = map lit ["1.1"; "2.1"]%string.
Proof. vm_compute. split; reflexivity. Qed.

(** * C22 *)
(** After any sequence of calls, raising or not, a builder behaves like a new
    one. *)
Theorem C22_history_independent : forall merge calls tokens,
  organize_content merge (run merge cleared calls) tokens = organize_content merge cleared tokens.
Proof. exact history. Qed.
Example C22_case : fst (organize_content false cleared sample) <> cleared /\ snd (organize_content false cleared sample) <> Raise KeyError.
Proof. split; vm_compute; discriminate. Qed.

(** * C23 *)
Theorem C23_texts_joined : forall l, texts_ok l -> exists o, concat_text_with_same_styles l = Ok o /\ joined l o.
Proof. exact concat_texts. Qed.
Theorem C23_joined_is_functional : forall l o o', joined l o -> joined l o' -> o = o'.
Proof. intros l o o' H H'. exact (joined_fun l o H o' H'). Qed.
(** No adjacent equal styles, no character lost, other tokens untouched. *)
Theorem C23_joined_meaning : forall l o, joined l o ->
  separated o /\ visible o = visible l /\ filter nontext o = filter nontext l.
Proof. intros l o H. exact (conj (joined_separated l o H) (conj (joined_visible l o H) (joined_nontext l o H))). Qed.
(** The whole processing pass: everywhere in the tree, except between the cells
    of a table row. *)
Theorem C23_whole_tree : forall tokens, parsed tokens -> exists out, process_tokens false tokens = Ok out /\ tidy true tokens out.
Proof. exact process_tokens_ok. Qed.
Example C23_case : process_tokens false [txt "a"; txt "b"; txt ", c"; tok "x" [(k_content, VList [txt "("; txt "d"])]; txt "e"]
  = Ok [txt "a b, c"; tok "x" [(k_content, VList [txt "(d"])]; txt "e"].
Proof. vm_compute. reflexivity. Qed.

Print Assumptions C21_document_order_kept.
Print Assumptions C21_every_token_kept.
Print Assumptions C21_order_refuted.
Print Assumptions C21_section_content_refuted.
Print Assumptions C18_section_numbers.
Print Assumptions C44_appendix_letter_partial.
Print Assumptions C44_appendix_letter_refuted.
Print Assumptions C19_every_level_refuted.
Print Assumptions C19_levels_one_to_three_partial.
Print Assumptions C20_numbered_in_order.
Print Assumptions C20_theorems_per_section.
Print Assumptions C20_unnumbered_get_none.
Print Assumptions C22_history_independent.
Print Assumptions C23_texts_joined.
Print Assumptions C23_joined_meaning.
Print Assumptions C23_whole_tree.
