(** Concrete cases for PropsTable.v. *)
From Coq Require Import List NArith ZArith PeanoNat Lia Bool String.
From Verif Require Import PyStr Regex RegexLocal RegexHead Json TexUtilsModel DelimSpec DelimProofs DelimFinal BuilderModel FactoryModel TableModel TableSpec TableProofs TableProofs2
  Placeholder PlaceModel PlaceSpec PlaceProofs.
Import ListNotations.
Notation length := List.length.
Notation concat := List.concat.
Open Scope list_scope.

Lemma occurs_dec : forall u s, occurs u s <-> contains u s = true.
Proof.
  intros u s. unfold contains. induction s as [|x s IH].
  - cbn [find_sub]. split.
    + intros (p & q & E). symmetry in E. apply app_eq_nil in E as [-> E]. apply app_eq_nil in E as [-> ->]. reflexivity.
    + destruct u; [exists [], []; reflexivity|discriminate].
  - rewrite occurs_cons, IH. cbn [find_sub]. destruct (startswith (x :: s) u) eqn:E.
    + split; [reflexivity|]. intros _. left. apply startswith_spec in E as (r & E). exists r. exact E.
    + split.
      * intros [(r & P)|H]; [rewrite P, startswith_app in E; discriminate|]. destruct (find_sub u s); [reflexivity|discriminate].
      * intros H. right. destruct (find_sub u s); [reflexivity|discriminate].
Qed.
Lemma not_occurs : forall u s, contains u s = false -> ~ occurs u s.
Proof. intros u s H C. apply occurs_dec in C. congruence. Qed.

Lemma c25_escaped : exists before after, closes_after before /\ balanced c_lb c_rb (marks before) /\
  length (split_latex_content (before ++ [c_amp] ++ after) [c_amp] false) = 1.
Proof.
  exists (lit "a\{"), (lit "b"). split; [|split; [|vm_compute; reflexivity]].
  - apply closes_after_esc. reflexivity.
  - apply c06_balance; [exact delims_curly|reflexivity].
Qed.
Lemma c45_span_lost : parse_tabular VStr (lit "\multicolumn{2}{c}{\makecell{A}} & b") = Ok [[VStr (lit "A"); VStr (lit "b")]].
Proof. vm_compute. reflexivity. Qed.
Lemma c45_text_lost : parse_tabular VStr (lit "x \makecell{A} y & z \multicolumn{2}{c}{B}") = Ok [[VStr (lit "A"); span_dict (VStr (lit "B")) 1 2]].
Proof. vm_compute. reflexivity. Qed.
Lemma c45_raises : parse_tabular VStr (lit "\makecell{a\}") = Raise TypeError.
Proof. vm_compute. reflexivity. Qed.

Lemma c45_case : table_rows VStr (lit "A & \multicolumn{2}{c}{B} \\") [[VStr (lit "A"); span_dict (VStr (lit "B")) 1 2]] /\
  parse_tabular VStr (lit "A & \multicolumn{2}{c}{B} \\") = Ok [[VStr (lit "A"); span_dict (VStr (lit "B")) 1 2]].
Proof.
  split; [|vm_compute; reflexivity].
  destruct (split_pieces [c_bs; c_bs] (or_intror eq_refl) (lit "A & \multicolumn{2}{c}{B} \\")) as (raw & P & _ & _).
  assert (Er : raw = [lit "A & \multicolumn{2}{c}{B} "; []]).
  { eapply (pieces_fun [c_bs; c_bs] (or_intror eq_refl)); [exact P|]. clear P raw.
    exact (raw_pieces [c_bs; c_bs] (or_intror eq_refl) (lit "A & \multicolumn{2}{c}{B} \\")). }
  subst raw. eexists. split; [exact P|]. cbn [map filter].
  change (filter (fun p => negb (str_eqb p [])) [strip (lit "A & \multicolumn{2}{c}{B} "); strip []]) with [lit "A & \multicolumn{2}{c}{B}"].
  constructor; [|constructor]. exists [lit "A "; lit " \multicolumn{2}{c}{B}"]. split; [exact (raw_pieces [c_amp] (or_introl eq_refl) (lit "A & \multicolumn{2}{c}{B}"))|].
  change (map strip [lit "A "; lit " \multicolumn{2}{c}{B}"]) with [lit "A"; lit "\multicolumn{2}{c}{B}"].
  constructor; [|constructor; [|constructor]].
  - apply cv_plain. intros n [<-|[<-|[<-|[<-|[]]]]]; apply not_occurs; reflexivity.
  - change (VStr (lit "B")) with (VStr (strip (lit "B"))). apply cv_columns; [|lia| |].
    + exists [], [], [], (lit "c"). repeat split; try reflexivity.
      * apply c06_balance; [exact delims_curly|reflexivity].
      * apply closes_after_esc. reflexivity.
      * apply c06_balance; [exact delims_curly|reflexivity].
      * apply closes_after_esc. reflexivity.
    + intros n [<-|[<-|[]]]; apply not_occurs; reflexivity.
    + intros n [<-|[<-|[]]]; apply not_occurs; reflexivity.
Qed.

Lemma c29_refuted : exists content out blocks,
  (forall i, ~ occurs (verbatim_key i) content) /\ extract_verbatim_blocks content = (out, blocks) /\ restore_placeholder_blocks out blocks <> content.
Proof.
  exists (lit "__VERBATIM_BLOCK__0\verb|x|"). eexists _, _. split; [|split; [vm_compute; reflexivity|vm_compute; discriminate]].
  intros i (p & q & E).
  assert (forall s u v, s = p ++ u ++ q -> u = verbatim_key i -> v = lit "__VERBATIM_BLOCK__" -> startswith (skipn (length p) s) v = true) as H.
  { intros s u v -> -> ->. rewrite skipn_app, skipn_all, Nat.sub_diag. cbn [app skipn]. unfold verbatim_key. rewrite <- app_assoc. apply startswith_app. }
  specialize (H _ _ _ E eq_refl eq_refl).
  destruct p as [|x p].
  - cbn [app] in E. unfold verbatim_key in E. rewrite <- !app_assoc in E. change (lit "__VERBATIM_BLOCK__0\verb|x|") with (lit "__VERBATIM_BLOCK__" ++ lit "0\verb|x|") in E.
    apply app_inv_head in E. change (lit "0\verb|x|") with (str_of_nat 0 ++ c_bs :: lit "verb|x|") in E.
    assert (0 = i). { eapply (num_cut 0 i c_bs 95%N); [reflexivity|reflexivity|exact E]. } subst i. apply app_inv_head in E. discriminate E.
  - exfalso. assert (L : length (x :: p) <= 27) by (apply (f_equal (@List.length _)) in E; rewrite app_length in E; change (length (lit "__VERBATIM_BLOCK__0\verb|x|")) with 27 in E; lia).
    assert (Hn : 0 < length (x :: p)) by (cbn; lia).
    revert H L Hn. generalize (length (x :: p)) as n. clear. intros n H L Hn.
    do 28 (destruct n as [|n]; [first [lia|vm_compute in H; discriminate H]|]). lia.
Qed.

Lemma c46_refuted : exists content out refs, ~ occurs (lit "TABLE_STRUCT") content /\
  extract_table_structures content = Some (out, refs) /\ occurs (lit "TABLE_STRUCT") (restore_placeholder_blocks out refs).
Proof.
  exists (lit "\multirow{2}{*}{\multicolumn{2}{c}{X}}"). eexists _, _. split; [apply not_occurs; reflexivity|]. split; [vm_compute; reflexivity|].
  apply occurs_dec. vm_compute. reflexivity.
Qed.

Definition c42_tokens : list dict :=
  [[(k_type, VStr (lit "text")); (k_content, VStr (lit "x "))]; [(k_type, VStr (lit "text")); (k_content, VStr (lit "& "))];
   [(k_type, VStr (lit "equation")); (k_content, VStr (lit "E"))];
   [(k_type, VStr (lit "text")); (k_content, VStr (lit "y"))];
   [(k_type, VStr (lit "text")); (k_content, VStr (lit "z")); (k_styles, VList [VStr (lit "bold")])]].
Lemma c42_case : Forall well_formed c42_tokens /\ runs_without (lit "|REF_") [] c42_tokens /\
  exists refs, flatten_tokens c42_tokens = Ok (lit "x & `|REF_1|`y`|REF_2|`", refs).
Proof.
  split; [|split].
  - unfold c42_tokens. repeat (apply Forall_cons; [eexists; split; [vm_compute; reflexivity|intros _; vm_compute; discriminate]|]). apply Forall_nil.
  - unfold c42_tokens. eapply rw_plain; [repeat split; vm_compute; reflexivity|]. eapply rw_plain; [repeat split; vm_compute; reflexivity|].
    eapply rw_other; [apply not_occurs; vm_compute; reflexivity|intros s (H & _); vm_compute in H; discriminate H|].
    eapply rw_plain; [repeat split; vm_compute; reflexivity|].
    eapply rw_other; [apply not_occurs; vm_compute; reflexivity|intros s (_ & _ & H); vm_compute in H; discriminate H|].
    apply rw_end. apply not_occurs. reflexivity.
  - eexists. vm_compute. reflexivity.
Qed.
