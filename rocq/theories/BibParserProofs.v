(** C94-C95. *)
From Coq Require Import List NArith PeanoNat Lia Bool String Compare_dec.
From Verif Require TokensModel LegacyProofs5 LegacyProofs3 DelimFinal BibProofs2 BibitemSpec BibitemProofs3 BibdivProofs3.
From Verif Require Import ExtractModel PyStr Regex RegexLemmas RegexHead RegexLocal DelimSpec TexUtilsModel TextModel StyleSpec BibModel BibSpec BibdivModel BibdivSpec BibitemModel BibParserModel BibParserSpec.
Import ListNotations. Notation length := List.length. Notation concat := List.concat. Open Scope list_scope.

Lemma skipn_more : forall (t : str) i a r, skipn i t = a ++ r -> skipn (i + length a) t = r.
Proof. intros t i a r H. rewrite <- skipn_add, H. apply DelimFinal.skipn_app_exact. reflexivity. Qed.
Lemma skipn_more1 : forall (t : str) i x r, skipn i t = x :: r -> skipn (S i) t = r.
Proof. intros t i x r H. replace (S i) with (i + length [x]) by (cbn; lia). apply skipn_more. exact H. Qed.
(** * Which format *)
Lemma search_iff : forall r t, (match re_search r t with Some _ => true | None => false end) = true <-> exists i j, i <= length t /\ rel r t i j.
Proof.
  intros r t. split.
  - intros H. destruct (re_search r t) as [m|] eqn:E; [|discriminate]. apply re_search_some in E as (_ & L & R & _). exists (m_start m), (m_end m). split; [lia|exact R].
  - intros (i & j & L & R). destruct (re_search r t) eqn:E; [reflexivity|]. exfalso. unfold re_search in E. exact (proj1 (re_search_none _ _ _) E i j (conj (le_0_n _) L) R).
Qed.
Lemma bibdiv_iff : forall t, is_bibdiv t = true <-> bibdiv_text t.
Proof.
  intros t. unfold is_bibdiv. rewrite search_iff. split.
  - intros (i & j & L & R). unfold BibDivPattern in R. cbn [rseq] in R. apply rel_rseq2 in R as (k & R1 & R). apply rel_rstr in R1 as (-> & q & E). apply rel_rseq2 in R as (k & R1 & R). apply rel_star_chr in R1 as (ws & r & E1 & Hw & ->).
    rewrite (skipn_more t i _ q E) in E1. subst q. apply rel_rstr in R as (_ & q & E2). rewrite (skipn_more t _ ws r (skipn_more t i _ _ E)) in E2. subst r.
    exists (firstn i t), ws, q. split; [exact Hw|]. rewrite <- E. symmetry. apply firstn_skipn.
  - intros (p & ws & q & Hw & ->). set (t := p ++ _). assert (E : skipn (length p) t = lit "\begin" ++ ws ++ lit "{bibdiv}" ++ q) by (apply DelimFinal.skipn_app_exact; reflexivity).
    exists (length p), (length p + length (lit "\begin") + length ws + length (lit "{bibdiv}")). split; [unfold t; rewrite app_length; lia|]. unfold BibDivPattern. cbn [rseq].
    assert (E1 := skipn_more t _ _ _ E). assert (E2 := skipn_more t _ ws _ E1).
    apply rel_rseq2. exists (length p + length (lit "\begin")). split; [apply rel_rstr; split; [reflexivity|eexists; exact E]|]. apply rel_rseq2. exists (length p + length (lit "\begin") + length ws). split; [apply rel_star_chr; exists ws; eexists; split; [exact E1|split; [exact Hw|reflexivity]]|].
    apply rel_rstr. split; [reflexivity|eexists; exact E2].
Qed.
Lemma compiled_iff : forall t, is_compiled_bibtex t = true <-> compiled_text t.
Proof.
  intros t. unfold is_compiled_bibtex. rewrite search_iff. split.
  - intros (i & j & L & R). unfold compiled_pattern in R. cbn [rseq] in R. apply rel_rseq2 in R as (k & R1 & R). apply rel_rstr in R1 as (-> & q & E). apply rel_rseq2 in R as (k & R1 & R). apply rel_star_chr in R1 as (ws & r & E1 & Hw & ->).
    rewrite (skipn_more t i _ q E) in E1. subst q. apply rel_rstr in R as (_ & q & E2). rewrite (skipn_more t _ ws r (skipn_more t i _ _ E)) in E2. subst r.
    exists (firstn i t), ws, q. rewrite <- E. symmetry. apply firstn_skipn.
  - intros (p & ws & q & ->). set (t := p ++ _). assert (E : skipn (length p) t = lit "\entry{" ++ ws ++ lit "\endentry" ++ q) by (apply DelimFinal.skipn_app_exact; reflexivity).
    exists (length p), (length p + length (lit "\entry{") + length ws + length (lit "\endentry")). split; [unfold t; rewrite app_length; lia|]. unfold compiled_pattern. cbn [rseq].
    assert (E1 := skipn_more t _ _ _ E). assert (E2 := skipn_more t _ ws _ E1).
    apply rel_rseq2. exists (length p + length (lit "\entry{")). split; [apply rel_rstr; split; [reflexivity|eexists; exact E]|]. apply rel_rseq2. exists (length p + length (lit "\entry{") + length ws). split; [apply rel_star_chr; exists ws; eexists; split; [exact E1|split; [apply forallb_forall; reflexivity|reflexivity]]|].
    apply rel_rstr. split; [reflexivity|eexists; exact E2].
Qed.
Lemma rel_plus_chr : forall p t i j, rel (rplus (RChr p)) t i j <-> exists ws r, skipn i t = ws ++ r /\ ws <> [] /\ forallb p ws = true /\ j = i + length ws.
Proof.
  intros p t i j. unfold rplus. rewrite rel_rseq2. split.
  - intros (k & R1 & R2). apply LegacyProofs5.chr_inv in R1 as (-> & x & Ex & Hx). apply rel_star_chr in R2 as (ws & r & E & Hw & ->). rewrite nth_error_skipn in Ex. destruct (skipn i t) as [|y q] eqn:Es; [discriminate|]. cbn in Ex. injection Ex as ->.
    rewrite (skipn_more1 t i x q Es) in E. subst q. exists (x :: ws), r. split; [reflexivity|]. split; [discriminate|]. split; [cbn; rewrite Hx; exact Hw|cbn; lia].
  - intros (ws & r & E & Ne & Hw & ->). destruct ws as [|x ws]; [congruence|]. cbn in Hw. apply andb_prop in Hw as [Hx Hw]. exists (S i). split; [apply rel_chr with (x := x); [rewrite nth_error_skipn, E; reflexivity|exact Hx]|].
    apply rel_star_chr. exists ws, r. split; [exact (skipn_more1 t i x _ E)|]. split; [exact Hw|cbn; lia].
Qed.
Lemma bibtex_iff : forall isword t, is_bibtex isword t = true <-> at_entry isword t.
Proof.
  intros isword t. unfold is_bibtex. rewrite search_iff. split.
  - intros (i & j & L & R). unfold BibTexPattern in R. cbn [rseq] in R. apply rel_rseq2 in R as (k & R1 & R). apply rel_is_ch in R1 as (-> & q & E). apply rel_rseq2 in R as (k & R1 & R). apply rel_grp1 in R1. apply rel_plus_chr in R1 as (ty & r & E1 & Ne & Hty & ->).
    rewrite (skipn_more1 t i _ q E) in E1. subst q. assert (E1 := skipn_more1 t i _ _ E). assert (E2 := skipn_more t _ ty _ E1). apply rel_rseq2 in R as (k & R1 & R). apply rel_star_chr in R1 as (ws & r' & E3 & Hw & ->). rewrite E2 in E3. subst r.
    apply rel_is_ch in R as (_ & q & E4). rewrite (skipn_more t _ ws _ E2) in E4. subst r'. exists (firstn i t), ty, ws, q. split; [split; assumption|]. split; [exact Hw|].
    change (lit "@" ++ ty ++ ws ++ lit "{" ++ q) with (c_at :: ty ++ ws ++ c_lb :: q). rewrite <- E. symmetry. apply firstn_skipn.
  - intros (p & ty & ws & q & (Ne & Hty) & Hw & ->). set (t := p ++ _). assert (E : skipn (length p) t = c_at :: ty ++ ws ++ c_lb :: q) by (apply DelimFinal.skipn_app_exact; reflexivity).
    assert (E1 := skipn_more1 t _ _ _ E). assert (E2 := skipn_more t _ ty _ E1). assert (E3 := skipn_more t _ ws _ E2).
    exists (length p), (S (S (length p) + length ty + length ws)). split; [unfold t; rewrite app_length; lia|]. unfold BibTexPattern. cbn [rseq].
    apply rel_rseq2. exists (S (length p)). split; [apply rel_is_ch; split; [reflexivity|eexists; exact E]|]. apply rel_rseq2. exists (S (length p) + length ty). split; [apply rel_grp1; apply rel_plus_chr; exists ty; eexists; split; [exact E1|auto]|].
    apply rel_rseq2. exists (S (length p) + length ty + length ws). split; [apply rel_star_chr; exists ws; eexists; split; [exact E2|auto]|apply rel_is_ch; split; [reflexivity|eexists; exact E3]].
Qed.
Lemma not_true : forall b P, (b = true <-> P) -> ~ P -> b = false. Proof. intros b P H N. apply not_true_iff_false. intros X. apply N. apply H. exact X. Qed.

Section Parse.
Variable isword : ch -> bool.
Variable lower : str -> str.
Variable convert : str -> list str.
Theorem div_parsed : forall content es, word_class isword -> bibdiv_text (preprocess content) -> bib_list isword (preprocess content) es ->
  exists fuel, bib_parse isword lower convert fuel content = Some (map (fun e => ETex (bib_entry_of lower e)) es).
Proof.
  intros content es W D B. destruct (BibdivProofs3.bibdiv_exact isword lower W _ _ B) as (fuel & H). exists fuel. unfold bib_parse. cbv zeta. rewrite (proj2 (bibdiv_iff _) D), H. cbn [option_map]. rewrite map_map. reflexivity.
Qed.
Theorem tex_parsed : forall content es, word_class isword -> ~ bibdiv_text (preprocess content) -> ~ compiled_text (preprocess content) -> at_entry isword (preprocess content) -> bib_file isword (preprocess content) es ->
  exists fuel, bib_parse isword lower convert fuel content = Some (map (fun e => ETex (BibProofs2.entry_of lower e)) es).
Proof.
  intros content es W D C A B. assert (Cf := not_true _ _ (compiled_iff _) C). destruct (BibProofs2.c50_entries isword lower W convert _ _ B Cf) as (fuel & H). exists fuel. unfold bib_parse. cbv zeta.
  rewrite (not_true _ _ (bibdiv_iff _) D). unfold bibtex_can_handle. rewrite (proj2 (bibtex_iff isword _) A). cbn [orb]. rewrite H. cbn [option_map]. rewrite map_map. reflexivity.
Qed.
Theorem items_parsed : forall content pre T items out, BibitemSpec.word_class isword -> ~ bibdiv_text (preprocess content) -> ~ at_entry isword (preprocess content) -> ~ compiled_text (preprocess content) ->
  BibitemSpec.searched isword (preprocess content) (pre ++ T) -> ~ occurs BibitemSpec.item_word pre -> BibitemSpec.items_text items T -> BibitemSpec.entries_of isword None items out ->
  forall fuel, bib_parse isword lower convert fuel content = Some (map EItem out).
Proof.
  intros content pre T items out W D A C S N HT HE fuel. unfold bib_parse. cbv zeta. rewrite (not_true _ _ (bibdiv_iff _) D). unfold bibtex_can_handle. rewrite (not_true _ _ (bibtex_iff isword _) A), (not_true _ _ (compiled_iff _) C). cbn [orb].
  rewrite (BibitemProofs3.bibitems_exact isword W _ pre T items out S N HT HE). cbn [option_map].
  destruct (can_handle_bibitems isword (preprocess content)) eqn:Ch; [reflexivity|].
  assert (Hi : items = []).
  { unfold can_handle_bibitems in Ch. assert (Se := BibitemProofs3.searched_exact isword W _ _ S). destruct (environment isword (Datatypes.S (length (preprocess content))) (preprocess content) 0); [discriminate|].
    destruct items as [|it items]; [reflexivity|]. exfalso. rewrite Se in Ch. unfold contains in Ch. destruct (find_sub (lit "\bibitem") (pre ++ T)) eqn:F; [discriminate|].
    apply (BibitemProofs3.find_sub_none _ _ F). inversion HT as [|? ? s t Hs]; subst. destruct Hs; exists pre; eexists; rewrite <- ?app_assoc; reflexivity. }
  subst items. inversion HE. reflexivity.
Qed.
Theorem none_parsed : forall content fuel, ~ bibdiv_text (preprocess content) -> ~ at_entry isword (preprocess content) -> ~ compiled_text (preprocess content) ->
  (forall pre name inner post, ~ BibitemSpec.bibliography_env isword (preprocess content) pre name inner post) -> ~ occurs (lit "\bibitem") (preprocess content) ->
  bib_parse isword lower convert fuel content = Some [].
Proof.
  intros content fuel D A C Ne Ni. unfold bib_parse. cbv zeta. rewrite (not_true _ _ (bibdiv_iff _) D). unfold bibtex_can_handle. rewrite (not_true _ _ (bibtex_iff isword _) A), (not_true _ _ (compiled_iff _) C). cbn [orb].
  unfold can_handle_bibitems. destruct (environment _ _ _ _) as [inner|] eqn:E; [exfalso; destruct (BibitemProofs3.env_sound isword _ _ _ _ E) as (a & b & c & X); exact (Ne _ _ _ _ X)|].
  assert (Cf : contains (lit "\bibitem") (preprocess content) = false). { unfold contains. destruct (find_sub _ _) as [k|] eqn:F; [|reflexivity]. exfalso. apply Ni. destruct (BibitemProofs3.find_sub_some _ _ _ F) as (b & X). exists (firstn k (preprocess content)), b. exact X. }
  rewrite Cf. reflexivity.
Qed.
End Parse.

(** * Files *)
Lemma until_slash : forall s r, ~ In c_slash s -> drop_until_slash (s ++ c_slash :: r) = c_slash :: r.
Proof. induction s as [|x s IH]; intros r N; [reflexivity|]. cbn [List.app drop_until_slash]. destruct (N.eqb_spec x c_slash) as [->|_]; [exfalso; apply N; left; reflexivity|]. apply IH. intros I. apply N. right. exact I. Qed.
Lemma no_slash : forall s, ~ In c_slash s -> drop_until_slash s = [].
Proof. induction s as [|x s IH]; intros N; [reflexivity|]. cbn [drop_until_slash]. destruct (N.eqb_spec x c_slash) as [->|_]; [exfalso; apply N; left; reflexivity|]. apply IH. intros I. apply N. right. exact I. Qed.
Theorem dirname_exact : forall p d, in_directory p d -> dirname p = d.
Proof.
  intros p d H. unfold dirname. cbv zeta. destruct H as [base N|d x base N Nx].
  - rewrite no_slash; [reflexivity|]. intros I. apply N. apply in_rev. exact I.
  - rewrite rev_app_distr. cbn [List.app rev]. rewrite <- app_assoc. cbn [List.app]. rewrite until_slash by (intros I; apply N; apply in_rev; exact I).
    assert (E : rev (c_slash :: rev (d ++ [x])) = (d ++ [x]) ++ [c_slash]) by (cbn [rev]; rewrite rev_involutive; reflexivity). rewrite E. rewrite <- app_assoc, forallb_app. cbn [forallb List.app].
    destruct (N.eqb_spec c_slash x) as [E9|_]; [exfalso; apply Nx; symmetry; exact E9|]. cbn [andb]. rewrite andb_false_r. rewrite !rev_app_distr. cbn [rev List.app drop_slashes]. change (N.eqb c_slash c_slash) with true. cbv iota. cbn [drop_slashes]. destruct (N.eqb_spec x c_slash) as [->|_]; [congruence|].
    cbn [rev]. rewrite rev_involutive. reflexivity.
Qed.
Lemma join_dir : forall p d name, in_directory p d -> startswith name [c_slash] = false -> TokensModel.path_join d name = in_dir d name.
Proof.
  intros p d name H N. unfold TokensModel.path_join. change (lit "/") with [c_slash]. rewrite N. destruct H as [base Nb|d x base Nb Nx]; [reflexivity|].
  assert (E : endswith (d ++ [x]) [c_slash] = false). { unfold endswith. rewrite rev_app_distr. cbn [rev List.app startswith]. destruct (N.eqb_spec c_slash x) as [E9|_]; [exfalso; apply Nx; symmetry; exact E9|reflexivity]. }
  unfold in_dir. destruct (d ++ [x]) as [|y q] eqn:Ed; [destruct d; discriminate|]. rewrite E. reflexivity.
Qed.
Section Files.
Variable files : str -> option str.
Variable listdir : str -> option (list str).
Variable A : Type.
Variable parse : str -> option (list A).
Lemma ext_true : forall e p, endswith p e = true <-> has_ext e p.
Proof. intros e p. rewrite LegacyProofs3.endswith_iff. reflexivity. Qed.
Lemma own_exact : forall path c, named files path c -> own_content files path = Some c.
Proof.
  intros path c H. unfold own_content. destruct H as [c H F|c H F|c H F1 F2].
  - rewrite F. assert (X : endswith path bbl || endswith path bib = true) by (apply orb_true_iff; destruct H as [H|H]; [left|right]; apply ext_true; exact H). rewrite X. reflexivity.
  - destruct (files path) as [c'|] eqn:E; [|fold bbl in F; rewrite F; reflexivity]. destruct H as [H|(H1 & H2)]; [discriminate|]. rewrite (not_true _ _ (ext_true bbl path) H1), (not_true _ _ (ext_true bib path) H2). cbn [orb]. fold bbl in F. rewrite F. reflexivity.
  - fold bbl in F1. fold bib in F2. destruct (files path) as [c'|] eqn:E; [|rewrite F1; exact F2]. destruct H as [H|(H1 & H2)]; [discriminate|]. rewrite (not_true _ _ (ext_true bbl path) H1), (not_true _ _ (ext_true bib path) H2). cbn [orb]. rewrite F1. exact F2.
Qed.
Lemma own_sound : forall path c, own_content files path = Some c -> named files path c.
Proof.
  intros path c H. unfold own_content in H. destruct (files path) as [c'|] eqn:E.
  - destruct (endswith path bbl || endswith path bib) eqn:X.
    + injection H as <-. apply na_self; [|exact E]. apply orb_true_iff in X as [X|X]; [left|right]; apply ext_true; exact X.
    + apply orb_false_elim in X as [X1 X2]. assert (Nx : files path = None \/ ~ has_ext (lit ".bbl") path /\ ~ has_ext (lit ".bib") path) by (right; split; intros Y; apply ext_true in Y; fold bbl bib in Y; congruence).
      destruct (files (path ++ bbl)) as [c2|] eqn:F; [injection H as <-; apply na_bbl; assumption|apply na_bib; assumption].
  - destruct (files (path ++ bbl)) as [c2|] eqn:F; [injection H as <-; apply na_bbl; auto|apply na_bib; auto].
Qed.
Theorem file_named : forall path c, named files path c -> c <> [] -> parse_file files listdir parse path = parse c.
Proof. intros path c H N. unfold parse_file. rewrite (own_exact _ _ H). destruct c; [congruence|reflexivity]. Qed.
Lemma not_named : forall path, nothing_named files path -> parse_file files listdir parse path =
  match fallback_content files listdir path with None => None | Some content => match content with Some (x :: c) => parse (x :: c) | _ => Some [] end end.
Proof.
  intros path H. unfold parse_file. cbv zeta. destruct (own_content files path) as [c|] eqn:E; [|reflexivity]. rewrite (H c (own_sound _ _ E)). reflexivity.
Qed.
Theorem file_main : forall path d c, nothing_named files path -> in_directory path d -> files (in_dir d (lit "main.bbl")) = Some c -> c <> [] -> parse_file files listdir parse path = parse c.
Proof.
  intros path d c H D F N. rewrite (not_named _ H). unfold fallback_content. cbv zeta. rewrite (dirname_exact _ _ D), (join_dir _ _ _ D) by reflexivity. rewrite F. destruct c; [congruence|reflexivity].
Qed.
Theorem file_first : forall path d l1 f l2 c, nothing_named files path -> in_directory path d -> files (in_dir d (lit "main.bbl")) = None ->
  listdir d = Some (l1 ++ f :: l2) -> (forall g, In g l1 -> ~ has_ext (lit ".bbl") g) -> has_ext (lit ".bbl") f -> ~ In c_slash f -> files (in_dir d f) = Some c -> c <> [] -> parse_file files listdir parse path = parse c.
Proof.
  intros path d l1 f l2 c H D M Ls N1 Ef Sf F N. rewrite (not_named _ H). unfold fallback_content. cbv zeta. rewrite (dirname_exact _ _ D), (join_dir _ _ _ D) by reflexivity. rewrite M, Ls.
  assert (Fl : filter (fun f => endswith f bbl) (l1 ++ f :: l2) = f :: filter (fun f => endswith f bbl) l2).
  { rewrite filter_app. assert (E1 : filter (fun f => endswith f bbl) l1 = []). { clear - N1. induction l1 as [|g l1 IH]; [reflexivity|]. cbn [filter]. rewrite (not_true _ _ (ext_true bbl g) (N1 g (or_introl eq_refl))). apply IH. intros g' I. apply N1. right. exact I. }
    rewrite E1. cbn [List.app filter]. rewrite (proj2 (ext_true bbl f) Ef). reflexivity. }
  rewrite Fl. assert (Sl : startswith f [c_slash] = false). { destruct f as [|z f]; [reflexivity|]. cbn [startswith]. destruct (N.eqb_spec c_slash z) as [E9|_]; [exfalso; apply Sf; left; symmetry; exact E9|reflexivity]. }
  rewrite (join_dir _ _ _ D Sl), F. destruct c; [congruence|reflexivity].
Qed.
Theorem file_missing : forall path d names, nothing_named files path -> in_directory path d -> files (in_dir d (lit "main.bbl")) = None ->
  listdir d = Some names -> (forall g, In g names -> ~ has_ext (lit ".bbl") g) -> parse_file files listdir parse path = Some [].
Proof.
  intros path d names H D M Ls N1. rewrite (not_named _ H). unfold fallback_content. cbv zeta. rewrite (dirname_exact _ _ D), (join_dir _ _ _ D) by reflexivity. rewrite M, Ls.
  assert (E1 : filter (fun f => endswith f bbl) names = []). { clear - N1. induction names as [|g l1 IH]; [reflexivity|]. cbn [filter]. rewrite (not_true _ _ (ext_true bbl g) (N1 g (or_introl eq_refl))). apply IH. intros g' I. apply N1. right. exact I. }
  rewrite E1. reflexivity.
Qed.
(** os.listdir of the empty path raises *)
Theorem file_bare : forall path, nothing_named files path -> ~ In c_slash path -> files (lit "main.bbl") = None -> listdir [] = None -> parse_file files listdir parse path = None.
Proof.
  intros path H N M Ls. rewrite (not_named _ H). unfold fallback_content. cbv zeta. rewrite (dirname_exact _ _ (dir_none path N)), (join_dir _ _ _ (dir_none path N)) by reflexivity. unfold in_dir. rewrite M, Ls. reflexivity.
Qed.
End Files.
