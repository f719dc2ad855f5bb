(** C106: from the file to the preamble. *)
From Coq Require Import List NArith ZArith PeanoNat Lia Bool String.
From Verif Require StyleModel BibParserProofs CommentProofs AuthorProofs.
From Verif Require Import PyStr Regex RegexLemmas RegexHead RegexAbs DelimSpec DelimFinal TexUtilsModel CommandSpec DefModel DefSpec DefProofs3 PreambleModel PreambleSpec PreambleProofs PreambleProofs2 PreambleProofs3.
Import ListNotations. Notation length := List.length. Notation concat := List.concat. Open Scope list_scope.
Lemma begin_iff : forall t i, (exists j, rel BEGIN_DOCUMENT t i j) <-> document_begins (skipn i t).
Proof.
  intros t i. unfold BEGIN_DOCUMENT. cbn [rseq]. split.
  - intros (j & R). apply rel_rseq2 in R as (k1 & R1 & R). apply rel_rseq2 in R as (k2 & R2 & R). apply rel_rstr in R1 as (-> & r1 & E1). apply rel_star_chr in R2 as (g & r2 & E2 & B & ->). apply rel_rstr in R as (_ & r & E).
    exists g, r. split; [exact B|]. rewrite E1, <- (skipn_more _ _ _ _ E1), E2, <- (skipn_more _ _ _ _ E2), E. reflexivity.
  - intros (g & r & B & E). eexists. apply rel_rseq2. exists (i + length (lit "\begin")). pose proof (skipn_more _ _ _ _ E) as E2. pose proof (skipn_more _ _ _ _ E2) as E3. split; [apply rel_rstr; split; [reflexivity|eexists; exact E]|].
    apply rel_rseq2. eexists. split; [apply rel_star_chr; exists g; eexists; split; [exact E2|split; [exact B|reflexivity]]|]. apply rel_rstr. split; [reflexivity|eexists; exact E3].
Qed.
Lemma class_rel : forall t i j, rel CLASS t i j -> exists c r, skipn i t = c ++ r /\ class_line c /\ j = i + length c.
Proof.
  intros t i j R. change (rel (RSeq (rstr (lit "\documentclass")) (TAIL 1)) t i j) in R. apply rel_rseq2 in R as (k & R1 & R). apply tail_rel in R as (g1 & o & g2 & names & r & E & B1 & B2 & Ho & N1 & N2 & ->). apply rel_rstr in R1 as (-> & r1 & E1).
  exists (lit "\documentclass" ++ use_tail g1 o g2 names), r. split; [|split; [apply cl_intro; assumption|rewrite app_length; lia]]. rewrite E1, <- (skipn_more _ _ _ _ E1), E, <- app_assoc. reflexivity.
Qed.
Lemma class_match : forall t i c r, skipn i t = c ++ r -> class_line c -> exists cs, re_match_at CLASS t i = Some {| m_start := i; m_end := i + length c; m_caps := cs |}.
Proof.
  intros t i c r E C. destruct C as [g1 o g2 names B1 B2 Ho N1 N2]. change (g1 ++ optional o ++ g2 ++ braced names) with (use_tail g1 o g2 names) in *. rewrite <- app_assoc in E. pose proof (skipn_more _ _ _ _ E) as E2.
  destruct (tail_fm 1 t _ [] g1 o g2 names r E2 B1 B2 Ho N1 N2) as (cs & F). exists cs. apply fm_match. change (fm (RSeq (rstr (lit "\documentclass")) (TAIL 1)) t i [] (i + length (lit "\documentclass" ++ use_tail g1 o g2 names)) cs). eapply fm_seq; [apply (fm_rstr _ _ _ _ _ E)|]. rewrite app_length, Nat.add_assoc. exact F.
Qed.
Lemma class_iff : forall t i, i <= length t -> (exists j, rel CLASS t i j) <-> class_begins (skipn i t).
Proof.
  intros t i L. split.
  - intros (j & R). apply class_rel in R as (c & r & E & C & _). exists c, r. auto.
  - intros (c & r & C & E). destruct (class_match _ _ _ _ E C) as (cs & M). apply re_match_at_some in M as (_ & M & _); [|exact L]. eexists. exact M.
Qed.
Lemma search_first_iff : forall R (P : str -> Prop) t, (forall i, i <= length t -> (exists j, rel R t i j) <-> P (skipn i t)) ->
  match re_search R t with Some m => before_first P t (firstn (m_start m) t) | None => nowhere P t end.
Proof.
  intros R P t H. destruct (re_search R t) as [m|] eqn:E; unfold re_search in E.
  - apply re_search_some in E as (_ & L & M & _ & A). exists (skipn (m_start m) t). split; [symmetry; apply firstn_skipn|]. split; [apply H; [lia|]; exists (m_end m); exact M|].
    intros a b Et Pb. rewrite firstn_length. destruct (Nat.le_gt_cases (m_start m) (length a)) as [F|F]; [lia|exfalso]. assert (La : length a <= length t) by (rewrite Et, app_length; lia).
    assert (Pa : P (skipn (length a) t)) by (rewrite Et, skipn_app_exact by reflexivity; exact Pb). apply (H _ La) in Pa as (j & Hj). exact (A _ _ (conj (Nat.le_0_l _) F) Hj).
  - intros a b Et Pb. assert (La : length a <= length t) by (rewrite Et, app_length; lia). assert (Pa : P (skipn (length a) t)) by (rewrite Et, skipn_app_exact by reflexivity; exact Pb). apply (H _ La) in Pa as (j & Hj). exact (proj1 (re_search_none _ _ _) E _ j (conj (Nat.le_0_l _) La) Hj).
Qed.
Lemma preamble_text_ok : forall content, preamble_text (strip_latex_comments content) (after_class (before_document content)).
Proof.
  intros content. set (t := strip_latex_comments content). pose proof (search_first_iff BEGIN_DOCUMENT document_begins t (fun i _ => begin_iff t i)) as B.
  set (b := match re_search BEGIN_DOCUMENT t with Some m => firstn (m_start m) t | None => t end). assert (Eb : before_document content = strip b) by reflexivity. rewrite Eb. apply (pt_intro _ b).
  - unfold b. destruct (re_search BEGIN_DOCUMENT t); [left; exact B|right; split; [exact B|reflexivity]].
  - unfold after_class. pose proof (search_first_iff CLASS class_begins (strip b) (class_iff (strip b))) as C. destruct (re_search CLASS (strip b)) as [m|] eqn:E; [left|right; split; [exact C|reflexivity]].
    unfold re_search in E. apply re_search_some in E as (_ & L & R & _). apply class_rel in R as (c & r & Ec & Cl & Em). exists (firstn (m_start m) (strip b)), c. split; [exact C|]. split; [exact Cl|]. rewrite Em, <- skipn_add. rewrite Ec at 1. rewrite skipn_app_exact by reflexivity. rewrite <- Ec. symmetry. apply firstn_skipn.
Qed.
Lemma before_unique : forall P t a a', before_first P t a -> before_first P t a' -> a = a'.
Proof.
  intros P t a a' (b & E & Pb & M) (b' & E' & Pb' & M'). assert (L : length a = length a') by (apply Nat.le_antisymm; [apply (M a' b')|apply (M' a b)]; assumption).
  rewrite E in E'. apply (f_equal (firstn (length a))) in E'. rewrite firstn_app_exact in E' by reflexivity. rewrite firstn_app_exact in E' by exact L. exact E'.
Qed.
Lemma before_nowhere : forall P t a, before_first P t a -> nowhere P t -> False.
Proof. intros P t a (b & E & Pb & _) N. exact (N _ _ E Pb). Qed.
Lemma class_unique : forall c c' r r', class_line c -> class_line c' -> c ++ r = c' ++ r' -> c = c'.
Proof.
  intros c c' r r' C C' E. destruct (class_match (c ++ r) 0 c r eq_refl C) as (cs & M). destruct (class_match (c ++ r) 0 c' r' E C') as (cs' & M'). rewrite M in M'. assert (L : 0 + length c = 0 + length c') by congruence. apply (f_equal (firstn (length c))) in E. rewrite firstn_app_exact in E by reflexivity. rewrite firstn_app_exact in E by lia. exact E.
Qed.
Lemma preamble_unique : forall t a b, preamble_text t a -> preamble_text t b -> a = b.
Proof.
  intros t a b [b1 x H1 K1] [b2 y H2 K2]. assert (E : b1 = b2).
  { destruct H1 as [H1|(H1 & ->)], H2 as [H2|(H2 & ->)]; [exact (before_unique _ _ _ _ H1 H2)|destruct (before_nowhere _ _ _ H1 H2)|destruct (before_nowhere _ _ _ H2 H1)|reflexivity]. }
  subst b2. destruct K1 as [(a1 & c1 & F1 & C1 & E1)|(F1 & ->)], K2 as [(a2 & c2 & F2 & C2 & E2)|(F2 & ->)]; [|destruct (before_nowhere _ _ _ F1 F2)|destruct (before_nowhere _ _ _ F2 F1)|reflexivity].
  pose proof (before_unique _ _ _ _ F1 F2) as Ea. subst a2. rewrite E1 in E2. apply app_inv_head in E2. pose proof (class_unique _ _ _ _ C1 C2 E2) as Ec. subst c2. apply app_inv_head in E2. exact E2.
Qed.
(** characters of the preamble are characters of the file *)
Lemma lstrip_incl : forall s x, In x (lstrip s) -> In x s.
Proof. induction s as [|y s IH]; intros x H; [exact H|]. cbn [lstrip] in H. destruct (isspace y); [right; apply IH; exact H|exact H]. Qed.
Lemma strip_incl : forall s x, In x (strip s) -> In x s.
Proof.
  intros s x H. unfold strip, rstrip in H. apply in_rev in H. apply lstrip_incl in H. apply in_rev in H. apply lstrip_incl in H. exact H.
Qed.
Lemma uncomment_incl : forall text x, x <> c_nl -> In x (strip_latex_comments text) -> In x text.
Proof.
  intros text x Nx H. unfold strip_latex_comments in H.
  assert (J : forall ls, In x (join [c_nl] ls) -> exists l, In l ls /\ In x l).
  { induction ls as [|l ls IH]; intros I; [destruct I|]. destruct ls as [|l2 ls]; [exists l; split; [left; reflexivity|exact I]|]. change (In x (l ++ [c_nl] ++ join [c_nl] (l2 :: ls))) in I. apply in_app_or in I as [I|I]; [exists l; split; [left; reflexivity|exact I]|]. apply in_app_or in I as [I|I]; [destruct I as [I|[]]; congruence|]. destruct (IH I) as (l' & I1 & I2). exists l'. split; [right; exact I1|exact I2]. }
  apply J in H as (l & I & H). apply in_map_iff in I as (line & <- & I).
  assert (R : forall s y, In y (rstrip s) -> In y s) by (intros s y Hy; unfold rstrip in Hy; apply in_rev in Hy; apply lstrip_incl in Hy; apply in_rev; exact Hy).
  apply R in H.
  assert (C : forall l0 rest i y, In y (slc_line l0 i rest) -> In y rest).
  { intros l0 rest. induction rest as [|z rest IH]; intros i y Hy; [exact Hy|]. cbn [slc_line] in Hy. destruct (N.eqb_spec z c_pct) as [->|].
    - destruct (negb (is_escaped i l0)); [destruct Hy|]. destruct Hy as [<-|Hy]; [left; reflexivity|right; exact (IH _ _ Hy)].
    - destruct Hy as [<-|Hy]; [left; reflexivity|right; exact (IH _ _ Hy)]. }
  apply C in H. pose proof (CommentProofs.splitlines_lines text) as L. clear - I H L.
  induction L as [|l Ne Nb|l s ls Nb L IH|l b s ls Nb Hb Hcr L IH].
  - destruct I.
  - destruct I as [<-|[]]. exact H.
  - apply in_or_app. destruct I as [<-|I]; [left; exact H|right; right; right; apply IH; exact I].
  - apply in_or_app. destruct I as [<-|I]; [left; exact H|right; right; apply IH; exact I].
Qed.
Section Any.
Variables u ualpha ualnum : ch -> bool.
Lemma get_ok : forall content, get_preamble u ualpha ualnum content <> Spin /\
  (forall out, get_preamble u ualpha ualnum content = Ok out -> exists body ps, preamble_text (strip_latex_comments content) body /\ reads u ualpha ualnum body ps /\ out = lines ps) /\
  (get_preamble u ualpha ualnum content = Raise -> In c_hash content).
Proof.
  intros content. unfold get_preamble. cbv zeta. set (body := after_class (before_document content)). destruct (loop_ok u ualpha ualnum (S (length body)) body [] (Nat.lt_succ_diag_r _)) as (A & B & C). split; [exact A|]. split.
  - intros out E. destruct (B out E) as (ps & R & ->). exists body, ps. split; [apply preamble_text_ok|]. split; [exact R|reflexivity].
  - intros E. apply C in E. unfold body, after_class in E. assert (F : In c_hash (before_document content)) by (destruct (re_search CLASS (before_document content)); [exact (In_skipn _ _ _ _ E)|exact E]).
    unfold before_document in F. cbv zeta in F. apply strip_incl in F. assert (G : In c_hash (strip_latex_comments content)).
    { destruct (re_search BEGIN_DOCUMENT (strip_latex_comments content)); [|exact F]. rewrite <- (firstn_skipn (m_start m) (strip_latex_comments content)). apply in_or_app. left. exact F. }
    apply uncomment_incl in G; [exact G|discriminate].
Qed.
Lemma get_written : forall content body items, preamble_text (strip_latex_comments content) body -> written body items -> get_preamble u ualpha ualnum content = Ok (lines items).
Proof.
  intros content body items P W. unfold get_preamble. cbv zeta. rewrite (preamble_unique _ _ _ (preamble_text_ok content) P). apply (loop_written u ualpha ualnum _ _ W (S (length body)) []). lia.
Qed.
End Any.
