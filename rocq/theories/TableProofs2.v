From Coq Require Import List NArith ZArith PeanoNat Lia Bool String.
From Verif Require Import PyStr Regex RegexLemmas RegexLocal RegexHead Json TexUtilsModel DelimSpec DelimProofs BuilderModel FactoryModel TableSpec TableModel TableProofs.
Import ListNotations.
Notation length := List.length.
Notation concat := List.concat.
Open Scope list_scope.

Lemma space_lb : forall w r, blank w -> forallb isspace w = true /\ (match c_lb :: r with x :: _ => isspace x | [] => false end) = false.
Proof. intros w r H. split; [exact H|reflexivity]. Qed.

(** group 1 and the end of a span command *)
Lemma span_match : forall name n w1 w2 q, blank w1 -> blank w2 ->
  let t := (c_bs :: name) ++ w1 ++ c_lb :: str_of_nat n ++ c_rb :: w2 ++ c_lb :: q in
  exists m, re_search (span_pattern name) t = Some m /\ m_group t 1 m = Some (str_of_nat n) /\ skipn (m_end m - 1) t = c_lb :: q.
Proof.
  intros name n w1 w2 q H1 H2 t.
  set (i1 := length (c_bs :: name)). set (i2 := i1 + length w1). set (i3 := S i2 + length (str_of_nat n)). set (i4 := S i3 + length w2).
  assert (S0 : skipn 0 t = (c_bs :: name) ++ w1 ++ c_lb :: str_of_nat n ++ c_rb :: w2 ++ c_lb :: q) by reflexivity.
  pose proof (skipn_more _ _ _ _ S0) as S1. fold i1 in S1. change (0 + i1) with i1 in S1.
  pose proof (skipn_more _ _ _ _ S1) as S2. fold i2 in S2.
  pose proof (skipn_more1 _ _ _ _ S2) as S3.
  pose proof (skipn_more _ _ _ _ S3) as S4. fold i3 in S4.
  pose proof (skipn_more1 _ _ _ _ S4) as S5.
  pose proof (skipn_more _ _ _ _ S5) as S6. fold i4 in S6.
  assert (F : first_match (span_pattern name) t 0 [] (S i4) [(1, (S i2, i3))]).
  { unfold span_pattern. cbn [rseq].
    eapply fm_seq; [apply (fm_rstr _ _ _ _ _ S0)|]. fold i1. change (0 + i1) with i1.
    eapply fm_seq; [apply (fm_star isspace _ _ _ _ _ S1 H1); reflexivity|]. fold i2.
    eapply fm_seq; [apply (fm_is_ch _ _ _ _ _ S2)|].
    eapply fm_seq; [apply fm_grp; apply (fm_plus isdigit _ _ _ _ _ S3 (str_of_nat_nonempty n) (str_of_nat_digits n)); reflexivity|]. fold i3.
    eapply fm_seq; [apply (fm_is_ch _ _ _ _ _ S4)|].
    eapply fm_seq; [apply (fm_star isspace _ _ _ _ _ S5 H2); reflexivity|]. fold i4.
    apply (fm_is_ch _ _ _ _ _ S6). }
  apply fm_search0 in F. eexists. split; [exact F|]. cbn [m_end]. split.
  - unfold m_group. cbn [m_caps cap_get Nat.eqb option_map]. unfold slice. f_equal. replace (i3 - S i2) with (length (str_of_nat n)) by (unfold i3; lia).
    rewrite S3, firstn_app, firstn_all, Nat.sub_diag. cbn [firstn]. apply app_nil_r.
  - replace (S i4 - 1) with i4 by lia. exact S6.
Qed.

Lemma group_here : forall s rest w, group_text s -> blank w -> group_at c_lb c_rb (w ++ c_lb :: s ++ c_rb :: rest) s (length w + 1 + length s + 1).
Proof. intros s rest w [H1 H2] Hw. exists w, rest. repeat split; assumption. Qed.
Lemma two_groups : forall spec w3 body, group_text spec -> blank w3 -> group_text body ->
  fst (extract_nested_content_sequence_blocks (c_lb :: spec ++ c_rb :: w3 ++ c_lb :: body ++ [c_rb]) c_lb c_rb (Some 2)) = [spec; body].
Proof.
  intros spec w3 body Hs Hw Hb. destruct (seq_blocks_spec c_lb c_rb (Some 2) (c_lb :: spec ++ c_rb :: w3 ++ c_lb :: body ++ [c_rb]) delims_curly) as (bs & p & E & G & L & M).
  rewrite E. cbn [fst]. 
  pose proof (group_here spec (w3 ++ c_lb :: body ++ [c_rb]) [] Hs eq_refl) as G1. cbn [app length plus] in G1.
  inversion G as [|? b n bs' m Gb Gr]; subst.
  { exfalso. apply (M ltac:(cbn; lia) spec _ G1). }
  destruct (group_at_fun _ _ _ _ _ _ _ delims_curly G1 Gb) as [<- <-]. f_equal.
  assert (Ek : skipn (S (length spec + 1)) (c_lb :: spec ++ c_rb :: w3 ++ c_lb :: body ++ [c_rb]) = w3 ++ c_lb :: body ++ [c_rb]).
  { cbn [skipn]. rewrite <- skipn_add, skipn_app, skipn_all, Nat.sub_diag. reflexivity. }
  pose proof (group_here body [] w3 Hb Hw) as G2. rewrite Ek in Gr.
  inversion Gr as [|? b2 n2 bs2 m2 Gb2 Gr2]; subst.
  { exfalso. cbn [length] in M. apply (M ltac:(lia) body (length w3 + 1 + length body + 1)). rewrite Nat.add_0_r, Ek. exact G2. }
  destruct (group_at_fun _ _ _ _ _ _ _ delims_curly G2 Gb2) as [<- <-]. f_equal. cbn [length] in L. destruct bs2; [reflexivity|cbn in L; lia].
Qed.
Lemma span_of_cell : forall name n body t, span_cell name n body t -> span_of (span_pattern name) t = Some (n, strip body).
Proof.
  intros name n body t (w1 & w2 & w3 & spec & H1 & H2 & H3 & Hs & Hb & ->). unfold span_of.
  destruct (span_match name n w1 w2 (spec ++ c_rb :: w3 ++ c_lb :: body ++ [c_rb]) H1 H2) as (m & -> & -> & ->).
  rewrite int_of_str_of_nat, two_groups by assumption. reflexivity.
Qed.
Lemma span_of_absent : forall name t, ~ occurs (c_bs :: name) t -> span_of (span_pattern name) t = None.
Proof.
  intros name t H. unfold span_of. replace (re_search (span_pattern name) t) with (@None mobj); [reflexivity|]. symmetry. apply re_search_none.
  intros i j Hi R. unfold span_pattern in R. cbn [rseq] in R. apply rel_rseq2 in R as (k & R & _). apply rel_rstr in R as (_ & r & R).
  apply H. exists (firstn i t), r. rewrite <- R. symmetry. apply firstn_skipn.
Qed.
Lemma unwrap_absent : forall t, no_command stacks t -> unwrap_cell t = Some t.
Proof.
  intros t H. unfold unwrap_cell. destruct t as [|x t]; [reflexivity|].
  replace (re_search MAKECELL_SHORTSTACK_PATTERN (x :: t)) with (@None mobj); [reflexivity|]. symmetry. apply re_search_none.
  intros i j Hi R. unfold MAKECELL_SHORTSTACK_PATTERN in R. cbn [rseq] in R. apply rel_rseq2 in R as (k & R1 & R). apply rel_rseq2 in R as (k2 & R2 & _).
  apply rel_is_ch in R1 as (-> & r1 & E1). rewrite rel_alt2, !rel_rstr in R2.
  assert (O : forall s, skipn (S i) (x :: t) = lit s ++ skipn (S i + length (lit s)) (x :: t) -> occurs (c_bs :: lit s) (x :: t)).
  { intros s E. rewrite (skipn_more1 _ _ _ _ E1) in E at 1. exists (firstn i (x :: t)), (skipn (S i + length (lit s)) (x :: t)). cbn [app].
    etransitivity; [symmetry; apply (firstn_skipn i)|]. f_equal. rewrite E1. f_equal. exact E. }
  destruct R2 as [(_ & r2 & E2)|(_ & r2 & E2)].
  - apply (H "\makecell"%string); [left; reflexivity|]. apply (O "makecell"%string). rewrite (skipn_more _ _ _ _ E2). exact E2.
  - apply (H "\shortstack"%string); [right; left; reflexivity|]. apply (O "shortstack"%string). rewrite (skipn_more _ _ _ _ E2). exact E2.
Qed.
Lemma unwrap_stack : forall b t, stack_cell b t -> unwrap_cell t = Some b.
Proof.
  intros b t (cmd & w & Hc & Hw & Hb & ->).
  assert (exists name, cmd = c_bs :: name /\ (name = lit "makecell" \/ name = lit "shortstack")) as (name & -> & Hn).
  { destruct Hc as [-> | ->]; eexists; split; try reflexivity; [left|right]; reflexivity. }
  set (t := (c_bs :: name) ++ w ++ c_lb :: b ++ [c_rb]).
  assert (S0 : skipn 0 t = c_bs :: name ++ w ++ c_lb :: b ++ [c_rb]) by reflexivity.
  pose proof (skipn_more1 _ _ _ _ S0) as S1.
  pose proof (skipn_more _ _ _ _ S1) as S2. set (i := 1 + length name) in *.
  pose proof (skipn_more _ _ _ _ S2) as S3.
  assert (F : exists j, first_match MAKECELL_SHORTSTACK_PATTERN t 0 [] j [] /\ j = S (i + length w)).
  { eexists. split; [|reflexivity]. unfold MAKECELL_SHORTSTACK_PATTERN. cbn [rseq].
    eapply fm_seq; [apply (fm_is_ch _ _ _ _ _ S0)|].
    eapply fm_seq with (j := i) (c1 := []).
    { destruct Hn as [-> | ->].
      - apply fm_alt_left. apply (fm_rstr _ _ _ _ _ S1).
      - apply fm_alt_right; [|apply (fm_rstr _ _ _ _ _ S1)]. rewrite rm_rstr, S1. reflexivity. }
    eapply fm_seq with (j := i) (c1 := []).
    { unfold ropt. apply fm_alt_right; [|apply fm_eps].
      assert (N : forall j, ~ rel (RSeq (rstar rspace) (RSeq (is_ch c_lk) (RSeq (rstar (RChr (fun x => negb (N.eqb x c_rk)))) (is_ch c_rk)))) t i j).
      { intros j R. apply rel_rseq2 in R as (k & R1 & R). apply rel_rseq2 in R as (k2 & R2 & _). apply rel_star_chr in R1 as (ws & r & E & P & ->).
        apply rel_is_ch in R2 as (_ & r2 & E2). rewrite (skipn_more _ _ _ _ E) in E2. subst r. rewrite S2 in E.
        clear -E P Hw. revert ws P E. induction w as [|x w IH]; intros [|y ws] P E; cbn in *.
        - discriminate.
        - injection E as <- _. discriminate.
        - injection E as -> _. unfold blank in Hw. cbn in Hw. discriminate.
        - injection E as -> E. apply andb_prop in P as [_ P]. unfold blank in Hw. cbn in Hw. apply andb_prop in Hw as [_ Hw]. exact (IH Hw ws P E). }
      destruct (rm _ t i []) as [|[j c] l] eqn:E; [reflexivity|]. exfalso. apply (N j). eapply (rm_sound _ t i [] j c).
      - unfold i, t. rewrite !app_length. cbn [length]. lia.
      - rewrite E. left. reflexivity. }
    eapply fm_seq; [apply (fm_star isspace _ _ _ _ _ S2 Hw); reflexivity|]. apply (fm_is_ch _ _ _ _ _ S3). }
  destruct F as (j & F & Ej). apply fm_search0 in F. unfold unwrap_cell. fold t.
  assert (Et : exists x r, t = x :: r) by (unfold t; eexists; eexists; reflexivity). destruct Et as (x & r & Et). rewrite Et at 1. rewrite F. cbn [m_end].
  replace (j - 1) with (i + length w) by lia. rewrite S3.
  assert (G : extract_nested_content (c_lb :: b ++ [c_rb]) c_lb c_rb = (Some b, 1 + length b + 1)).
  { apply extract_nested_content_iff; [exact delims_curly|]. exact (group_here b [] [] Hb eq_refl). }
  rewrite G. reflexivity.
Qed.

Lemma parse_cell_value : forall parser t v, cell_value parser t v -> parse_cell parser (unwrap_cell t) = Ok v.
Proof.
  intros parser t v H. unfold parse_cell, MULTICOLUMN_PATTERN, MULTIROW_PATTERN.
  assert (NC : forall s, no_command spans s -> span_of (span_pattern (lit "multicolumn")) s = None /\ span_of (span_pattern (lit "multirow")) s = None).
  { intros s Hs. split; apply span_of_absent; [apply (Hs "\multicolumn"%string)|apply (Hs "\multirow"%string)]; cbn; tauto. }
  destruct H as [t Hn|t b Hs Hn|t n b Hs L Hk Hn|t n b Hs L Hk Hn|t n m b b' Hs Hk Hs' L].
  - assert (H1 : no_command stacks t) by (intros s Hs; apply Hn; apply in_or_app; right; exact Hs).
    assert (H2 : no_command spans t) by (intros s Hs; apply Hn; apply in_or_app; left; exact Hs).
    rewrite unwrap_absent by exact H1. destruct (NC t H2) as [-> ->]. reflexivity.
  - rewrite (unwrap_stack b t Hs). destruct (NC b Hn) as [-> ->]. reflexivity.
  - rewrite unwrap_absent by exact Hk. rewrite (span_of_cell _ _ _ _ Hs). destruct (NC _ Hn) as [_ ->].
    replace (Nat.ltb 1 n) with true by (symmetry; apply Nat.ltb_lt; exact L). rewrite orb_true_r. reflexivity.
  - rewrite unwrap_absent by exact Hk. rewrite (span_of_absent (lit "multicolumn")) by exact Hn. rewrite (span_of_cell _ _ _ _ Hs).
    replace (Nat.ltb 1 n) with true by (symmetry; apply Nat.ltb_lt; exact L). reflexivity.
  - rewrite unwrap_absent by exact Hk. rewrite (span_of_cell _ _ _ _ Hs), (span_of_cell _ _ _ _ Hs').
    replace (Nat.ltb 1 m || Nat.ltb 1 n)%bool with true; [reflexivity|]. symmetry. apply orb_true_iff. rewrite !Nat.ltb_lt. tauto.
Qed.

Lemma any_cell_spec : forall row, any_cell row = false <-> empty_row row.
Proof.
  intros row. unfold any_cell, empty_row. rewrite <- not_true_iff_false, existsb_exists. split.
  - intros H v Hv. destruct (truthy v) eqn:E; [|reflexivity]. exfalso. apply H. exists v. auto.
  - intros H (v & Hv & E). rewrite (H v Hv) in E. discriminate.
Qed.
Lemma any_cell_true : forall row, any_cell row = true <-> ~ empty_row row.
Proof. intros row. rewrite <- any_cell_spec. destruct (any_cell row); split; congruence. Qed.

Lemma trim_spec : forall rows, without_empty_ends rows (trim_rows rows).
Proof.
  intros rows. unfold trim_rows. destruct rows as [|first r].
  { exists [], []. split; [reflexivity|]. split; [cbn; lia|]. split; [cbn; lia|]. split; [intros ? []|]. split; [intros _ ? ? E; discriminate E|].
    intros _ x rest E. destruct rest; discriminate E. }
  assert (G : forall rows, (exists pre, pre ++ rows = first :: r /\ length pre <= 1 /\ (forall x, In x pre -> empty_row x) /\ (pre = [] -> ~ empty_row first)) ->
     without_empty_ends (first :: r) (match rev rows with [] => [] | last :: before => if any_cell last then rows else rev before end)).
  { intros rows (pre & E & L & He & Hp). destruct (rev rows) as [|last before] eqn:Er.
    - assert (rows = []) by (rewrite <- (rev_involutive rows), Er; reflexivity). subst rows. rewrite app_nil_r in E. subst pre.
      exists (first :: r), []. rewrite !app_nil_r. repeat split; auto; try (cbn; lia).
      + intros C. discriminate C.
      + intros _ x rest C. exfalso. rewrite <- (app_nil_r (first :: r)) in C at 1. apply app_inv_head in C. destruct rest; discriminate C.
    - assert (Erows : rows = rev before ++ [last]) by (rewrite <- (rev_involutive rows), Er; reflexivity). destruct (any_cell last) eqn:El.
      + exists pre, []. rewrite !app_nil_r. repeat split; auto; try (cbn; lia).
        * intros Hpre x rest C. injection C as <- _. apply Hp. exact Hpre.
        * intros _ x rest C. rewrite <- E in C. apply app_inv_head in C. rewrite Erows in C. apply app_inj_tail in C as [_ <-]. apply any_cell_true. exact El.
      + exists pre, [last]. repeat split; auto; try (cbn; lia).
        * rewrite <- E, Erows. reflexivity.
        * intros x Hx. apply in_app_or in Hx as [Hx|[<-|[]]]; [apply He; exact Hx|apply any_cell_spec; exact El].
        * intros Hpre x rest C. injection C as <- _. apply Hp. exact Hpre.
        * intros C. discriminate C. }
  destruct (any_cell first) eqn:Ef.
  - apply G. exists []. repeat split; [cbn; lia|intros ? []|intros _; apply any_cell_true; exact Ef].
  - apply G. exists [first]. repeat split; [cbn; lia|intros x [<-|[]]; apply any_cell_spec; exact Ef|discriminate].
Qed.

Lemma strip_idem : forall s, strip (strip s) = strip s.
Proof.
  intros s. unfold strip. destruct (trail_split (lstrip s)) as (ws & E & Hw).
  destruct (rstrip (lstrip s)) as [|x r] eqn:Er; [reflexivity|].
  assert (isspace x = false). { destruct (lstrip s) as [|y l] eqn:El; [destruct (lstrip s); discriminate|]. cbn in E. injection E as <- _. eapply lstrip_head. exact El. }
  rewrite lstrip_id by assumption. rewrite <- Er. apply rstrip_idem.
Qed.
Lemma mmap_forall2 : forall A B (f : A -> res B) l l', Forall2 (fun x y => f x = Ok y) l l' -> mmap f l = Ok l'.
Proof. induction 1 as [|x y l l' H _ IH]; [reflexivity|]. cbn [mmap]. rewrite H, IH. reflexivity. Qed.

Theorem parse_tabular_grid : forall parser text rows, table_rows parser text rows ->
  exists out, parse_tabular parser text = Ok out /\ without_empty_ends rows out.
Proof.
  intros parser text rows (raw & P & F). exists (trim_rows rows). split; [|apply trim_spec].
  unfold parse_tabular, split_rows.
  destruct (split_pieces [c_bs; c_bs] (or_intror eq_refl) text) as (raw' & P' & _ & E). rewrite E.
  rewrite (pieces_fun [c_bs; c_bs] (or_intror eq_refl) text raw' raw P' P). clear P P' E raw'.
  assert (Ef : filter (fun p => negb (nilb p)) (map strip raw) = filter (fun p => negb (str_eqb p [])) (map strip raw)).
  { apply filter_ext. intros [|? ?]; reflexivity. }
  rewrite Ef. clear Ef.
  assert (Hs : forall p, In p (filter (fun p => negb (str_eqb p [])) (map strip raw)) -> strip p = p /\ p <> []).
  { intros p Hp. apply filter_In in Hp as [Hp N]. apply in_map_iff in Hp as (q & <- & _). split; [apply strip_idem|]. intros C. rewrite C in N. discriminate. }
  revert Hs F. generalize (filter (fun p => negb (str_eqb p [])) (map strip raw)). intros l Hs F.
  replace (parse_rows parser l) with (@Ok (list (list val)) rows); [reflexivity|]. symmetry.
  induction F as [|row cells l rows (cs & P & Fc) F IH]; [reflexivity|]. cbn [parse_rows].
  destruct (Hs row (or_introl eq_refl)) as [-> Hne]. destruct row as [|x row]; [congruence|].
  unfold split_cells. destruct (split_pieces [c_amp] (or_introl eq_refl) (x :: row)) as (cs' & P' & E & _). rewrite E.
  rewrite (pieces_fun [c_amp] (or_introl eq_refl) _ cs' cs P' P).
  assert (Em : mmap (parse_cell parser) (map unwrap_cell (map strip cs)) = Ok cells).
  { apply mmap_forall2. clear -Fc. induction Fc as [|c v cs' cells' H _ IH]; constructor; [apply parse_cell_value; exact H|exact IH]. }
  rewrite Em. cbn [bind]. rewrite IH by (intros p Hp; apply Hs; right; exact Hp). cbn [bind].
  destruct cells; [|reflexivity]. exfalso. inversion Fc as [E2|]. destruct cs; [|discriminate E2]. destruct P as (C & _). congruence.
Qed.
