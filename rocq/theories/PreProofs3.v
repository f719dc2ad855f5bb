From Coq Require Import List NArith PeanoNat Lia Bool String Permutation.
From Verif Require Import PyStr Regex RegexLemmas RegexLocal RegexHead Json TexUtilsModel DelimSpec DelimFinal TextModel TextSpec TextProofs TextProofs3 TableCases Placeholder PlaceModel PlaceProofs
  EqProofs PreModel PreSpec PreProofs PreProofs2.
Import ListNotations. Notation length := List.length. Notation concat := List.concat. Open Scope list_scope.

(** * Quotation marks *)
Lemma pair_prefix : forall (v w : str) k, k < length v -> ~ occurs [c_quote; c_quote] (v ++ [c_quote]) -> startswith (skipn k (v ++ [c_quote; c_quote] ++ w)) [c_quote; c_quote] = false.
Proof.
  intros v w k Hk N. destruct (startswith _ _) eqn:E; [|reflexivity]. exfalso. apply N. apply startswith_spec in E as (r & E).
  rewrite skipn_app in E. replace (k - length v) with 0 in E by lia. cbn [skipn] in E.
  assert (L : length (skipn k v) = length v - k) by apply skipn_length.
  destruct (skipn k v) as [|x [|y s]] eqn:S; cbn [length] in L; [lia| |].
  - cbn [app] in E. injection E as -> _. exists (firstn k v), []. rewrite <- (firstn_skipn k v) at 1. rewrite S, app_nil_r, <- app_assoc. reflexivity.
  - cbn [app] in E. injection E as -> -> _. exists (firstn k v), (s ++ [c_quote]). rewrite <- (firstn_skipn k v) at 1. rewrite S, <- !app_assoc. reflexivity.
Qed.
Lemma rm_pair_none : forall t i c, startswith (skipn i t) [c_quote; c_quote] = false -> rm (rstr [c_quote; c_quote]) t i c = [].
Proof. intros t i c H. rewrite rm_rstr, H. reflexivity. Qed.
Lemma double_pass : forall x r, ~ occurs [c_quote; c_quote] (x ++ [c_quote]) ->
  quote_pass DOUBLE_QUOTES c_dquote ([c_tick; c_tick] ++ x ++ [c_quote; c_quote] ++ r) = [c_dquote] ++ x ++ [c_dquote] ++ r.
Proof.
  intros x r N. set (t := [c_tick; c_tick] ++ x ++ [c_quote; c_quote] ++ r).
  assert (F : first_match DOUBLE_QUOTES t 0 [] (2 + length x + 2) [(1, (2, 2 + length x))]).
  { unfold DOUBLE_QUOTES. cbn [rseq]. eapply fm_seq; [apply (fm_rstr [c_tick; c_tick] t 0 [] (x ++ [c_quote; c_quote] ++ r)); reflexivity|]. cbn [plus length].
    eapply (fm_lazy_first 1 _ _ x t 2 [] _ _ ([c_quote; c_quote] ++ r)); [reflexivity|apply forallb_forall; reflexivity| |].
    - intros k c' Hk. apply rm_pair_none. change (skipn (2 + k) t) with (skipn k (x ++ [c_quote; c_quote] ++ r)). apply pair_prefix; assumption.
    - apply (fm_rstr [c_quote; c_quote] t (2 + length x) _ r). change (skipn (2 + length x) t) with (skipn (length x) (x ++ [c_quote; c_quote] ++ r)). apply skipn_app_exact; reflexivity. }
  apply fm_match in F. unfold quote_pass. rewrite F. unfold m_group. cbn [m_caps m_end cap_get Nat.eqb option_map].
  assert (G : slice 2 (2 + length x) t = x) by (unfold slice, t; cbn [skipn app]; replace (2 + length x - 2) with (length x) by lia; apply firstn_app_exact; reflexivity).
  assert (K : skipn (2 + length x + 2) t = r).
  { unfold t. replace (2 + length x + 2) with (2 + (length x + 2)) by lia. cbn [skipn plus app]. rewrite skipn_app, skipn_all2 by lia. replace (length x + 2 - length x) with 2 by lia. reflexivity. }
  rewrite G, K. reflexivity.
Qed.
Lemma single_pass : forall x r, ~ In c_quote x -> quote_pass SINGLE_QUOTES c_quote ([c_tick] ++ x ++ [c_quote] ++ r) = [c_quote] ++ x ++ [c_quote] ++ r.
Proof.
  intros x r N. set (t := [c_tick] ++ x ++ [c_quote] ++ r).
  assert (F : first_match SINGLE_QUOTES t 0 [] (1 + length x + 1) [(1, (1, 1 + length x))]).
  { unfold SINGLE_QUOTES. cbn [rseq]. eapply fm_seq; [apply (fm_is_ch c_tick t 0 [] (x ++ [c_quote] ++ r)); reflexivity|].
    eapply (fm_lazy_first 1 _ _ x t 1 [] _ _ ([c_quote] ++ r)); [reflexivity|apply forallb_forall; reflexivity| |].
    - intros k c' Hk. apply rm_chr_none. change (skipn (1 + k) t) with (skipn k (x ++ [c_quote] ++ r)). rewrite skipn_app. replace (k - length x) with 0 by lia.
      destruct (skipn k x) as [|y s] eqn:S; [apply (f_equal (@List.length _)) in S; rewrite skipn_length in S; cbn in S; lia|]. cbn [app].
      destruct (N.eqb c_quote y) eqn:E; [|reflexivity]. apply N.eqb_eq in E. subst y. exfalso. apply N. rewrite <- (firstn_skipn k x), S. apply in_or_app. right. left. reflexivity.
    - replace (1 + length x + 1) with (S (1 + length x)) by lia. apply (fm_is_ch c_quote t (1 + length x) _ r). change (skipn (1 + length x) t) with (skipn (length x) (x ++ [c_quote] ++ r)). apply skipn_app_exact; reflexivity. }
  apply fm_match in F. unfold quote_pass. rewrite F. unfold m_group. cbn [m_caps m_end cap_get Nat.eqb option_map].
  assert (G : slice 1 (1 + length x) t = x) by (unfold slice, t; cbn [skipn app]; replace (1 + length x - 1) with (length x) by lia; apply firstn_app_exact; reflexivity).
  assert (K : skipn (1 + length x + 1) t = r).
  { unfold t. replace (1 + length x + 1) with (1 + (length x + 1)) by lia. cbn [skipn plus app]. rewrite skipn_app, skipn_all2 by lia. replace (length x + 1 - length x) with 1 by lia. reflexivity. }
  rewrite G, K. reflexivity.
Qed.
Lemma pass_none : forall r m t, (forall j, ~ rel r t 0 j) -> quote_pass r m t = t.
Proof. intros r m t H. unfold quote_pass. replace (re_match_at r t 0) with (@None mobj); [reflexivity|]. symmetry. apply re_match_at_none; [lia|exact H]. Qed.
Lemma double_rel : forall t j, rel DOUBLE_QUOTES t 0 j -> exists y, t = [c_tick; c_tick] ++ y /\ occurs [c_quote; c_quote] y.
Proof.
  intros t j H. unfold DOUBLE_QUOTES in H. cbn [rseq] in H. apply rel_rseq2 in H as (k & H1 & H). apply rel_rstr in H1 as (-> & y & E1). apply rel_rseq2 in H as (k & H2 & H3).
  cbn [length plus skipn] in *. subst t. apply rel_bounds in H2; [|cbn; lia]. apply rel_rstr in H3 as (_ & z & E3). exists y. split; [reflexivity|].
  apply startswith_occurs with (n := k - 2). replace (skipn (k - 2) y) with (skipn k ([c_tick; c_tick] ++ y)); [rewrite E3; apply startswith_app|]. replace k with (2 + (k - 2)) at 1 by lia. reflexivity.
Qed.
Lemma single_rel : forall t j, rel SINGLE_QUOTES t 0 j -> exists y, t = [c_tick] ++ y /\ In c_quote y.
Proof.
  intros t j H. unfold SINGLE_QUOTES in H. cbn [rseq] in H. apply rel_rseq2 in H as (k & H1 & H). apply rel_is_ch in H1 as (-> & y & E1). apply rel_rseq2 in H as (k & H2 & H3).
  cbn [skipn] in E1. subst t. apply rel_bounds in H2; [|cbn; lia]. apply rel_is_ch in H3 as (_ & z & E3). exists y. split; [reflexivity|].
  replace (skipn k (c_tick :: y)) with (skipn (k - 1) y) in E3 by (replace k with (S (k - 1)) at 2 by lia; reflexivity). rewrite <- (firstn_skipn (k - 1) y), E3. apply in_or_app. right. left. reflexivity.
Qed.
Lemma quotes_exact : forall t o, quotes_converted t o -> convert_quotes t = o.
Proof.
  intros t o H. unfold convert_quotes. destruct H as [x r N|x r N D|t N].
  - rewrite double_pass by exact N. apply pass_none. intros j H. apply single_rel in H as (y & E & _). discriminate E.
  - rewrite (pass_none DOUBLE_QUOTES).
    + apply single_pass. exact N.
    + intros j H. apply double_rel in H as (y & E & O). change ([c_tick] ++ x ++ [c_quote] ++ r) with (c_tick :: x ++ [c_quote] ++ r) in E. cbn [app] in E. injection E as E. apply (D y); [exact E|exact O].
  - rewrite (pass_none DOUBLE_QUOTES), (pass_none SINGLE_QUOTES); [reflexivity| |].
    + intros j H. apply single_rel in H as (y & E & I). exact (N y E I).
    + intros j H. apply double_rel in H as (y & E & (p & q & O)). apply (N (c_tick :: y)); [exact E|]. right. rewrite O. apply in_or_app. right. left. reflexivity.
Qed.
Lemma first_pair : forall y, occurs [c_quote; c_quote] y -> exists x r, y = x ++ [c_quote; c_quote] ++ r /\ ~ occurs [c_quote; c_quote] (x ++ [c_quote]).
Proof.
  intros y (p & q & E). revert q y E. induction p as [p IH] using (well_founded_induction (Wf_nat.well_founded_ltof _ (@List.length ch))). intros q y E.
  destruct (contains [c_quote; c_quote] (p ++ [c_quote])) eqn:C.
  - apply occurs_dec in C as (p' & q' & E'). apply (IH p') with (q := q' ++ [c_quote] ++ q); [unfold Wf_nat.ltof; apply (f_equal (@List.length _)) in E'; rewrite !app_length in E'; cbn in E'; lia|].
    rewrite E. change ([c_quote; c_quote] ++ q) with ([c_quote] ++ [c_quote] ++ q). rewrite app_assoc, E', <- !app_assoc. reflexivity.
  - exists p, q. split; [exact E|]. apply not_occurs. exact C.
Qed.
Lemma first_in : forall (a : ch) y, In a y -> exists x r, y = x ++ [a] ++ r /\ ~ In a x.
Proof.
  induction y as [|b y IH]; intros H; [destruct H|]. destruct (N.eq_dec b a) as [->|Ne]; [exists [], y; split; [reflexivity|intros []]|].
  destruct H as [H|H]; [congruence|]. destruct (IH H) as (x & r & -> & N). exists (b :: x), r. split; [reflexivity|]. intros [C|C]; [congruence|contradiction].
Qed.
Lemma quotes_total : forall t, exists o, quotes_converted t o.
Proof.
  intros t. destruct t as [|b t]; [exists []; apply qc_none; discriminate|]. destruct (N.eq_dec b c_tick) as [->|Ne].
  2:{ eexists. apply qc_none. intros y E. cbn in E. congruence. }
  destruct (in_dec N.eq_dec c_quote t) as [I|I].
  2:{ eexists. apply qc_none. intros y E. cbn in E. injection E as <-. exact I. }
  assert (Dec : (exists y, t = [c_tick] ++ y /\ occurs [c_quote; c_quote] y) \/ (forall y, t = [c_tick] ++ y -> ~ occurs [c_quote; c_quote] y)).
  { destruct t as [|b t]; [right; discriminate|]. destruct (N.eq_dec b c_tick) as [->|Ne]; [|right; intros y E; cbn in E; congruence].
    destruct (contains [c_quote; c_quote] t) eqn:C; [left; exists t; split; [reflexivity|apply occurs_dec; exact C]|right]. intros y E. cbn in E. injection E as <-. apply not_occurs. exact C. }
  destruct Dec as [(y & -> & O)|D].
  - apply first_pair in O as (x & r & -> & N). eexists. exact (qc_double x r N).
  - apply first_in in I as (x & r & -> & N). eexists. apply (qc_single x r N D).
Qed.
Lemma quotes_marks : forall t, filter (fun x => negb (quote_char x)) (convert_quotes t) = filter (fun x => negb (quote_char x)) t.
Proof.
  intros t. destruct (quotes_total t) as (o & Q). rewrite (quotes_exact t o Q). destruct Q as [x r N|x r N D|t N]; [| |reflexivity]; rewrite !filter_app; reflexivity.
Qed.

(** * Documents where only formulas are found *)
Section Quiet.
Variable St : Type.
Variable math : str -> nat.
Variable define : St -> str -> res (definition St).
Variable usepackage : St -> str -> res (St * nat).
Variable format : str -> option (str * nat).
Variable expand if_else : St -> str -> res (option (str * nat)).
Notation round := (round St math define usepackage format expand if_else).
Notation pre_loop := (pre_loop St math define usepackage format expand if_else).
Notation rewritten := (rewritten St round).
Variable s : St.
Definition quiet_at (t : str) : Prop :=
  define s t = Ok DNone /\ usepackage s t = Ok (s, 0) /\ handled (format t) = None /\
  (exists x, expand s t = Ok x /\ handled x = None) /\ (exists x, if_else s t = Ok x /\ handled x = None).
Definition quiet (content : str) : Prop := forall a t, content = a ++ t -> quiet_at t.

Lemma addto_none : forall t, ~ occurs (lit "\addto") t -> re_match_at ADD_TO t 0 = None.
Proof.
  intros t H. apply re_match_at_none; [lia|]. intros j R. apply H. unfold ADD_TO in R. cbn [rseq] in R. apply rel_rseq2 in R as (k & R & _). apply rel_rstr in R as (_ & r & R).
  exists [], r. exact R.
Qed.
Lemma quiet_dispatch : forall t, quiet_at t -> dispatch_rest St define usepackage format expand if_else s t = Ok (Move s t 1).
Proof.
  intros t (H1 & H2 & H3 & (x & H4 & H4') & (y & H5 & H5')). unfold dispatch_rest. rewrite H1. cbn [bind]. rewrite H2. cbn [bind Nat.ltb Nat.leb]. rewrite H3, H4. cbn [bind]. rewrite H4', H5. cbn [bind]. rewrite H5'. reflexivity.
Qed.
Lemma no_tick : forall t, ~ In c_tick t -> convert_quotes t = t.
Proof. intros t H. apply quotes_exact, qc_none. intros y E. exfalso. apply H. rewrite E. left. reflexivity. Qed.
Lemma quiet_rewritten : forall content, quiet content -> ~ In c_tick content -> ~ occurs (lit "\addto") content -> forall n a t, length t <= n -> content = a ++ t -> rewritten s t s t.
Proof.
  intros content Q T A. induction n as [|n IH]; intros a t L E.
  - destruct t; [constructor|cbn in L; lia].
  - destruct t as [|x t]; [constructor|]. pose (r := (x :: t) : str). assert (Er : r = x :: t) by reflexivity. clearbody r. cut (rewritten s r s r); [rewrite Er; exact (fun z => z)|].
    assert (Ne : r <> []) by (rewrite Er; discriminate). assert (Lr : length r <= S n) by (rewrite Er; exact L). assert (E' : content = a ++ r) by (rewrite Er; exact E). clear Er L E x t.
    assert (Sub : forall k, 0 < k -> rewritten s (skipn k r) s (skipn k r)).
    { intros k Hk. apply (IH (a ++ firstn k r)); [rewrite skipn_length; destruct r; [congruence|cbn [length] in *; lia]|]. rewrite <- app_assoc, firstn_skipn. exact E'. }
    assert (Mv : forall k, 0 < k -> round s r = Ok (Move s r k) -> rewritten s r s r).
    { intros k Hk R. rewrite <- (firstn_skipn k r) at 2. eapply rw_move; [exact Ne|exact R|]. apply Sub. exact Hk. }
    assert (An : re_match_at ADD_TO r 0 = None) by (apply addto_none; intros C; apply A; rewrite E'; apply occurs_app_r; exact C).
    assert (Tn : convert_quotes r = r) by (apply no_tick; intros C; apply T; rewrite E'; apply in_or_app; right; exact C).
    pose proof (quiet_dispatch r (Q a r E')) as Qd.
    assert (R : round s r = match re_search DELIM_QUOTES r with
       | Some m => if Nat.ltb 0 (m_start m) then Ok (Move s r (m_start m)) else if Nat.ltb 0 (math r) then Ok (Math (math r)) else Ok (Move s r 1)
       | None => Ok Finish end).
    { unfold PreModel.round. destruct (re_search DELIM_QUOTES r) as [m|]; [destruct (Nat.ltb 0 (m_start m)); [reflexivity|]; rewrite An, Tn, Qd; reflexivity|].
      replace (Nat.ltb 0 (length r)) with true; [reflexivity|]. symmetry. apply Nat.ltb_lt. destruct r; [congruence|cbn; lia]. }
    destruct (re_search DELIM_QUOTES r) as [m|]; [|apply rw_finish; assumption]. destruct (Nat.ltb 0 (m_start m)) eqn:Z; [apply Nat.ltb_lt in Z; exact (Mv _ Z R)|].
    destruct (Nat.ltb 0 (math r)) eqn:M; [|apply (Mv 1); [lia|exact R]]. apply Nat.ltb_lt in M.
    destruct (plain_after_total (skipn (math r) r)) as (k & P).
    assert (W : rewritten s r s (firstn (math r) r ++ firstn k (skipn (math r) r) ++ skipn k (skipn (math r) r))).
    { eapply rw_math; [exact Ne|exact R|exact P|]. rewrite skipn_add. apply Sub. lia. }
    rewrite !firstn_skipn in W. exact W.
Qed.
End Quiet.
