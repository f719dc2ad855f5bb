(** C106: the whole preamble. *)
From Coq Require Import List NArith ZArith PeanoNat Lia Bool String.
From Verif Require CommandModel CommandProofs PreModel StyleModel LegacyProofs5 BibParserProofs FormatProofs2 DefProofs12 DefProofs13 DefProofs11.
From Verif Require Import PyStr Regex RegexLemmas RegexHead RegexAbs DelimSpec DelimFinal TexUtilsModel CommandSpec DefModel DefSpec DefProofs DefProofs2 DefProofs3 DefProofs7 PreambleModel PreambleSpec PreambleProofs PreambleProofs2.
Import ListNotations. Notation length := List.length. Notation concat := List.concat. Open Scope list_scope.
Lemma delim_iff : forall t i, (exists j, rel DELIM t i j) <-> begins_command (skipn i t).
Proof.
  intros t i. unfold DELIM. cbn [rseq]. split.
  - intros (j & R). apply rel_rseq2 in R as (k & R1 & R2). apply rel_rstr in R1 as (-> & r & E). apply BibParserProofs.rel_plus_chr in R2 as (s & q & E2 & N & B & _). rewrite (skipn_more _ _ _ _ E) in E2. destruct s as [|x s]; [congruence|]. cbn in B. apply andb_true_iff in B as (B & _). apply orb_true_iff in B.
    exists x, (s ++ q). rewrite E, E2. split; [reflexivity|]. destruct B as [B|B]; [left; apply letter_ok; exact B|right; apply N.eqb_eq; exact B].
  - intros (x & r & E & H). eexists. apply rel_rseq2. exists (i + 1). split; [apply rel_rstr; split; [reflexivity|exists (x :: r); exact E]|]. apply BibParserProofs.rel_plus_chr. exists [x], r. split; [exact (skipn_more t i [c_bs] (x :: r) E)|]. split; [discriminate|]. split; [|reflexivity].
    cbn. rewrite andb_true_r. apply orb_true_iff. destruct H as [H| ->]; [left; apply letter_ok; exact H|right; reflexivity].
Qed.
Lemma In_skipn : forall (A : Type) (l : list A) k x, In x (skipn k l) -> In x l.
Proof. intros A l k x H. rewrite <- (firstn_skipn k l). apply in_or_app. right. exact H. Qed.
Section Any.
Variables u ualpha ualnum : ch -> bool.
Local Notation handle := (handle u ualpha ualnum).
Local Notation kept := (kept u ualpha ualnum).
Local Notation reads := (reads u ualpha ualnum).
Local Notation loop := (preamble_loop u ualpha ualnum).
Lemma reads_pass : forall k rest ps, k <= length rest -> (forall i, i < k -> ~ begins_command (skipn i rest)) -> reads (skipn k rest) ps -> reads rest ps.
Proof.
  induction k as [|k IH]; intros rest ps L H R; [exact R|]. destruct rest as [|x rest]; [cbn in L; lia|]. apply rd_pass.
  - intros p (B & _). exact (H 0 ltac:(lia) B).
  - apply IH; [cbn in L; lia|intros i Hi; exact (H (S i) ltac:(lia))|exact R].
Qed.
Lemma lines_cons : forall p ps out, (out ++ line p) ++ lines ps = out ++ lines (p :: ps).
Proof. intros p ps out. unfold lines, line. cbn [map concat]. rewrite <- !app_assoc. reflexivity. Qed.
Lemma loop_ok : forall fuel rest out, length rest < fuel ->
  loop fuel rest out <> Spin /\ (forall o, loop fuel rest out = Ok o -> exists ps, reads rest ps /\ o = out ++ lines ps) /\ (loop fuel rest out = Raise -> In c_hash rest).
Proof.
  induction fuel as [|fu IH]; intros rest out L; [lia|]. destruct rest as [|x r].
  { cbn [preamble_loop]. split; [discriminate|]. split; [|discriminate]. intros o E. injection E as <-. exists []. split; [apply rd_end|]. symmetry. apply app_nil_r. }
  rewrite loop_step. cbn [List.length] in L. destruct (re_search DELIM (x :: r)) as [d|] eqn:D.
  - unfold re_search in D. apply re_search_some in D as (_ & Ld & R & _ & A). cbn [List.length] in Ld. assert (B : begins_command (skipn (m_start d) (x :: r))) by (apply delim_iff; exists (m_end d); exact R).
    assert (Nb : forall i, i < m_start d -> ~ begins_command (skipn i (x :: r))) by (intros i Hi Hb; apply delim_iff in Hb as (j & Hj); exact (A i j ltac:(lia) Hj)).
    destruct (Nat.ltb_spec 0 (m_start d)) as [Hd|Hd].
    + assert (Ls : length (skipn (m_start d) (x :: r)) < fu) by (rewrite skipn_length; cbn [List.length]; lia). destruct (IH _ out Ls) as (I1 & I2 & I3). split; [exact I1|]. split.
      * intros o E. destruct (I2 o E) as (ps & Hr & Ho). exists ps. split; [|exact Ho]. apply (reads_pass (m_start d)); [cbn [List.length]; lia|exact Nb|exact Hr].
      * intros E. apply I3 in E. apply (In_skipn _ _ _ _ E).
    + assert (Hz : m_start d = 0) by lia. rewrite Hz in B. change (skipn 0 (x :: r)) with (x :: r) in B.
      destruct (decide u ualpha ualnum (x :: r)) as [n| |] eqn:De.
      * destruct n as [|n].
        { destruct (IH r out ltac:(lia)) as (I1 & I2 & I3). split; [exact I1|]. split; [|intros E; right; apply I3; exact E].
          intros o E. destruct (I2 o E) as (ps & Hr & Ho). exists ps. split; [|exact Ho]. apply rd_pass; [|exact Hr]. intros p K. pose proof K as (_ & (q & Eq) & Np & _). assert (F : decide u ualpha ualnum (x :: r) = Ok (length p)) by (apply decide_kept; [exact B|destruct p; [congruence|discriminate]|exists p, q; auto]). destruct p; [congruence|]. rewrite F in De. discriminate. }
        pose proof De as De2. apply decide_kept in De as (p & q & Eq & Lp & K); [|exact B|discriminate].
        assert (Lq : length q < fu) by (assert (Hl : length (x :: r) = length p + length q) by (rewrite Eq, app_length; reflexivity); cbn [List.length] in Hl; lia).
        assert (Es : skipn (S n) (x :: r) = q) by (rewrite Eq; apply skipn_app_exact; symmetry; exact Lp). assert (Ef : firstn (S n) (x :: r) = p) by (rewrite Eq; apply firstn_app_exact; symmetry; exact Lp). rewrite Es, Ef.
        destruct (IH q (out ++ line p) Lq) as (I1 & I2 & I3). split; [exact I1|]. split.
        { intros o E. destruct (I2 o E) as (ps & Hr & Ho). exists (p :: ps). split; [rewrite Eq in K |- *; apply rd_keep; assumption|]. rewrite Ho. apply lines_cons. }
        { intros E. rewrite Eq. apply in_or_app. right. apply I3. exact E. }
      * split; [discriminate|]. split; [discriminate|]. intros _. unfold decide in De. destruct (re_match_at USE (x :: r) 0); [discriminate|]. destruct (at_block u (x :: r)); [discriminate|]. destruct (can_handle u (x :: r)); [|discriminate]. destruct (handle (x :: r)) as [(t, e)| |] eqn:Hh; try discriminate. exact (handle_raise _ _ _ _ Hh).
      * exfalso. unfold decide in De. destruct (re_match_at USE (x :: r) 0); [discriminate|]. destruct (at_block u (x :: r)); [discriminate|]. destruct (can_handle u (x :: r)); [|discriminate]. destruct (handle (x :: r)) as [(t, e)| |] eqn:Hh; try discriminate. exact (proj1 (handle_ok _ _ _ _) Hh).
  - split; [discriminate|]. split; [|discriminate]. intros o E. injection E as <-. exists []. split; [|symmetry; apply app_nil_r]. apply (reads_pass (length (x :: r))); [lia| |rewrite skipn_all; apply rd_end].
    intros i Hi Hb. apply delim_iff in Hb as (j & Hj). unfold re_search in D. exact (proj1 (re_search_none _ _ _) D i j ltac:(lia) Hj).
Qed.
(** * A preamble as it is written *)
Lemma loop_keep : forall fu p r out, kept (p ++ r) p -> loop (S fu) (p ++ r) out = loop fu r (out ++ line p).
Proof.
  intros fu p r out K. pose proof K as (B & _ & N & _). destruct (p ++ r) as [|x q] eqn:E; [destruct p; [congruence|discriminate]|]. rewrite loop_step.
  assert (D : re_search DELIM (x :: q) <> None /\ forall d, re_search DELIM (x :: q) = Some d -> m_start d = 0).
  { assert (Hb : exists j, rel DELIM (x :: q) 0 j) by (apply delim_iff; exact B). destruct Hb as (j & Hj). split.
    - intros F. unfold re_search in F. exact (proj1 (re_search_none _ _ _) F 0 j ltac:(lia) Hj).
    - intros d F. unfold re_search in F. apply re_search_some in F as (_ & _ & _ & _ & A). destruct (m_start d) as [|k]; [reflexivity|exfalso]. exact (A 0 j ltac:(lia) Hj). }
  destruct D as (D1 & D2). destruct (re_search DELIM (x :: q)) as [d|]; [|congruence]. rewrite (D2 d eq_refl). cbn [Nat.ltb Nat.leb].
  assert (De : decide u ualpha ualnum (x :: q) = Ok (length p)) by (apply decide_kept; [exact B|destruct p; [congruence|discriminate]|exists p, r; auto]). rewrite De.
  destruct (length p) as [|n] eqn:Ln; [destruct p; [congruence|discriminate]|]. rewrite <- E, skipn_app_exact by (symmetry; exact Ln). rewrite firstn_app_exact by (symmetry; exact Ln). reflexivity.
Qed.
Lemma no_begin : forall gap t i, ~ In c_bs gap -> i < length gap -> ~ begins_command (skipn i (gap ++ t)).
Proof.
  intros gap t i N L (x & r & E & _). apply N. rewrite skipn_app in E. replace (i - length gap) with 0 in E by lia. change (skipn 0 t) with t in E. destruct (skipn i gap) as [|y s] eqn:Es.
  - exfalso. assert (F : length (skipn i gap) = 0) by (rewrite Es; reflexivity). rewrite skipn_length in F. lia.
  - cbn in E. injection E as -> _. apply (In_skipn _ _ i). rewrite Es. left. reflexivity.
Qed.
Lemma loop_gap : forall fu gap t out, ~ In c_bs gap -> gap <> [] -> begins_command t -> loop (S fu) (gap ++ t) out = loop fu t out.
Proof.
  intros fu gap t out N Ne B. assert (Lg : 0 < length gap) by (destruct gap; [congruence|cbn; lia]). assert (Nb := fun i => no_begin gap t i N). destruct (gap ++ t) as [|x q] eqn:E; [destruct gap; [congruence|discriminate]|]. rewrite loop_step.
  assert (Sk : skipn (length gap) (x :: q) = t) by (rewrite <- E; apply skipn_app_exact; reflexivity). assert (Hb : exists j, rel DELIM (x :: q) (length gap) j) by (apply delim_iff; rewrite Sk; exact B). destruct Hb as (j & Hj).
  assert (Ll : length gap <= length (x :: q)) by (rewrite <- E, app_length; lia).
  destruct (re_search DELIM (x :: q)) as [d|] eqn:F.
  - unfold re_search in F. apply re_search_some in F as (_ & _ & R & _ & A). assert (Hd : m_start d = length gap).
    { destruct (Nat.lt_trichotomy (m_start d) (length gap)) as [H|[H|H]]; [exfalso|exact H|exfalso; exact (A _ _ (conj (Nat.le_0_l _) H) Hj)]. apply (Nb _ H). apply delim_iff. exists (m_end d). exact R. }
    rewrite Hd, Sk. destruct (Nat.ltb_spec 0 (length gap)); [reflexivity|lia].
  - exfalso. unfold re_search in F. exact (proj1 (re_search_none _ _ _) F _ j (conj (Nat.le_0_l _) Ll) Hj).
Qed.
Lemma loop_tail : forall fu tail out, ~ In c_bs tail -> loop (S fu) tail out = Ok out.
Proof.
  intros fu tail out N. destruct tail as [|x q]; [reflexivity|]. rewrite loop_step. destruct (re_search DELIM (x :: q)) as [d|] eqn:F; [exfalso|reflexivity]. unfold re_search in F. apply re_search_some in F as (_ & L & R & _ & _).
  assert (B : begins_command (skipn (m_start d) (x :: q))) by (apply delim_iff; exists (m_end d); exact R). destruct B as (y & r & E & _). apply N. apply (In_skipn _ _ (m_start d)). rewrite E. left. reflexivity.
Qed.
Ltac begin := eexists; eexists; split; [reflexivity|left; apply letter_ok; reflexivity].
Ltac pick I := cbn [In map] in I; repeat (destruct I as [<-|I]; [begin|]); destruct I.
Lemma item_begins : forall s follow r, item s follow -> begins_command (s ++ r).
Proof.
  intros s follow r H. destruct H as [s U|s tok follow D|s S|d W|keyword gap name gap2 k body I|gap name eq old].
  - destruct U as [wd g1 o g2 names [| |s L] _ _ _ _ _]; begin.
  - destruct D; try begin.
    all: match goal with I : In _ _ |- _ => try (unfold counter_words, length_words, setlength_words, register_words in I; pick I) end.
  - destruct S as [w0 g n I|w0 g n g1 b I]; pick I.
  - destruct W as (I & _). unfold macro_text, macro_head. unfold keywords in I. pick I.
  - unfold def_words in I. pick I.
  - begin.
Qed.
Lemma item_kept : forall s follow r, item s follow -> follow r -> kept (s ++ r) s.
Proof.
  intros s follow r H F. pose proof (item_begins s follow r H) as B.
  assert (Ne : s <> []).
  { intros ->. pose proof (item_begins [] follow [] H) as (x & q & E & _). discriminate. }
  split; [exact B|]. split; [exists r; reflexivity|]. split; [exact Ne|]. destruct H as [s U|s tok follow D|s S|d W|keyword gap name gap2 k body I B1 B2 P G|gap name eq old B1 P W].
  - left. exact U.
  - right. right. exists (Some tok). apply (declares_ok _ _ _ _ _ _ _ D F).
  - right. right. exists None. apply skipped_ok. exact S.
  - right. right. eexists. apply DefProofs12.newcommand_ok. exact W.
  - right. right. eexists. apply DefProofs11.plain_ok; assumption.
  - right. right. eexists. apply DefProofs13.let_ok; assumption.
Qed.
Lemma loop_written : forall body items, written body items -> forall fuel out, length body < fuel -> loop fuel body out = Ok (out ++ lines items).
Proof.
  intros body items H. induction H as [tail N|gap source follow rest items N I F H IH]; intros fuel out L.
  - destruct fuel as [|fu]; [lia|]. rewrite (loop_tail _ _ _ N). symmetry. f_equal. apply app_nil_r.
  - pose proof (item_kept _ _ _ I F) as K. pose proof K as (B & _ & Ne & _). assert (Ls : 0 < length source) by (destruct source; [congruence|cbn; lia]). rewrite !app_length in L.
    destruct fuel as [|fu]; [lia|]. destruct gap as [|g gap].
    + cbn [List.app]. rewrite (loop_keep _ _ _ _ K), IH by (cbn in L; lia). f_equal. apply lines_cons.
    + rewrite (loop_gap fu (g :: gap) (source ++ rest) out N ltac:(discriminate) B). cbn [List.length] in L. destruct fu as [|fu]; [lia|]. rewrite (loop_keep _ _ _ _ K), IH by lia. f_equal. apply lines_cons.
Qed.
End Any.
