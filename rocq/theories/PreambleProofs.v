(** C106: \use… lines and \makeatletter blocks. *)
From Coq Require Import List NArith ZArith PeanoNat Lia Bool String.
From Verif Require CommandModel CommandProofs PreModel StyleModel LegacyProofs5 BibParserProofs.
From Verif Require Import PyStr Regex RegexLemmas RegexHead RegexAbs DelimSpec DelimFinal TexUtilsModel CommandSpec DefModel DefSpec DefProofs3 PreambleModel PreambleSpec.
Import ListNotations. Notation length := List.length. Notation concat := List.concat. Open Scope list_scope.
Lemma letter_ok : forall x, StyleModel.is_letter x = true <-> is_letter x.
Proof. intros x. unfold StyleModel.is_letter, is_letter. rewrite orb_true_iff, !andb_true_iff, !N.leb_le. tauto. Qed.
(** * The matcher takes a \use line *)
Definition use_tail (g1 : str) (o : option str) (g2 names : str) : str := g1 ++ optional o ++ g2 ++ braced names.
Lemma blank_app : forall a b, blank a -> blank b -> blank (a ++ b).
Proof. intros a b A B. unfold blank in *. rewrite forallb_app, A, B. reflexivity. Qed.
Lemma not_space : forall (x : ch) (s : str) (r : str), s = x :: r -> isspace x = false -> forall y q, s = y :: q -> isspace y = false.
Proof. intros x s r E H y q E2. congruence. Qed.
Lemma brace_fm : forall g t i c names r, skipn i t = braced names ++ r -> names <> [] -> ~ In c_rb names -> exists c', fm (BRACE g) t i c (i + length (braced names)) c'.
Proof.
  intros g t i c names r E N1 N2. eexists. unfold BRACE. cbn [rseq]. unfold braced in E. rewrite <- !app_assoc in E. eapply fm_seq; [apply (fm_rstr (lit "{") _ _ _ _ E)|]. apply skipn_more in E.
  eapply fm_seq; [apply fm_grp; apply (fm_plus _ _ _ _ names ([c_rb] ++ r) E)|].
  - exact N1.
  - apply forallb_forall. intros x I. unfold in_str. cbn [existsb]. destruct (N.eqb_spec x c_rb) as [->|_]; [contradiction|reflexivity].
  - reflexivity.
  - apply skipn_more in E. unfold braced. rewrite !app_length. cbn [List.length]. replace (i + (1 + (length names + 1))) with (i + length (lit "{") + length names + length (lit "}")) by (cbn; lia). exact (fm_rstr (lit "}") _ _ _ _ E).
Qed.
Definition TAIL (g : nat) : re := rseq [sp; OPTIONAL; sp; BRACE g].
Lemma tail_fm : forall g t i c g1 o g2 names r, skipn i t = use_tail g1 o g2 names ++ r -> blank g1 -> blank g2 -> (forall s, o = Some s -> ~ In c_rk s) -> names <> [] -> ~ In c_rb names ->
  exists c', fm (TAIL g) t i c (i + length (use_tail g1 o g2 names)) c'.
Proof.
  intros g t i c g1 o g2 names r E B1 B2 Ho N1 N2. unfold use_tail in E. rewrite <- !app_assoc in E. destruct o as [s|].
  - cbn [optional] in E. unfold bracketed in E. rewrite <- !app_assoc in E.
    pose proof E as E1. apply skipn_more in E1. pose proof (skipn_more _ _ [c_lk] _ E1) as E2. pose proof (skipn_more _ _ _ _ E2) as E3. pose proof (skipn_more _ _ [c_rk] _ E3) as E4. pose proof (skipn_more _ _ _ _ E4) as E5.
    destruct (brace_fm g t _ c names r E5 N1 N2) as (c' & F). exists c'. unfold TAIL. cbn [rseq]. eapply fm_seq; [apply (fm_star isspace _ _ _ g1 _ E B1); reflexivity|].
    eapply fm_seq; [unfold OPTIONAL, ropt; apply fm_alt_left; cbn [rseq]; eapply fm_seq; [apply (fm_rstr (lit "[") _ _ _ _ E1)|]; eapply fm_seq; [apply (fm_star _ _ _ _ s _ E2)|apply (fm_rstr (lit "]") _ _ _ _ E3)]|].
    + apply forallb_forall. intros x I. unfold in_str. cbn [existsb]. destruct (N.eqb_spec x c_rk) as [->|_]; [destruct (Ho s eq_refl I)|reflexivity].
    + reflexivity.
    + eapply fm_seq; [apply (fm_star isspace _ _ _ g2 _ E4 B2); reflexivity|]. replace (i + length (use_tail g1 (Some s) g2 names)) with (i + length g1 + length [c_lk] + length s + length [c_rk] + length g2 + length (braced names)); [exact F|].
      unfold use_tail. cbn [optional]. unfold bracketed. rewrite !app_length. cbn [List.length]. lia.
  - cbn [optional List.app] in E. rewrite app_assoc in E. pose proof E as E1. apply skipn_more in E1.
    destruct (brace_fm g t _ c names r E1 N1 N2) as (c' & F). exists c'. unfold TAIL. cbn [rseq]. eapply fm_seq; [apply (fm_star isspace _ _ _ (g1 ++ g2) _ E (blank_app _ _ B1 B2)); reflexivity|].
    eapply fm_seq; [unfold OPTIONAL, ropt; apply fm_alt_right; [|apply fm_eps]|].
    { cbn [rseq]. apply rm_seq_none. rewrite rm_rstr, E1. reflexivity. }
    eapply fm_seq; [apply (fm_star isspace _ _ _ [] _ E1); reflexivity|]. cbn [List.length]. rewrite Nat.add_0_r. replace (i + length (use_tail g1 None g2 names)) with (i + length (g1 ++ g2) + length (braced names)); [exact F|].
    unfold use_tail. cbn [optional List.app]. rewrite !app_length. lia.
Qed.
Lemma tail_head : forall g1 o g2 names r, blank g1 -> blank g2 -> exists x q, use_tail g1 o g2 names ++ r = x :: q /\ (isspace x = true \/ x = c_lk \/ x = c_lb).
Proof.
  intros [|x g1] o g2 names r B1 B2; unfold use_tail.
  - destruct o as [s|]; cbn [optional List.app]; [exists c_lk; eexists; split; [reflexivity|auto]|]. destruct g2 as [|x g2]; [exists c_lb; eexists; split; [reflexivity|auto]|]. exists x. eexists. split; [reflexivity|]. unfold blank in B2. cbn in B2. apply andb_true_iff in B2. left. apply B2.
  - exists x. eexists. split; [reflexivity|]. unfold blank in B1. cbn in B1. apply andb_true_iff in B1. left. apply B1.
Qed.
Lemma tail_no_letter : forall x, isspace x = true \/ x = c_lk \/ x = c_lb -> StyleModel.is_letter x = false.
Proof.
  intros x H. destruct (StyleModel.is_letter x) eqn:E; [exfalso|reflexivity]. apply letter_ok in E. unfold is_letter in E. destruct H as [H|[->| ->]]; [|unfold c_lk in E; lia|unfold c_lb in E; lia].
  unfold isspace, in_range in H. repeat rewrite ?Bool.orb_true_iff, ?Bool.andb_true_iff, ?N.leb_le, ?N.eqb_eq in H. lia.
Qed.
Lemma not_in_class : forall x s, forallb (fun y => negb (in_str [x] y)) s = true -> ~ In x s.
Proof. intros x s H I. rewrite forallb_forall in H. apply H in I. unfold in_str in I. cbn [existsb] in I. rewrite N.eqb_refl in I. discriminate. Qed.
Lemma tail_rel : forall g t i j, rel (TAIL g) t i j -> exists g1 o g2 names r, skipn i t = use_tail g1 o g2 names ++ r /\ blank g1 /\ blank g2 /\ (forall s, o = Some s -> ~ In c_rk s) /\ names <> [] /\ ~ In c_rb names /\ j = i + length (use_tail g1 o g2 names).
Proof.
  intros g t i j R. unfold TAIL in R. cbn [rseq] in R. apply rel_rseq2 in R as (k1 & R1 & R). apply rel_rseq2 in R as (k2 & R2 & R). apply rel_rseq2 in R as (k3 & R3 & R).
  unfold BRACE in R. cbn [rseq] in R. apply rel_rseq2 in R as (k4 & R4 & R). apply rel_rseq2 in R as (k5 & R5 & R). apply rel_grp1 in R5.
  apply rel_star_chr in R1 as (g1 & r1 & E1 & B1 & ->). apply rel_star_chr in R3 as (g2 & r3 & E3 & B3 & ->). apply rel_rstr in R4 as (-> & r4 & E4). apply BibParserProofs.rel_plus_chr in R5 as (names & r5 & E5 & N5 & B5 & ->). apply rel_rstr in R as (-> & r & E).
  assert (Er : exists o, r1 = optional o ++ g2 ++ braced names ++ r /\ (forall s, o = Some s -> ~ In c_rk s) /\ k2 = i + length g1 + length (optional o)).
  { assert (Ep : forall k, k = k2 -> skipn k t = g2 ++ braced names ++ r).
    { intros k ->. rewrite E3. f_equal. pose proof (skipn_more _ _ _ _ E3) as F. rewrite E4 in F. rewrite <- F. unfold braced. cbn [List.app lit]. change (lit "{" ++ r4) with (c_lb :: r4). f_equal. pose proof (skipn_more _ _ _ _ E4) as F4. rewrite E5 in F4. rewrite <- F4. rewrite <- app_assoc. f_equal. pose proof (skipn_more _ _ _ _ E5) as F5. rewrite E in F5. rewrite <- F5. reflexivity. }
    pose proof (skipn_more _ _ _ _ E1) as F1. unfold OPTIONAL in R2. apply LegacyProofs5.rel_opt in R2 as [R2|R2].
    - cbn [rseq] in R2. apply rel_rseq2 in R2 as (m1 & R2 & R2'). apply rel_rseq2 in R2' as (m2 & R2' & R2''). apply rel_rstr in R2 as (-> & q & Eq). apply rel_star_chr in R2' as (s & r2 & Es & Bs & ->). apply rel_rstr in R2'' as (-> & q2 & Eq2).
      exists (Some s). split; [|split].
      + rewrite <- F1, Eq. pose proof (skipn_more _ _ _ _ Eq) as G1. rewrite Es in G1. rewrite <- G1. pose proof (skipn_more _ _ _ _ Es) as G2. rewrite Eq2 in G2. rewrite <- G2. pose proof (skipn_more _ _ _ _ Eq2) as G3. rewrite (Ep _ eq_refl) in G3. rewrite <- G3. cbn [optional]. unfold bracketed. rewrite <- !app_assoc. reflexivity.
      + intros s' Es'. injection Es' as <-. apply not_in_class. exact Bs.
      + cbn [optional]. unfold bracketed. rewrite !app_length. change (length (lit "[")) with 1. change (length (lit "]")) with 1. cbn [List.length]. lia.
    - subst k2. exists None. cbn [optional List.app List.length]. split; [rewrite <- F1; apply Ep; reflexivity|split; [discriminate|lia]]. }
  destruct Er as (o & -> & Ho & Hk). exists g1, o, g2, names, r. split; [rewrite E1; unfold use_tail; rewrite <- !app_assoc; reflexivity|]. split; [exact B1|]. split; [exact B3|]. split; [exact Ho|]. split; [exact N5|]. split; [apply not_in_class; exact B5|].
  subst k2. unfold use_tail, braced. rewrite !app_length. change (length (lit "{")) with 1. change (length (lit "}")) with 1. cbn [List.length]. lia.
Qed.
(** a letter cannot begin the tail *)
Lemma tail_letter_none : forall g t i x q j, skipn i t = x :: q -> is_letter x -> ~ rel (TAIL g) t i j.
Proof.
  intros g t i x q j E L R. apply tail_rel in R as (g1 & o & g2 & names & r & E2 & B1 & B2 & _). rewrite E in E2. destruct (tail_head g1 o g2 names r B1 B2) as (y & p & E3 & H). rewrite E3 in E2. injection E2 as -> _. apply tail_no_letter in H. apply letter_ok in L. congruence.
Qed.
(** * \use lines *)
Lemma use_rel : forall t j, rel USE t 0 j -> exists p r, t = p ++ r /\ use_line p /\ j = length p.
Proof.
  intros t j R. unfold USE in R. apply rel_alt2 in R as [R|R].
  - change (rel (RSeq (rstr (lit "\")) (RSeq (words ["usepackage"; "RequirePackage"]%string) (TAIL 1))) t 0 j) in R. apply rel_rseq2 in R as (k1 & R1 & R). apply rel_rseq2 in R as (k2 & R2 & R). apply tail_rel in R as (g1 & o & g2 & names & r & E & B1 & B2 & Ho & N1 & N2 & ->).
    apply rel_rstr in R1 as (-> & r1 & E1). unfold words in R2. cbn [map ralt] in R2. change (skipn 0 t) with t in E1.
    assert (W : exists wd, use_command wd /\ t = wd ++ skipn k2 t /\ k2 = length wd).
    { pose proof (skipn_more t 0 _ _ E1) as F1. apply rel_alt2 in R2 as [R2|R2]; apply rel_rstr in R2 as (-> & r2 & E2); rewrite E2 in F1; [exists (lit "\usepackage"); split; [apply uc_package|]|exists (lit "\RequirePackage"); split; [apply uc_require|]];
        (split; [|reflexivity]); rewrite (skipn_more _ _ _ _ E2); rewrite E1 at 1; rewrite <- F1; reflexivity. }
    destruct W as (wd & U & Et & ->). rewrite E in Et. exists (wd ++ use_tail g1 o g2 names), r. split; [rewrite <- app_assoc; exact Et|]. split; [apply ul_intro; assumption|rewrite app_length; reflexivity].
  - change (rel (RSeq (rstr (lit "\use")) (RSeq (rplus (RChr StyleModel.is_letter)) (TAIL 2))) t 0 j) in R. apply rel_rseq2 in R as (k1 & R1 & R). apply rel_rseq2 in R as (k2 & R2 & R). apply tail_rel in R as (g1 & o & g2 & names & r & E & B1 & B2 & Ho & N1 & N2 & ->).
    apply rel_rstr in R1 as (-> & r1 & E1). apply BibParserProofs.rel_plus_chr in R2 as (s & r2 & E2 & N & B & ->). change (skipn 0 t) with t in E1.
    exists ((lit "\use" ++ s) ++ use_tail g1 o g2 names), r. split; [|split; [apply ul_intro; try assumption; apply uc_other; split; [exact N|]; intros x I; rewrite forallb_forall in B; apply letter_ok; apply B; exact I|rewrite !app_length; lia]].
    rewrite E1. pose proof (skipn_more t 0 _ _ E1) as F1. rewrite E2 in F1. rewrite <- F1. pose proof (skipn_more _ _ _ _ E2) as F2. rewrite E in F2. rewrite <- F2. rewrite <- !app_assoc. reflexivity.
Qed.
Lemma use_match : forall p r, use_line p -> exists c, re_match_at USE (p ++ r) 0 = Some {| m_start := 0; m_end := length p; m_caps := c |}.
Proof.
  intros p r U. destruct U as [wd g1 o g2 names U B1 B2 Ho N1 N2]. change (g1 ++ optional o ++ g2 ++ braced names) with (use_tail g1 o g2 names). rewrite <- app_assoc.
  assert (T : forall g i c, i = length wd -> exists c', fm (TAIL g) (wd ++ use_tail g1 o g2 names ++ r) i c (length (wd ++ use_tail g1 o g2 names)) c').
  { intros g i c ->. rewrite app_length. apply (tail_fm g _ _ _ _ _ _ _ r); try assumption. apply skipn_app_exact. reflexivity. }
  enough (A : exists c, fm USE (wd ++ use_tail g1 o g2 names ++ r) 0 [] (length (wd ++ use_tail g1 o g2 names)) c) by (destruct A as (c & A); exists c; apply fm_match; exact A).
  set (n := length (wd ++ use_tail g1 o g2 names)) in *. set (tl := use_tail g1 o g2 names ++ r) in *.
  assert (P1 : wd = lit "\usepackage" -> exists c, fm USE (wd ++ tl) 0 [] n c).
  { intros ->. destruct (T 1 _ [] eq_refl) as (c' & F). exists c'. unfold USE. apply fm_alt_left. change (fm (RSeq (rstr (lit "\")) (RSeq (words ["usepackage"; "RequirePackage"]%string) (TAIL 1))) (lit "\usepackage" ++ tl) 0 [] n c').
    eapply fm_seq; [apply (fm_rstr (lit "\") _ 0 _ (lit "usepackage" ++ tl)); reflexivity|]. eapply fm_seq; [unfold words; cbn [map ralt]; apply fm_alt_left; apply (fm_rstr (lit "usepackage") _ _ _ tl); reflexivity|]. exact F. }
  destruct U as [| |s L].
  - apply P1. reflexivity.
  - destruct (T 1 _ [] eq_refl) as (c' & F). exists c'. unfold USE. apply fm_alt_left. change (fm (RSeq (rstr (lit "\")) (RSeq (words ["usepackage"; "RequirePackage"]%string) (TAIL 1))) (lit "\RequirePackage" ++ tl) 0 [] n c').
    eapply fm_seq; [apply (fm_rstr (lit "\") _ 0 _ (lit "RequirePackage" ++ tl)); reflexivity|]. eapply fm_seq; [unfold words; cbn [map ralt]; apply fm_alt_right; [rewrite rm_rstr; reflexivity|apply (fm_rstr (lit "RequirePackage") _ _ _ tl); reflexivity]|]. exact F.
  - destruct (list_eq_dec N.eq_dec s (lit "package")) as [->|Ns]; [apply P1; reflexivity|]. destruct L as (L1 & L2). destruct (tail_head g1 o g2 names r B1 B2) as (x & q & Ex & Hx). apply tail_no_letter in Hx. fold tl in Ex.
    destruct (T 2 _ [] eq_refl) as (c' & F). exists c'. unfold USE. apply fm_alt_right.
    + set (A := rseq [rstr (lit "\"); words ["usepackage"; "RequirePackage"]%string; sp; OPTIONAL; sp; BRACE 1]). destruct (rm A ((lit "\use" ++ s) ++ tl) 0 []) as [|(j, d) l] eqn:E; [reflexivity|exfalso].
      assert (I : In (j, d) (rm A ((lit "\use" ++ s) ++ tl) 0 [])) by (rewrite E; left; reflexivity). apply rm_sound in I; [|lia].
      change (rel (RSeq (rstr (lit "\")) (RSeq (words ["usepackage"; "RequirePackage"]%string) (TAIL 1))) ((lit "\use" ++ s) ++ tl) 0 j) in I. apply rel_rseq2 in I as (k1 & R1 & R). apply rel_rseq2 in R as (k2 & R2 & R). apply rel_rstr in R1 as (-> & _).
      unfold words in R2. cbn [map ralt] in R2. apply rel_alt2 in R2 as [R2|R2]; apply rel_rstr in R2 as (-> & r2 & E2); [|discriminate E2].
      assert (E3 : s ++ tl = lit "package" ++ r2) by (change (lit "use" ++ (s ++ tl) = lit "use" ++ (lit "package" ++ r2)) in E2; apply app_inv_head in E2; exact E2).
      assert (E4 : exists y s', s = lit "package" ++ y :: s' /\ is_letter y).
      { assert (Pf : forall a b : str, forall c d : str, a ++ c = b ++ d -> (forall y, In y b -> is_letter y) -> (forall y z, c = y :: z -> ~ is_letter y) -> exists a', a = b ++ a').
        { intros a. induction a as [|y a IH]; intros b c0 d0 Eab Hb Hc.
          - destruct b as [|z b]; [exists []; reflexivity|]. cbn in Eab. exfalso. apply (Hc z (b ++ d0)); [exact Eab|apply Hb; left; reflexivity].
          - destruct b as [|z b]; [exists (y :: a); reflexivity|]. cbn in Eab. injection Eab as -> Eab. destruct (IH b c0 d0 Eab) as (a' & ->); [intros w0 Iw; apply Hb; right; exact Iw|exact Hc|]. exists a'. reflexivity. }
        destruct (Pf s (lit "package") tl r2 E3) as (a' & Ea).
        - intros y I. cbn in I. unfold is_letter. repeat (destruct I as [<-|I]; [lia|]). destruct I.
        - intros y z Ez. rewrite Ex in Ez. injection Ez as -> _. intros Ly. apply letter_ok in Ly. congruence.
        - destruct a' as [|y a']; [rewrite app_nil_r in Ea; congruence|]. exists y, a'. split; [exact Ea|]. apply L2. rewrite Ea. apply in_or_app. right. left. reflexivity. }
      destruct E4 as (y & s' & -> & Ly). apply (tail_letter_none 1 ((lit "\use" ++ lit "package" ++ y :: s') ++ tl) (0 + length (lit "\") + length (lit "usepackage")) y (s' ++ tl) j); [reflexivity|exact Ly|exact R].
    + change (fm (RSeq (rstr (lit "\use")) (RSeq (rplus (RChr StyleModel.is_letter)) (TAIL 2))) ((lit "\use" ++ s) ++ tl) 0 [] n c'). eapply fm_seq; [apply (fm_rstr (lit "\use") _ 0 _ (s ++ tl)); rewrite <- app_assoc; reflexivity|].
      eapply fm_seq; [apply (fm_plus StyleModel.is_letter _ _ _ s tl)|].
      * rewrite <- app_assoc. reflexivity.
      * exact L1.
      * apply forallb_forall. intros y I. apply letter_ok. apply L2. exact I.
      * rewrite Ex. exact Hx.
      * replace (0 + length (lit "\use") + length s) with (length (lit "\use" ++ s)) by (rewrite app_length; reflexivity). exact F.
Qed.
