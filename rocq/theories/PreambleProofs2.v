(** C106: the decision at a position, and the loop. *)
From Coq Require Import List NArith ZArith PeanoNat Lia Bool String.
From Verif Require CommandModel CommandProofs PreModel StyleModel LegacyProofs5 BibParserProofs FormatProofs2.
From Verif Require Import PyStr Regex RegexLemmas RegexHead RegexAbs DelimSpec DelimFinal TexUtilsModel CommandSpec DefModel DefSpec DefProofs DefProofs2 DefProofs3 PreambleModel PreambleSpec PreambleProofs.
Import ListNotations. Notation length := List.length. Notation concat := List.concat. Open Scope list_scope.
Section Any.
Variables u ualpha ualnum : ch -> bool.
Local Notation handle := (handle u ualpha ualnum).
Local Notation over := (over u).
Local Notation kept := (kept u ualpha ualnum).
Local Notation loop := (preamble_loop u ualpha ualnum).
(** * Words with a boundary *)
Lemma bound_word : forall v t i j, (exists a x, v = a ++ [x] /\ w u x = true) -> rel (rseq [rstr v; RBound (w u)]) t i j <-> j = i + length v /\ exists r, skipn i t = v ++ r /\ over r.
Proof.
  intros v t i j (a & x & Ev & Hx). cbn [rseq]. rewrite rel_rseq2.
  assert (B : forall r, skipn i t = v ++ r -> xorb (prev_is (w u) t (i + length v)) (next_is (w u) t (i + length v)) = true <-> over r).
  { intros r E. assert (P : prev_is (w u) t (i + length v) = true).
    { rewrite Ev, app_length. cbn [List.length]. unfold prev_is. replace (i + (length a + 1)) with (S (i + length a)) by lia. unfold next_is. rewrite nth_error_skipn.
      rewrite <- skipn_add, E, Ev, <- app_assoc, skipn_app_exact by reflexivity. cbn. exact Hx. }
    rewrite P. unfold next_is. rewrite nth_error_skipn, (skipn_more _ _ _ _ E). unfold PreambleSpec.over. destruct r as [|y r]; cbn.
    - split; [intros _ y r F; discriminate|reflexivity].
    - destruct (w u y) eqn:Y; split; intros H; try reflexivity; try discriminate.
      + specialize (H y r eq_refl). congruence.
      + intros z q F. injection F as <- _. exact Y. }
  split.
  - intros (k & R1 & R2). apply rel_rstr in R1 as (-> & r & E). pose proof (LegacyProofs5.bound_inv _ _ _ _ R2) as X. assert (j = i + length v) by (inversion R2; reflexivity). subst j. split; [reflexivity|]. exists r. split; [exact E|]. apply (B r E). exact X.
  - intros (-> & r & E & O). exists (i + length v). split; [apply rel_rstr; split; [reflexivity|exists r; exact E]|]. constructor. apply (B r E). exact O.
Qed.
Lemma letter_last : exists a x, lit "\makeatletter" = a ++ [x] /\ w u x = true.
Proof. exists (lit "\makeatlette"), 114%N. split; reflexivity. Qed.
Lemma other_last : exists a x, lit "\makeatother" = a ++ [x] /\ w u x = true.
Proof. exists (lit "\makeatothe"), 114%N. split; reflexivity. Qed.
Lemma split_at : forall (t : str) i v r, skipn i t = v ++ r -> i <= length t -> t = firstn i t ++ v ++ r.
Proof. intros t i v r E L. rewrite <- E. symmetry. apply firstn_skipn. Qed.
Lemma block_iff : forall rest e, at_block u rest = Some e <-> at_block_text u rest (firstn e rest) /\ e <= length rest.
Proof.
  intros rest e. unfold at_block, at_block_text, AT_LETTER, AT_OTHER. split.
  - intros H. destruct (re_match_at _ rest 0) as [m0|] eqn:M; [|discriminate]. destruct (re_search _ rest) as [m|] eqn:F; [|discriminate]. injection H as <-.
    apply re_match_at_some in M as (_ & M & _); [|lia]. apply (bound_word _ _ _ _ letter_last) in M as (_ & r0 & E0 & O0).
    unfold re_search in F. apply re_search_some in F as (_ & L & R & _ & A). apply (bound_word _ _ _ _ other_last) in R as (Em & r & E & O). split; [|lia]. split; [exists r0; split; [exact E0|exact O0]|].
    pose proof (split_at _ _ _ _ E ltac:(lia)) as Es.
    assert (Ef : firstn (m_end m) rest = firstn (m_start m) rest ++ lit "\makeatother").
    { rewrite Es at 1. rewrite app_assoc, firstn_app_exact; [reflexivity|]. rewrite app_length, firstn_length. lia. }
    exists (firstn (m_start m) rest), r. split; [exact Ef|]. split; [rewrite Ef, <- app_assoc; exact Es|]. split; [exact O|].
    intros q' r' E' O'. rewrite firstn_length. destruct (Nat.le_gt_cases (Nat.min (m_start m) (length rest)) (length q')) as [Hl|Hl]; [exact Hl|exfalso].
    apply (A (length q') (length q' + length (lit "\makeatother"))); [lia|]. apply (bound_word _ _ _ _ other_last). split; [reflexivity|]. exists r'. split; [rewrite E'; apply skipn_app_exact; reflexivity|exact O'].
  - intros (((r0 & E0 & O0) & (q & r & Eq & Es & O & Min)) & Le).
    assert (R0 : rel (rseq [rstr (lit "\makeatletter"); RBound (w u)]) rest 0 (0 + length (lit "\makeatletter"))) by (apply (bound_word _ _ _ _ letter_last); split; [reflexivity|exists r0; split; [exact E0|exact O0]]).
    destruct (re_match_at _ rest 0) as [m0|] eqn:M; [|exfalso; exact (proj1 (re_match_at_none _ _ _ (Nat.le_0_l _)) M _ R0)].
    rewrite Eq, <- app_assoc in Es. assert (Rq : forall k, rel (rseq [rstr (lit "\makeatother"); RBound (w u)]) rest (length q) k <-> k = length q + length (lit "\makeatother")).
    { intros k. rewrite (bound_word _ _ _ _ other_last). split; [intros (H & _); exact H|intros ->; split; [reflexivity|]]. exists r. split; [rewrite Es; apply skipn_app_exact; reflexivity|exact O]. }
    assert (Hq : length q + length (lit "\makeatother") = e).
    { assert (Hf : length (firstn e rest) = e) by (rewrite firstn_length; lia). rewrite Eq, app_length in Hf. exact Hf. }
    destruct (re_search _ rest) as [m|] eqn:F.
    + unfold re_search in F. apply re_search_some in F as (_ & L & R & _ & A). f_equal.
      assert (S1 : m_start m <= length q).
      { destruct (Nat.le_gt_cases (m_start m) (length q)) as [H|H]; [exact H|exfalso]. apply (A (length q) (length q + length (lit "\makeatother"))); [lia|]. apply Rq. reflexivity. }
      assert (S2 : length q <= m_start m).
      { apply (bound_word _ _ _ _ other_last) in R as (_ & r' & E' & O'). pose proof (split_at _ _ _ _ E' ltac:(lia)) as Es'. specialize (Min _ _ Es' O'). rewrite firstn_length in Min. lia. }
      assert (S3 : m_start m = length q) by lia. rewrite S3 in R. apply Rq in R. lia.
    + exfalso. unfold re_search in F. refine (proj1 (re_search_none _ _ _) F (length q) (length q + length (lit "\makeatother")) _ (proj2 (Rq _) eq_refl)). rewrite Es, !app_length. lia.
Qed.
(** * Nothing is of two kinds *)
Lemma no_def : forall p r, forallb (fun kp => dead p (snd kp)) (PATTERNS u) = true -> handle (p ++ r) = Ok (None, 0%Z).
Proof.
  intros p r D. apply not_can. unfold can_handle. apply Bool.not_true_is_false. intros H. apply existsb_exists in H as (kp & I & H). rewrite forallb_forall in D. apply D in I. cbn in I.
  rewrite (dead_none _ _ _ I) in H. discriminate.
Qed.
Lemma use_no_def : forall p r, use_line p -> handle (p ++ r) = Ok (None, 0%Z).
Proof.
  intros p r U. assert (H : exists q, p ++ r = lit "\use" ++ q \/ p ++ r = lit "\RequirePackage" ++ q).
  { destruct U as [wd g1 o g2 names [| |s L] _ _ _ _ _]; eexists.
    - left. change (lit "\usepackage") with (lit "\use" ++ lit "package"). rewrite <- !app_assoc. reflexivity.
    - right. rewrite <- !app_assoc. reflexivity.
    - left. rewrite <- !app_assoc. reflexivity. }
  destruct H as (q & [-> | ->]); apply no_def; vm_compute; reflexivity.
Qed.
Lemma block_no_def : forall r, handle (lit "\makeatletter" ++ r) = Ok (None, 0%Z).
Proof. intros r. apply no_def. vm_compute. reflexivity. Qed.
Lemma block_no_use : forall r, re_match_at USE (lit "\makeatletter" ++ r) 0 = None.
Proof. intros r. apply dead_none. vm_compute. reflexivity. Qed.
(** the decision: how many characters are kept *)
Definition decide (rest : str) : outcome nat :=
  match re_match_at USE rest 0 with
  | Some m => Ok (m_end m)
  | None => match at_block u rest with
            | Some e => Ok e
            | None => if can_handle u rest then match handle rest with Ok (_, e) => Ok (Z.to_nat e) | Raise => Raise | Spin => Spin end else Ok 0
            end
  end.
Lemma loop_step : forall fu x r out, loop (S fu) (x :: r) out =
  match re_search DELIM (x :: r) with
  | None => Ok out
  | Some d => if Nat.ltb 0 (m_start d) then loop fu (skipn (m_start d) (x :: r)) out
              else match decide (x :: r) with Ok 0 => loop fu r out | Ok e => loop fu (skipn e (x :: r)) (out ++ line (firstn e (x :: r))) | Raise => Raise | Spin => Spin end
  end.
Proof.
  intros fu x r out. cbn [preamble_loop]. destruct (re_search DELIM (x :: r)) as [d|]; [|reflexivity]. destruct (Nat.ltb 0 (m_start d)); [reflexivity|]. unfold decide.
  destruct (re_match_at USE (x :: r) 0) as [m|] eqn:M.
  - assert (H : m_end m <> 0); [|destruct (m_end m); [congruence|reflexivity]]. apply re_match_at_some in M as (_ & M & _); [|lia]. apply use_rel in M as (p & q & _ & U & ->). destruct U as [wd g1 o g2 names [| |s L] _ _ _ _ _]; discriminate.
  - destruct (at_block u (x :: r)) as [e|] eqn:B.
    + assert (H : e <> 0); [|destruct e; [congruence|reflexivity]]. apply block_iff in B as (((r0 & E0 & _) & (q & r' & Eq & _)) & _). intros ->. cbn in Eq. apply app_cons_not_nil in Eq. exact Eq.
    + destruct (can_handle u (x :: r)); [|reflexivity]. destruct (handle (x :: r)) as [(t, e)| |]; try reflexivity. destruct (Z.ltb_spec 0 e) as [H|H].
      * destruct (Z.to_nat e) eqn:En; [lia|reflexivity].
      * replace (Z.to_nat e) with 0 by lia. reflexivity.
Qed.
Lemma decide_kept : forall rest n, begins_command rest -> n <> 0 -> decide rest = Ok n <-> exists p r, rest = p ++ r /\ length p = n /\ kept rest p.
Proof.
  intros rest n B N. unfold decide. split.
  - intros H. assert (K : forall m, m <= length rest -> m = n -> (use_line (firstn n rest) \/ at_block_text u rest (firstn n rest) \/ exists tok, handle rest = Ok (tok, Z.of_nat n)) -> exists p r, rest = p ++ r /\ length p = n /\ kept rest p).
    { intros m L -> D. assert (Lf : length (firstn n rest) = n) by (rewrite firstn_length; lia). exists (firstn n rest), (skipn n rest). split; [symmetry; apply firstn_skipn|]. split; [exact Lf|]. split; [exact B|]. split; [exists (skipn n rest); symmetry; apply firstn_skipn|]. split; [intros F; rewrite F in Lf; cbn in Lf; congruence|].
      destruct D as [D|[D|D]]; [left; exact D|right; left; exact D|right; right; rewrite Lf; exact D]. }
    destruct (re_match_at USE rest 0) as [m|] eqn:M.
    + apply re_match_at_some in M as (_ & M & L); [|lia]. injection H as H. apply (K (m_end m)); [lia|exact H|]. left. apply use_rel in M as (p & q & -> & U & E). rewrite <- H, E, firstn_app_exact by reflexivity. exact U.
    + destruct (at_block u rest) as [e|] eqn:Bl.
      * injection H as ->. apply block_iff in Bl as (Bl & L). apply (K n); [exact L|reflexivity|]. right. left. exact Bl.
      * destruct (can_handle u rest); [|injection H as H; congruence]. destruct (handle rest) as [(t, e)| |] eqn:Hh; try discriminate. injection H as H. destruct (handle_ok u ualpha ualnum rest) as (_ & Bd). destruct (Bd _ _ Hh) as (Le & _). apply (K (Z.to_nat e)); [lia|exact H|]. right. right. exists t. replace (Z.of_nat n) with e by lia. reflexivity.
  - intros (p & r & -> & Lp & (_ & _ & Np & D)). destruct D as [U|[Bl|(tok & Hh)]].
    + destruct (use_match p r U) as (c & ->). cbn [m_end]. rewrite Lp. reflexivity.
    + pose proof Bl as ((r0 & E0 & _) & _). assert (U0 : re_match_at USE (p ++ r) 0 = None) by (rewrite E0; apply block_no_use). rewrite U0.
      assert (Hb : at_block u (p ++ r) = Some n) by (apply block_iff; rewrite firstn_app_exact by (symmetry; exact Lp); split; [exact Bl|rewrite app_length; lia]). rewrite Hb. reflexivity.
    + destruct (re_match_at USE (p ++ r) 0) as [m|] eqn:M.
      { exfalso. apply re_match_at_some in M as (_ & M & _); [|lia]. apply use_rel in M as (p' & q & E & U & _). rewrite E, (use_no_def _ _ U) in Hh. assert (F : 0%Z = Z.of_nat (length p)) by congruence. lia. }
      destruct (at_block u (p ++ r)) as [e|] eqn:Hb.
      { exfalso. apply block_iff in Hb as (((r0 & E0 & _) & _) & _). rewrite E0, block_no_def in Hh. assert (F : 0%Z = Z.of_nat (length p)) by congruence. lia. }
      destruct (can_handle u (p ++ r)) eqn:C; [rewrite Hh; f_equal; lia|]. rewrite (not_can _ _ _ _ C) in Hh. assert (F : 0%Z = Z.of_nat (length p)) by congruence. lia.
Qed.
Lemma kept_unique : forall rest p q, kept rest p -> kept rest q -> p = q.
Proof.
  intros rest p q K1 K2. pose proof K1 as (B & (r1 & E1) & N1 & _). pose proof K2 as (_ & (r2 & E2) & N2 & _).
  assert (D1 : decide rest = Ok (length p)) by (apply decide_kept; [exact B|destruct p; [congruence|discriminate]|]; exists p, r1; auto).
  assert (D2 : decide rest = Ok (length q)) by (apply decide_kept; [exact B|destruct q; [congruence|discriminate]|]; exists q, r2; auto).
  assert (L : length p = length q) by congruence. rewrite E1 in E2. apply (f_equal (firstn (length p))) in E2. rewrite firstn_app_exact in E2 by reflexivity. rewrite firstn_app_exact in E2 by exact L. exact E2.
Qed.
Lemma reads_unique : forall rest ps, reads u ualpha ualnum rest ps -> forall qs, reads u ualpha ualnum rest qs -> ps = qs.
Proof.
  intros rest ps H. induction H as [|p r ps K H IH|x r ps K H IH]; intros qs H2.
  - inversion H2 as [|p r ps K _ E| ]; [reflexivity|]. exfalso. destruct K as (_ & _ & N & _). destruct p; [congruence|discriminate].
  - inversion H2 as [E|q r2 qs' K2 H3 E|x r2 qs' K2 H3 E].
    + exfalso. destruct K as (_ & _ & N & _). destruct p; [congruence|discriminate].
    + rewrite E in K2. pose proof (kept_unique _ _ _ K K2) as F. subst q. apply app_inv_head in E. subst r2. f_equal. apply IH. exact H3.
    + exfalso. rewrite E in K2. exact (K2 p K).
  - inversion H2 as [|q r2 qs' K2 H3 E|x2 r2 qs' K2 H3 E].
    + exfalso. rewrite E in K2. exact (K q K2).
    + apply IH. exact H3.
Qed.
End Any.
