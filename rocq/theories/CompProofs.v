(** C108: looking for words, replacing abbreviations. *)
From Coq Require Import List NArith ZArith PeanoNat Lia Bool String.
From Verif Require LegacyProofs5 BibParserProofs.
From Verif Require Import PyStr Regex RegexLemmas RegexHead RegexLocal DelimSpec DelimFinal EqProofs StyleSpec ItemSpec BibModel BibSpec BibitemSpec BibitemProofs2 CompModel CompSpec.
Import ListNotations. Notation length := List.length. Notation concat := List.concat. Open Scope list_scope.
Local Notation fm := RegexHead.first_match.
(** * A word does not begin here *)
Definition absent (w : str) (a rest : str) : Prop := forall a1 a2 q, a = a1 ++ a2 -> a2 <> [] -> a2 ++ rest <> w ++ q.
Lemma absent_word : forall (w a rest : str), w <> [] -> ~ occurs w a -> (forall x r, rest = x :: r -> ~ In x (tl w)) -> absent w a rest.
Proof.
  intros w a rest Nw No Hr a1 a2 q Ea Ne E.
  destruct (Nat.le_gt_cases (length w) (length a2)) as [L|L].
  - assert (E2 : a2 = w ++ firstn (length a2 - length w) q).
    { apply (f_equal (firstn (length a2))) in E. rewrite firstn_app_exact in E by reflexivity. rewrite E at 1. rewrite firstn_app. rewrite firstn_all2 by lia. reflexivity. }
    apply No. exists a1, (firstn (length a2 - length w) q). rewrite <- E2. exact Ea.
  - destruct rest as [|x r].
    + apply (f_equal (@List.length ch)) in E. rewrite app_nil_r, app_length in E. lia.
    + apply (Hr x r eq_refl). destruct a2 as [|y a2]; [congruence|]. destruct w as [|z w]; [congruence|]. cbn [tl]. cbn [List.app] in E. injection E as -> E. cbn [List.length] in L.
      apply (f_equal (fun s => nth_error s (length a2))) in E. rewrite nth_error_app2, Nat.sub_diag in E by lia. cbn [nth_error] in E. rewrite nth_error_app1 in E by lia. symmetry in E. apply nth_error_In in E. exact E.
Qed.
(** a pattern that begins with the word *)
Definition heads (r : re) (w : str) : Prop := forall t i j, rel r t i j -> exists q, skipn i t = w ++ q.
Lemma heads_seq : forall w K, heads (RSeq (rstr w) K) w.
Proof. intros w K t i j R. apply rel_rseq2 in R as (k & R & _). apply rel_rstr in R as (_ & q & E). exists q. exact E. Qed.
Lemma match_absent : forall r w t pos a rest, heads r w -> skipn pos t = a ++ rest -> absent w a rest -> forall k, pos <= k < pos + length a -> re_match_at r t k = None.
Proof.
  intros r w t pos a rest H E A k L. assert (Lt : pos + length a <= length t). { apply (f_equal (@List.length ch)) in E. rewrite skipn_length, app_length in E. lia. }
  apply re_match_at_none; [lia|]. intros j R. apply H in R as (q & R).
  replace k with (pos + (k - pos)) in R by lia. rewrite <- skipn_add, E in R. rewrite <- (firstn_skipn (k - pos) a) in R.
  assert (Lf : length (firstn (k - pos) a) = k - pos) by (rewrite firstn_length; lia).
  rewrite <- app_assoc, skipn_app_exact in R by (symmetry; exact Lf).
  eapply A; [symmetry; apply (firstn_skipn (k - pos) a)| |exact R]. intros N. apply (f_equal (@List.length ch)) in N. rewrite skipn_length in N. cbn in N. lia.
Qed.
Lemma search_here : forall r w t a rest m, heads r w -> t = a ++ rest -> absent w a rest -> re_match_at r t (length a) = Some m -> re_search r t = Some m.
Proof.
  intros r w t a rest m H E A M. unfold re_search. apply (search_first r t 0 (length a) m); [lia|rewrite E, app_length; lia| |exact M].
  intros k L1 L2. eapply (match_absent r w t 0 a rest H); [exact E|exact A|lia].
Qed.
Lemma search_nowhere : forall r w t, heads r w -> w <> [] -> ~ occurs w t -> re_search r t = None.
Proof.
  intros r w t H N O. unfold re_search. apply re_search_none. intros i j L R. apply H in R as (q & R). apply O. exists (firstn i t), q. rewrite <- R, firstn_skipn. reflexivity.
Qed.
Section Iter.
Variables (r : re) (w : str).
Hypothesis Hm : 0 < minlen r.
Hypothesis Hh : heads r w.
Lemma iter_absent : forall t a pos rest, skipn pos t = a ++ rest -> absent w a rest -> iter_at r t pos = iter_at r t (pos + length a).
Proof.
  intros t a. induction a as [|x a IH]; intros pos rest E A; [cbn [List.length]; rewrite Nat.add_0_r; reflexivity|].
  pose proof (skipn_cons_lt _ _ _ _ E) as L. rewrite iter_at_step; [|exact Hm|exact L]. rewrite (match_absent r w t pos (x :: a) rest Hh E A) by (cbn [List.length]; lia).
  rewrite (IH (S pos) rest); [cbn [List.length]; f_equal; lia|exact (skipn_more1 _ _ _ _ E)|]. intros a1 a2 q E1 E2. apply (A (x :: a1)); [cbn; congruence|exact E2].
Qed.
Lemma iter_nowhere : forall t pos s, w <> [] -> pos <= length t -> skipn pos t = s -> ~ occurs w s -> iter_at r t pos = [].
Proof.
  intros t pos s N L E O. rewrite (iter_absent t s pos []); [|rewrite app_nil_r; exact E|].
  - apply iter_at_end; [exact Hm|]. apply (f_equal (@List.length ch)) in E. rewrite skipn_length in E. lia.
  - apply absent_word; [exact N|exact O|]. intros x q Q. discriminate.
Qed.
End Iter.
(** * Replacing *)
Section Replace.
Variable isword : ch -> bool.
Hypothesis Hl : forall x, letter x -> isword x = true.
Hypothesis Hs : forall x, isword x = true -> isspace x = false.
Lemma period_sub : forall s out, replaced isword (lit "\bibinitperiod") (lit ".") s out -> re_sub (PERIOD isword) (fun _ => lit ".") s = out.
Proof. intros s out R. exact (sub_replaced isword (lit "\bibinitperio") 100%N (Hl 100%N ltac:(unfold letter; lia)) (lit ".") s out R). Qed.
Local Notation R := (RANGE isword).
Lemma range_min : 0 < minlen R.
Proof. cbn. lia. Qed.
Lemma dash_prev : forall t pos q, skipn pos t = lit "\bibrangedash" ++ q -> prev_is isword t (pos + 13) = true.
Proof.
  intros t pos q E. replace (pos + 13) with (S (pos + 12)) by lia. cbn [prev_is]. rewrite nth_error_skipn, <- skipn_add, E. change (isword 104%N = true). apply Hl. unfold letter. lia.
Qed.
Lemma next_starts : forall p t i q, skipn i t = q -> next_is p t i = starts_with p q.
Proof. intros p t i q E. unfold next_is. rewrite nth_error_skipn, E. destruct q; reflexivity. Qed.
Lemma space_prev : forall t i ws q, skipn i t = ws ++ q -> blank ws -> ws <> [] -> prev_is isword t (i + length ws) = false.
Proof.
  intros t i ws q E B N. destruct (exists_last N) as (a & z & ->). rewrite app_length. cbn [List.length]. replace (i + (length a + 1)) with (S (i + length a)) by lia. cbn [prev_is]. rewrite nth_error_skipn, <- skipn_add, E, <- app_assoc, skipn_app_exact by reflexivity. cbn [List.app].
  destruct (isword z) eqn:W; [|reflexivity]. apply Hs in W. unfold blank in B. rewrite forallb_app in B. cbn [forallb] in B. rewrite W in B. rewrite andb_false_r in B. discriminate B.
Qed.
Lemma range_blank : forall t pos ws q, skipn pos t = lit "\bibrangedash" ++ ws ++ q -> blank ws -> ws <> [] -> starts_with isword q = true ->
  re_match_at R t pos = Some {| m_start := pos; m_end := pos + 13 + length ws; m_caps := [] |}.
Proof.
  intros t pos ws q E B N Q. apply fm_match. unfold RANGE. cbn [rseq]. eapply fm_seq; [apply (fm_rstr (lit "\bibrangedash") _ _ _ _ E)|]. change (length (lit "\bibrangedash")) with 13. pose proof (skipn_more _ _ _ _ E) as E1. change (length (lit "\bibrangedash")) with 13 in E1.
  eapply fm_seq; [apply (fm_star isspace _ _ _ ws q E1 B)|].
  - destruct q as [|x q]; [reflexivity|]. apply Hs. exact Q.
  - exists []. cbn [rm]. rewrite (space_prev _ _ _ _ E1 B N), (next_starts _ _ _ _ (skipn_more _ _ _ _ E1)), Q. reflexivity.
Qed.
Lemma range_dash : forall t pos q, skipn pos t = lit "\bibrangedash" ++ q -> starts_with isword q = false -> (forall ws p, q = ws ++ p -> blank ws -> starts_with isword p = false) ->
  re_match_at R t pos = Some {| m_start := pos; m_end := pos + 13; m_caps := [] |}.
Proof.
  intros t pos q E Q H. apply fm_match. unfold RANGE. cbn [rseq]. eapply fm_seq; [apply (fm_rstr (lit "\bibrangedash") _ _ _ _ E)|]. change (length (lit "\bibrangedash")) with 13. pose proof (skipn_more _ _ _ _ E) as E1. change (length (lit "\bibrangedash")) with 13 in E1.
  destruct (lead_split q) as (ws & Eq & Bw & Lw). set (p := skipn (nlead q) q) in *.
  unfold first_match. change (rm (RSeq (rstar rspace) (RBound isword)) t (pos + 13) []) with (flat_map (fun jc => rm (RBound isword) t (fst jc) (snd jc)) (rm (rstar rspace) t (pos + 13) [])).
  unfold rstar, rspace. rewrite rm_star_chr_greedy. set (n := runlen isspace (skipn (pos + 13) t)).
  assert (Z : forall k, 0 < k <= n -> rm (RBound isword) t (pos + 13 + k) [] = []).
  { intros k Hk. cbn [rm]. set (pre := firstn k q). assert (Pre : q = pre ++ skipn k q) by (symmetry; apply firstn_skipn).
    assert (Bp : blank pre /\ length pre = k). { unfold pre, n in *. rewrite E1 in Hk. clear -Hk. split. - unfold blank. revert q Hk. induction k as [|k IH]; intros q Hk; [reflexivity|]. destruct q as [|x q]; [cbn in Hk; lia|]. cbn [runlen] in Hk. destruct (isspace x) eqn:X; [|lia]. cbn [firstn forallb]. rewrite X. destruct k; [reflexivity|]. apply IH. lia.
      - rewrite firstn_length. assert (runlen isspace q <= length q); [|lia]. clear. induction q as [|x q IH]; [reflexivity|]. cbn [runlen List.length]. destruct (isspace x); lia. }
    destruct Bp as (Bp & Lp). assert (Np : pre <> []) by (intros X; rewrite X in Lp; cbn in Lp; lia).
    rewrite Pre in E1. pose proof (space_prev _ _ _ _ E1 Bp Np) as P1. rewrite Lp in P1. rewrite P1. pose proof (skipn_more _ _ _ _ E1) as E2. rewrite Lp in E2. rewrite (next_starts _ _ _ _ E2). rewrite (H pre (skipn k q) Pre Bp). reflexivity. }
  assert (Z0 : rm (RBound isword) t (pos + 13) [] = [(pos + 13, [])]). { cbn [rm]. rewrite (dash_prev _ _ _ E), (next_starts _ _ _ _ E1), Q. reflexivity. }
  clearbody n. clear -Z Z0. exists []. induction n as [|n IH]; cbn [downto map flat_map fst snd]; rewrite ?Nat.add_0_r.
  - rewrite Z0. reflexivity.
  - rewrite Z by lia. cbn [List.app]. apply IH. intros k Hk. apply Z. lia.
Qed.
Lemma range_none : forall t pos x r, skipn pos t = x :: r -> (forall q, x :: r = lit "\bibrangedash" ++ q -> starts_with isword q = true) -> re_match_at R t pos = None.
Proof.
  intros t pos x r E H. apply re_match_at_none; [apply skipn_cons_lt in E; lia|]. intros j Rl. unfold RANGE in Rl. cbn [rseq] in Rl. apply rel_rseq2 in Rl as (k & R1 & R2). apply rel_rstr in R1 as (-> & q & Eq). change (length (lit "\bibrangedash")) with 13 in R2.
  apply rel_rseq2 in R2 as (k & R2 & R3). apply rel_star_chr in R2 as (ws & r2 & E2 & B & ->). apply LegacyProofs5.bound_inv in R3. rewrite E in Eq. specialize (H q Eq). pose proof Eq as E1. rewrite Eq in E. pose proof (skipn_more _ _ _ _ E) as E3. change (length (lit "\bibrangedash")) with 13 in E3. rewrite E2 in E3.
  destruct ws as [|y ws].
  - cbn [List.length List.app] in *. rewrite Nat.add_0_r in R3. rewrite E3 in E2. rewrite (dash_prev _ _ _ E), (next_starts _ _ _ _ E2), H in R3. discriminate R3.
  - subst q. cbn [starts_with List.app] in H. apply Hs in H. cbn [forallb] in B. rewrite H in B. discriminate B.
Qed.
Lemma range_sub : forall s out, dashed isword s out -> re_sub R (fun _ => lit "--") s = out.
Proof.
  intros s out D. rewrite re_sub_at0.
  assert (Go : forall s out, dashed isword s out -> forall t pos, pos <= length t -> skipn pos t = s -> sub_at R (fun _ => lit "--") t pos = out).
  { clear s out D. intros s out D. induction D as [|ws r out B N W D IH|r out W H D IH|x r out Hx D IH]; intros t pos L E.
    - assert (length t <= pos) by (apply (f_equal (@List.length ch)) in E; rewrite skipn_length in E; cbn [List.length] in E; lia). rewrite sub_at_end by (auto using range_min). reflexivity.
    - assert (Lp : pos + 13 + length ws + length r = length t). { apply (f_equal (@List.length ch)) in E. rewrite skipn_length, !app_length in E. change (length (lit "\bibrangedash")) with 13 in E. lia. }
      rewrite sub_at_step by (auto using range_min; lia). rewrite (range_blank t pos ws r E B N W). cbn [m_end]. f_equal. apply IH; [lia|]. replace (pos + 13 + length ws) with (pos + 13 + length ws) by lia. apply skipn_more in E. apply skipn_more in E. exact E.
    - assert (Lp : pos + 13 + length r = length t). { apply (f_equal (@List.length ch)) in E. rewrite skipn_length, !app_length in E. change (length (lit "\bibrangedash")) with 13 in E. lia. }
      rewrite sub_at_step by (auto using range_min; lia). rewrite (range_dash t pos r E W H). cbn [m_end]. f_equal. apply IH; [lia|]. apply skipn_more in E. exact E.
    - assert (Lp : pos < length t). { apply (f_equal (@List.length ch)) in E. rewrite skipn_length in E. cbn [List.length] in E. lia. }
      rewrite sub_at_step by (auto using range_min). rewrite (range_none t pos x r E Hx).
      assert (Sl : slice pos (S pos) t = [x]) by (unfold slice; rewrite E; replace (S pos - pos) with 1 by lia; reflexivity). rewrite Sl. cbn [List.app]. f_equal. apply IH; [lia|exact (skipn_more1 t pos x r E)]. }
  apply (Go s out D); [lia|reflexivity].
Qed.
Lemma replacements_ok : forall raw text, expanded isword raw text -> apply_pattern_replacements isword raw = text.
Proof. intros raw text (mid & A & B). unfold apply_pattern_replacements. rewrite (period_sub _ _ A). apply range_sub. exact B. Qed.
End Replace.
