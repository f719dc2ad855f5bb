(** C97. *)
From Coq Require Import List NArith PeanoNat Lia Bool String Compare_dec.
From Verif Require LegacyProofs5 StyleProofs3 BibitemSpec.
From Verif Require Import PyStr Regex RegexLemmas RegexHead RegexLocal DelimSpec DelimProofs DelimFinal Json TexUtilsModel CommandSpec ItemSpec EqProofs ContentModel ContentProofs CommandProofs3 AuthorModel AuthorSpec.
Import ListNotations. Notation length := List.length. Notation concat := List.concat. Open Scope list_scope.
Lemma skipn_more : forall (t : str) i a r, skipn i t = a ++ r -> skipn (i + length a) t = r.
Proof. intros t i a r H. rewrite <- skipn_add, H. apply skipn_app_exact. reflexivity. Qed.
Lemma skipn_more1 : forall (t : str) i x r, skipn i t = x :: r -> skipn (S i) t = r.
Proof. intros t i x r H. replace (S i) with (i + length [x]) by (cbn; lia). apply skipn_more. exact H. Qed.

(** * Splitting *)
Section Split.
Variable w : ch -> bool.
Hypothesis Hw : w 100%N = true /\ w 68%N = true.
Notation AND := (AND_PATTERN w).
Lemma and_ci : forall s, ci_prefix (lit "\and") s = true <-> exists a r, and_word a /\ s = a ++ r.
Proof.
  intros s. split.
  - intros H. destruct s as [|b [|x [|y [|z r]]]]; try (cbn in H; repeat rewrite ?andb_false_r in H; discriminate).
    change (lit "\and") with [92; 97; 110; 100]%N in H. cbn [ci_prefix] in H. apply andb_prop in H as [H0 H]. apply andb_prop in H as [H1 H]. apply andb_prop in H as [H2 H]. apply andb_prop in H as [H3 _]. exists [b; x; y; z], r. split; [|reflexivity].
    assert (b = c_bs) by (unfold ci in H0; cbn [in_range andb orb N.eqb Pos.eqb N.leb N.compare Pos.compare Pos.compare_cont] in H0; change (in_range 97 122 92) with false in H0; cbn [andb] in H0; repeat rewrite orb_false_r in H0; apply N.eqb_eq in H0; symmetry; exact H0). subst b.
    assert (Ci : forall k v, ci k v = true -> in_range 97 122 k = true -> (N.eqb k 105 || N.eqb k 115 || N.eqb k 107) = false -> v = k \/ v = (k - 32)%N).
    { intros k v Hk Hr Hn. apply orb_false_elim in Hn as [Hn N3]. apply orb_false_elim in Hn as [N1 N2]. unfold ci in Hk. rewrite Hr, N1, N2, N3 in Hk. cbn [andb] in Hk. repeat rewrite orb_false_r in Hk. apply orb_prop in Hk as [Hk|Hk]; apply N.eqb_eq in Hk; auto. }
    exists x, y, z. repeat split; [exact (Ci 97%N x H1 eq_refl eq_refl)|exact (Ci 110%N y H2 eq_refl eq_refl)|exact (Ci 100%N z H3 eq_refl eq_refl)].
  - intros (a & r & (x & y & z & Hx & Hy & Hz & ->) & ->). destruct Hx as [-> | ->], Hy as [-> | ->], Hz as [-> | ->]; reflexivity.
Qed.
Lemma and_min : 0 < minlen AND. Proof. cbn. lia. Qed.
Lemma and_match : forall t i a r, and_word a -> skipn i t = a ++ r -> starts_with w r = false -> re_match_at AND t i = Some {| m_start := i; m_end := i + 4; m_caps := [] |}.
Proof.
  intros t i a r A E Hr. apply fm_match. assert (La : length a = 4) by (destruct A as (? & ? & ? & _ & _ & _ & ->); reflexivity).
  eapply fm_seq; [exists []; rewrite rm_rci, E; rewrite (proj2 (and_ci (a ++ r))) by eauto; reflexivity|].
  exists []. cbn [rm]. change (length (lit "\and")) with 4. assert (P : prev_is w t (i + 4) = true).
  { destruct A as (x & y & z & _ & _ & Hz & ->). replace (i + 4) with (S (i + 3)) by lia. cbn [prev_is]. rewrite nth_error_skipn.
    change ([c_bs; x; y; z] ++ r) with ([c_bs; x; y] ++ z :: r) in E. assert (E3 : skipn (i + 3) t = z :: r) by (exact (skipn_more t i [c_bs; x; y] _ E)). rewrite E3. cbn. destruct Hz as [-> | ->]; apply Hw. }
  assert (N : next_is w t (i + 4) = false). { unfold next_is. rewrite nth_error_skipn. rewrite <- La, (skipn_more t i a r E). destruct r; [reflexivity|exact Hr]. }
  rewrite P, N. reflexivity.
Qed.
Lemma and_nomatch : forall t i s, skipn i t = s -> (forall a q, and_word a -> s = a ++ q -> starts_with w q = true) -> re_match_at AND t i = None.
Proof.
  intros t i s E H. unfold re_match_at, AND_PATTERN. cbn [rm]. rewrite rm_rci, E. destruct (ci_prefix (lit "\and") s) eqn:P; [|reflexivity].
  apply and_ci in P as (a & q & A & Es). specialize (H a q A Es). assert (La : length a = 4) by (destruct A as (? & ? & ? & _ & _ & _ & ->); reflexivity). cbn [flat_map fst snd]. change (length (lit "\and")) with 4. rewrite Es in E.
  assert (Pv : prev_is w t (i + 4) = true).
  { destruct A as (x & y & z & _ & _ & Hz & ->). replace (i + 4) with (S (i + 3)) by lia. cbn [prev_is]. rewrite nth_error_skipn.
    change ([c_bs; x; y; z] ++ q) with ([c_bs; x; y] ++ z :: q) in E. assert (E3 : skipn (i + 3) t = z :: q) by (exact (skipn_more t i [c_bs; x; y] _ E)). rewrite E3. cbn. destruct Hz as [-> | ->]; apply Hw. }
  assert (N : next_is w t (i + 4) = true). { unfold next_is. rewrite nth_error_skipn. rewrite <- La, (skipn_more t i a q E). destruct q; [discriminate|exact H]. }
  rewrite Pv, N. reflexivity.
Qed.
Definition iter := iter_at AND.
Lemma split_skip : forall t pos ms x r, skipn pos t = x :: r -> (forall m, In m ms -> S pos <= m_start m) ->
  split_at t pos ms = match split_at t (S pos) ms with p :: ps => (x :: p) :: ps | [] => [] end.
Proof.
  intros t pos ms x r E H. destruct ms as [|m ms]; cbn [split_at].
  - rewrite E, (skipn_more1 t pos x r E). reflexivity.
  - assert (L := H m (or_introl eq_refl)). f_equal. unfold slice. rewrite E, (skipn_more1 t pos x r E). replace (m_start m - pos) with (S (m_start m - S pos)) by lia. reflexivity.
Qed.
Lemma iter_starts : forall t n pos m, length t - pos <= n -> pos <= length t -> In m (iter_at AND t pos) -> pos <= m_start m.
Proof.
  intros t. induction n as [|n IH]; intros pos m Hn Hp I.
  - rewrite iter_at_end in I by (exact and_min || lia). destruct I.
  - destruct (le_lt_dec (length t) pos) as [G|G]; [rewrite iter_at_end in I by (exact and_min || lia); destruct I|].
    rewrite iter_at_step in I by (exact and_min || lia). destruct (re_match_at AND t pos) as [m0|] eqn:M.
    + assert (S0 : m_start m0 = pos /\ pos < m_end m0 /\ m_end m0 <= length t).
      { unfold re_match_at in M. destruct (rm AND t pos []) as [|(j, c) l] eqn:Er; [discriminate|]. injection M as <-. cbn [m_start m_end]. split; [reflexivity|].
        assert (J : In (j, c) (rm AND t pos [])) by (rewrite Er; left; reflexivity). apply rm_sound in J; [|lia]. assert (B := rel_bounds _ _ _ _ J ltac:(lia)). assert (Mi := minlen_ok _ _ _ _ J). cbn in Mi. lia. }
      destruct I as [<-|I]; [lia|]. apply IH in I; lia.
    + apply IH in I; lia.
Qed.
Lemma split_parts : forall s ps, parts w s ps -> forall t pos, pos <= length t -> skipn pos t = s -> split_at t pos (iter_at AND t pos) = ps.
Proof.
  intros s ps H. induction H as [|a r ps A Hr H IH|x r p ps Hx H IH]; intros t pos L E.
  - assert (length t <= pos) by (apply (f_equal (@List.length ch)) in E; rewrite skipn_length in E; cbn [List.length] in E; lia). rewrite iter_at_end by (exact and_min || lia). cbn [split_at]. rewrite E. reflexivity.
  - assert (La : length a = 4) by (destruct A as (? & ? & ? & _ & _ & _ & ->); reflexivity).
    assert (Lp : pos + 4 <= length t). { apply (f_equal (@List.length ch)) in E. rewrite skipn_length, app_length, La in E. lia. }
    rewrite iter_at_step by (exact and_min || lia). rewrite (and_match t pos a r A E Hr). cbn [m_end split_at m_start]. rewrite (IH t (pos + 4) Lp); [|rewrite <- La; exact (skipn_more t pos a r E)].
    unfold slice. rewrite Nat.sub_diag. reflexivity.
  - assert (Lp : pos < length t). { apply (f_equal (@List.length ch)) in E. rewrite skipn_length in E. cbn [List.length] in E. lia. }
    rewrite iter_at_step by (exact and_min || lia). rewrite (and_nomatch t pos (x :: r) E Hx). rewrite (split_skip t pos _ x r E) by (intros m I; apply (iter_starts t (length t) (S pos) m); [lia|lia|exact I]).
    rewrite (IH t (S pos) Lp (skipn_more1 t pos x r E)). reflexivity.
Qed.
Lemma parts_total : forall n (s : str), length s <= n -> exists p ps, parts w s (p :: ps).
Proof.
  induction n as [|n IH]; intros s L; [destruct s; [exists [], []; constructor|cbn in L; lia]|].
  destruct s as [|x r]; [exists [], []; constructor|]. destruct (ci_prefix (lit "\and") (x :: r)) eqn:P.
  - apply and_ci in P as (a & q & A & E). assert (La : length a = 4) by (destruct A as (? & ? & ? & _ & _ & _ & ->); reflexivity). destruct (starts_with w q) eqn:Hq.
    + destruct (IH r) as (p & ps & H); [cbn in L; lia|]. exists (x :: p), ps. constructor; [|exact H]. intros a' q' A' E'. rewrite E in E'. assert (La' : length a' = 4) by (destruct A' as (? & ? & ? & _ & _ & _ & ->); reflexivity).
      apply (f_equal (skipn 4)) in E'. rewrite skipn_app_exact in E' by (symmetry; exact La). rewrite skipn_app_exact in E' by (symmetry; exact La'). congruence.
    + destruct (IH q) as (p & ps & H). { apply (f_equal (@List.length ch)) in E. rewrite app_length, La in E. cbn [List.length] in E, L. lia. } exists [], (p :: ps). rewrite E. constructor; assumption.
  - destruct (IH r) as (p & ps & H); [cbn in L; lia|]. exists (x :: p), ps. constructor; [|exact H]. intros a q A E. rewrite (proj2 (and_ci (x :: r))) in P by eauto. discriminate.
Qed.
Theorem split_exact : forall s ps, parts w s ps -> re_split AND s = ps.
Proof. intros s ps H. unfold re_split. change (re_finditer AND s) with (iter_at AND s 0). apply (split_parts s ps H); [lia|reflexivity]. Qed.
End Split.
Lemma shown_exact : forall ps l, shown ps l -> filter (fun p => negb (nilb p)) (map strip ps) = l.
Proof.
  intros ps l H. induction H as [|p ps l B H IH|p ps l B H IH]; [reflexivity| |]; cbn [map filter].
  - rewrite (proj2 (StyleProofs3.strip_nil_iff p) B). exact IH.
  - destruct (nilb (strip p)) eqn:E; [apply StyleProofs3.strip_nil_iff in E; contradiction|]. cbn [negb]. rewrite IH. reflexivity.
Qed.
Lemma parsed_exact : forall process ts l, parsed process ts l -> author_tokens process ts = Ok l.
Proof. intros process ts l H. induction H as [|t ts l E H IH|t ts v vs l E H IH]; [reflexivity| |]; cbn [author_tokens]; rewrite E; cbn [bind]; rewrite IH; reflexivity. Qed.

(** * The commands *)
Lemma rel_sp_ch : forall t i j x, rel (RSeq sp (is_ch x)) t i j -> exists ws r, blank ws /\ skipn i t = ws ++ x :: r.
Proof.
  intros t i j x R. apply rel_rseq2 in R as (k & R1 & R). apply rel_star_chr in R1 as (ws & r & E & W & ->). apply rel_is_ch in R as (_ & q & E2). rewrite (skipn_more t i ws r E) in E2. subst r. exists ws, q. split; assumption.
Qed.
Lemma blank_apart : forall (a b p q : str) x y, x <> y -> isspace x = false -> isspace y = false -> blank a -> blank b -> a ++ x :: p = b ++ y :: q -> False.
Proof.
  induction a as [|u a IH]; intros [|v b] p q x y N X Y A B E; cbn in E; injection E as E1 E2.
  - congruence.
  - subst v. unfold blank in B. cbn in B. rewrite X in B. discriminate.
  - subst u. unfold blank in A. cbn in A. rewrite Y in A. discriminate.
  - unfold blank in A, B. cbn in A, B. apply andb_prop in A as [_ A]. apply andb_prop in B as [_ B]. exact (IH b p q x y N X Y A B E2).
Qed.
Lemma fm_sp_lb : forall t i c ws r, blank ws -> skipn i t = ws ++ c_lb :: r -> first_match (RSeq sp lbrace) t i c (S (i + length ws)) c.
Proof.
  intros t i c ws r W E. eapply fm_seq; [eapply (fm_star isspace _ _ _ ws); [exact E|exact W|reflexivity]|]. apply skipn_more in E. eapply fm_is_ch. exact E.
Qed.
(** where the group starts *)
Definition tail_re (may : bool) : re := if may then RSeq P_opt (RSeq sp lbrace) else RSeq sp lbrace.
Lemma fm_tail : forall may text body rest, argument may text body rest -> exists p, text = p ++ [c_lb] ++ body ++ [c_rb] ++ rest /\ good_body body /\
  forall t i c, skipn i t = text -> i <= length t -> exists c', first_match (tail_re may) t i c (i + length p + 1) c'.
Proof.
  intros may text body rest H. destruct H as [ws body rest W G|ws o ws2 body rest -> W W2 No G].
  - exists ws. split; [reflexivity|]. split; [exact G|]. intros t i c E L. exists c. replace (i + length ws + 1) with (S (i + length ws)) by lia. unfold tail_re. destruct may; [|eapply fm_sp_lb; [exact W|exact E]].
    eapply fm_seq; [|eapply fm_sp_lb; [exact W|exact E]]. unfold P_opt, ropt. apply fm_alt_right; [|apply fm_eps]. apply rm_none_rel; [exact L|]. intros j R. cbn [rseq] in R. apply rel_rseq2 in R as (k & R1 & R). apply rel_rseq2 in R as (k2 & R2 & _).
    destruct (rel_sp_ch t i k2 c_lk) as (ws' & r & W' & E'); [apply rel_rseq2; exists k; split; assumption|]. rewrite E in E'. cbn [List.app] in E'. symmetry in E'. exact (blank_apart _ _ _ _ c_lk c_lb ltac:(discriminate) eq_refl eq_refl W' W E').
  - exists (ws ++ [c_lk] ++ o ++ [c_rk] ++ ws2). split; [rewrite <- !app_assoc; reflexivity|]. split; [exact G|]. intros t i c E L. exists ((1, (S (i + length ws), S (i + length ws) + length o)) :: c). unfold tail_re.
    replace (i + length (ws ++ [c_lk] ++ o ++ [c_rk] ++ ws2) + 1) with (S (S (S (i + length ws) + length o) + length ws2)) by (rewrite !app_length; cbn [length]; lia).
    assert (E1 := skipn_more _ _ _ _ E). assert (E2 := skipn_more1 _ _ _ _ E1). assert (E3 := skipn_more _ _ _ _ E2). assert (E4 := skipn_more1 _ _ _ _ E3).
    eapply fm_seq; [|eapply fm_sp_lb; [exact W2|exact E4]]. unfold P_opt. apply fm_alt_left. cbn [rseq].
    eapply fm_seq; [eapply (fm_star isspace _ _ _ ws); [exact E|exact W|reflexivity]|]. eapply fm_seq; [eapply fm_is_ch; exact E1|]. unfold rany. eapply (fm_lazy_until 1 _ o c_rk); [exact E2|apply any_all|exact No].
Qed.
Section Handle.
Variable w : ch -> bool.
Variable process : str -> res (list val).
(** the first pattern that applies *)
Lemma first_exact : forall k cmd may s body rest, command k cmd may -> argument may s body rest ->
  exists p c, s = p ++ [c_lb] ++ body ++ [c_rb] ++ rest /\ good_body body /\ first_pattern w persons (cmd ++ s) = Some (k, {| m_start := 0; m_end := length cmd + length p + 1; m_caps := c |}).
Proof.
  intros k cmd may s body rest C A. destruct (fm_tail _ _ _ _ A) as (p & Es & G & F). exists p.
  assert (E : skipn (length cmd) (cmd ++ s) = s) by (apply skipn_app_exact; reflexivity). destruct (F (cmd ++ s) (length cmd) [] E ltac:(rewrite app_length; lia)) as (c & Fm). exists c. split; [exact Es|]. split; [exact G|].
  assert (Hit : re_match_at (person_pattern w k) (cmd ++ s) 0 = Some {| m_start := 0; m_end := length cmd + length p + 1; m_caps := c |}).
  { apply fm_match. destruct C; cbn [person_pattern]; unfold tail_re in Fm; try (eapply fm_seq; [eapply (fm_rci _ _ 0); reflexivity|exact Fm]).
    - eapply fm_seq; [eapply fm_is_ch; reflexivity|]. eapply fm_seq; [apply fm_alt_left; eapply (fm_rci (lit "affil") _ 1); reflexivity|exact Fm].
    - set (t := lit "\affiliation" ++ s) in *. eapply fm_seq; [eapply fm_is_ch; reflexivity|]. unfold first_match. cbn [rm]. rewrite flat_map_app.
      replace (flat_map _ (rm #"affil" t 1 [])) with (@nil (nat * caps)).
      + cbn [List.app]. rewrite rm_rci. change (ci_prefix (lit "affiliation") (skipn 1 t)) with true. cbn [flat_map fst snd]. rewrite app_nil_r. exact Fm.
      + symmetry. rewrite rm_rci. change (ci_prefix (lit "affil") (skipn 1 t)) with true. cbn [flat_map fst snd]. rewrite app_nil_r. change (rm (RSeq P_opt (RSeq sp lbrace)) t (1 + length (lit "affil")) [] = []).
        apply rm_none_rel; [unfold t; cbn; lia|]. intros j R.
        assert (Bad : forall ws x q, blank ws -> x <> 105%N -> skipn (1 + length (lit "affil")) t = ws ++ x :: q -> False).
        { intros ws x q W Nx Ex. change (skipn (1 + length (lit "affil")) t) with (lit "iation" ++ s) in Ex. destruct ws as [|u ws]; cbn in Ex; injection Ex as E1 E2; [congruence|]. subst u. discriminate W. }
        apply rel_rseq2 in R as (k & R1 & R). apply LegacyProofs5.rel_opt in R1 as [R1| ->].
        * cbn [rseq] in R1. apply rel_rseq2 in R1 as (k1 & R1 & R2). apply rel_rseq2 in R2 as (k2 & R2 & _). destruct (rel_sp_ch t (1 + length (lit "affil")) k2 c_lk) as (ws' & r & W' & E'); [apply rel_rseq2; exists k1; split; assumption|]. refine (Bad _ _ _ W' _ E'). discriminate.
        * destruct (rel_sp_ch t _ _ _ R) as (ws' & r & W' & E'). refine (Bad _ _ _ W' _ E'). discriminate. }
  assert (Miss : forall k', In k' persons -> k' <> k -> re_match_at (person_pattern w k') (cmd ++ s) 0 = None).
  { clear - C. intros k' I N. destruct C; destruct k'; try congruence; reflexivity. }
  unfold persons in *. cbn [first_pattern]. destruct C; repeat (rewrite Miss by (cbn; intuition discriminate)); rewrite Hit; reflexivity.
Qed.
Lemma group_here : forall (t : str) i body rest, skipn i t = [c_lb] ++ body ++ [c_rb] ++ rest -> good_body body -> extract_nested_content (skipn i t) c_lb c_rb = (Some body, length body + 2).
Proof.
  intros t i body rest E [G1 G2]. assert (Ga : group_at c_lb c_rb (skipn i t) body (length body + 2)) by (exists [], rest; split; [exact E|split; [reflexivity|split; [exact G1|split; [exact G2|cbn [List.length]; lia]]]]).
  apply (extract_nested_content_iff _ _ _ _ _ delims_curly) in Ga. exact Ga.
Qed.
Lemma handle_eq : forall k cmd may s body rest, command k cmd may -> argument may s body rest -> author_handle w process (cmd ++ s) =
  match k with
  | Thanks => Ok (Some (person_token k (VStr body)), length (cmd ++ s) - length rest)
  | Author => do l <- author_tokens process (author_content w body); Ok (Some (person_token k (VList l)), length (cmd ++ s) - length rest)
  | Curraddr => Ok (None, 0)
  | _ => do l <- process body; Ok (Some (person_token k (VList l)), length (cmd ++ s) - length rest)
  end.
Proof.
  intros k cmd may s body rest C A. destruct (first_exact _ _ _ _ _ _ C A) as (p & c & Es & G & F). unfold author_handle. rewrite F. cbn [m_end]. cbv zeta.
  assert (E : skipn (length cmd + length p) (cmd ++ s) = [c_lb] ++ body ++ [c_rb] ++ rest). { apply skipn_more. rewrite skipn_app_exact by reflexivity. exact Es. }
  replace (length cmd + length p + 1 - 1) with (length cmd + length p) by lia. rewrite (group_here _ _ _ _ E G).
  assert (L : length cmd + length p + (length body + 2) = length (cmd ++ s) - length rest). { rewrite Es, !app_length. cbn [length]. lia. }
  rewrite L. destruct C; reflexivity.
Qed.
Theorem author_exact : forall s body rest ps shown_ l, w 100%N = true -> w 68%N = true -> argument true s body rest -> parts w body ps -> shown ps shown_ -> parsed process shown_ l ->
  author_handle w process (lit "\author" ++ s) = Ok (Some (VDict [(lit "type", VStr (lit "author")); (lit "content", VList l)]), length (lit "\author" ++ s) - length rest).
Proof.
  intros s body rest ps sh l W1 W2 A P S D. rewrite (handle_eq _ _ _ _ _ _ co_author A). unfold author_content. rewrite (split_exact w (conj W1 W2) _ _ P), (shown_exact _ _ S), (parsed_exact _ _ _ D). reflexivity.
Qed.
Theorem field_exact : forall k cmd may s body rest l, command k cmd may -> k = Email \/ k = Affiliation \/ k = Address -> argument may s body rest -> process body = Ok l ->
  author_handle w process (cmd ++ s) = Ok (Some (VDict [(lit "type", VStr (match k with Email => lit "email" | Affiliation => lit "affiliation" | _ => lit "address" end)); (lit "content", VList l)]), length (cmd ++ s) - length rest).
Proof. intros k cmd may s body rest l C K A P. rewrite (handle_eq _ _ _ _ _ _ C A). destruct K as [-> |[-> | ->]]; rewrite P; reflexivity. Qed.
Theorem thanks_exact : forall s body rest, argument false s body rest ->
  author_handle w process (lit "\thanks" ++ s) = Ok (Some (VDict [(lit "type", VStr (lit "footnote")); (lit "content", VStr body)]), length (lit "\thanks" ++ s) - length rest).
Proof. intros s body rest A. rewrite (handle_eq _ _ _ _ _ _ co_thanks A). reflexivity. Qed.
(** an author command that is not closed *)
Theorem author_unclosed : forall ws s, blank ws -> (forall b n, ~ group_at c_lb c_rb (c_lb :: s) b n) -> author_handle w process (lit "\author" ++ ws ++ c_lb :: s) = Raise TypeError.
Proof.
  intros ws s W N. set (t := lit "\author" ++ ws ++ c_lb :: s). assert (E : skipn 7 t = ws ++ c_lb :: s) by reflexivity.
  assert (M : re_match_at (person_pattern w Author) t 0 = Some {| m_start := 0; m_end := S (7 + length ws); m_caps := [] |}).
  { apply fm_match. cbn [person_pattern]. eapply fm_seq; [eapply (fm_rci _ _ 0); reflexivity|]. eapply fm_seq; [|eapply fm_sp_lb; [exact W|exact E]]. unfold P_opt, ropt. apply fm_alt_right; [|apply fm_eps]. apply rm_none_rel; [unfold t; rewrite app_length; cbn; lia|]. intros j R. cbn [rseq] in R. apply rel_rseq2 in R as (k & R1 & R). apply rel_rseq2 in R as (k2 & R2 & _).
    destruct (rel_sp_ch t 7 k2 c_lk) as (ws' & r & W' & E'); [apply rel_rseq2; exists k; split; assumption|]. rewrite E in E'. symmetry in E'. exact (blank_apart _ _ _ _ c_lk c_lb ltac:(discriminate) eq_refl eq_refl W' W E'). }
  unfold author_handle, persons. cbn [first_pattern]. rewrite M. cbn [m_end]. cbv zeta. replace (S (7 + length ws) - 1) with (7 + length ws) by lia. rewrite (skipn_more t 7 ws _ E).
  destruct (extract_nested_content (c_lb :: s) c_lb c_rb) as ([b|], n) eqn:X; [|reflexivity]. exfalso. apply (extract_nested_content_iff _ _ _ _ _ delims_curly) in X. exact (N _ _ X).
Qed.
End Handle.
