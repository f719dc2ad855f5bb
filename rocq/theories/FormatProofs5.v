(** Formatted numbers (C101). *)
From Coq Require Import List NArith PeanoNat Lia Bool String.
From Verif Require Import PyStr Regex RegexLemmas RegexHead RegexAbs DelimSpec DelimFinal Json TexUtilsModel StyleModel StyleSpec CommandSpec FormatModel FormatSpec FormatProofs FormatProofs2 FormatProofs3 FormatProofs4.
Import ListNotations. Notation length := List.length. Notation concat := List.concat. Open Scope list_scope.

Section P.
Variable u : ch -> bool.
Variable quantize : str -> str -> option str.
Definition NTAIL : re := RSeq sp (RSeq (rstr (lit "{")) (RSeq (RGrp 2 (rstar no_rb)) (rstr (lit "}")))).
Lemma ntail_fm : forall t i c ws n rest, blank ws -> ~ In c_rb n -> skipn i t = ws ++ [c_lb] ++ n ++ [c_rb] ++ rest ->
  first_match NTAIL t i c (i + length ws + 1 + length n + 1) ((2, (i + length ws + 1, i + length ws + 1 + length n)) :: c).
Proof.
  intros t i c ws n rest B N E. unfold NTAIL. pose proof (RegexHead.skipn_more _ _ _ _ E) as E1. pose proof (RegexHead.skipn_more _ _ _ _ E1) as E2. change (length [c_lb]) with 1 in E2. pose proof (RegexHead.skipn_more _ _ _ _ E2) as E3.
  eapply fm_seq; [apply (fm_star isspace t i c ws ([c_lb] ++ n ++ [c_rb] ++ rest) E B); reflexivity|].
  eapply fm_seq; [apply (fm_rstr (lit "{") t _ c (n ++ [c_rb] ++ rest)); exact E1|]. change (length (lit "{")) with 1.
  eapply fm_seq; [apply fm_grp; apply (fm_star (fun x => negb (N.eqb x c_rb)) t _ c n ([c_rb] ++ rest) E2 (no_rb_all n N)); reflexivity|].
  apply (fm_rstr (lit "}") t _ _ rest). exact E3.
Qed.
Lemma num_plain : forall ws n rest, blank ws -> ~ In c_rb n -> exists m, re_match_at P_number (lit "\num" ++ ws ++ [c_lb] ++ n ++ [c_rb] ++ rest) 0 = Some m /\
  m_end m = 4 + length ws + 1 + length n + 1 /\ m_caps m = [(2, (4 + length ws + 1, 4 + length ws + 1 + length n))].
Proof.
  intros ws n rest B N. set (t := lit "\num" ++ ws ++ [c_lb] ++ n ++ [c_rb] ++ rest). eexists. split; [apply fm_match|split; reflexivity].
  unfold P_number. cbn [rseq]. eapply fm_seq; [apply (fm_rstr (lit "\num") t 0 [] (ws ++ [c_lb] ++ n ++ [c_rb] ++ rest)); reflexivity|]. change (0 + length (lit "\num")) with 4.
  eapply fm_seq; [apply fm_alt_right; [|apply fm_eps]|].
  - apply rm_seq_none. rewrite rm_rstr. change (skipn 4 t) with (ws ++ [c_lb] ++ n ++ [c_rb] ++ rest). destruct (startswith (ws ++ [c_lb] ++ n ++ [c_rb] ++ rest) (lit "[")) eqn:S; [|reflexivity]. apply startswith_spec in S as (q & Eq). exfalso. destruct ws as [|x ws]; cbn in Eq; [discriminate|]. injection Eq as -> _. discriminate B.
  - apply (ntail_fm t 4 [] ws n rest B N). reflexivity.
Qed.
Lemma num_option : forall o ws n rest, ~ In c_rk o -> blank ws -> ~ In c_rb n -> exists m, re_match_at P_number (lit "\num" ++ [c_lk] ++ o ++ [c_rk] ++ ws ++ [c_lb] ++ n ++ [c_rb] ++ rest) 0 = Some m /\
  m_end m = 5 + length o + 1 + length ws + 1 + length n + 1 /\ m_caps m = [(2, (5 + length o + 1 + length ws + 1, 5 + length o + 1 + length ws + 1 + length n)); (1, (5, 5 + length o))].
Proof.
  intros o ws n rest No B N. set (q := ws ++ [c_lb] ++ n ++ [c_rb] ++ rest). set (t := lit "\num" ++ [c_lk] ++ o ++ [c_rk] ++ q). eexists. split; [apply fm_match|split; reflexivity].
  assert (E2 : skipn 5 t = o ++ [c_rk] ++ q) by reflexivity. pose proof (RegexHead.skipn_more _ _ _ _ E2) as E3. pose proof (RegexHead.skipn_more _ _ _ _ E3) as E4. change (length [c_rk]) with 1 in E4.
  unfold P_number. cbn [rseq]. eapply fm_seq; [apply (fm_rstr (lit "\num") t 0 [] ([c_lk] ++ o ++ [c_rk] ++ q)); reflexivity|]. change (0 + length (lit "\num")) with 4.
  eapply fm_seq; [apply fm_alt_left|].
  - eapply fm_seq; [apply (fm_rstr (lit "[") t 4 [] (o ++ [c_rk] ++ q)); reflexivity|]. change (4 + length (lit "[")) with 5.
    eapply fm_seq; [apply fm_grp; apply (fm_star (fun x => negb (N.eqb x c_rk)) t 5 [] o ([c_rk] ++ q) E2); [|reflexivity]|].
    + apply forallb_forall. intros x I. destruct (N.eqb_spec x c_rk) as [->|_]; [contradiction|reflexivity].
    + apply (fm_rstr (lit "]") t _ _ q). exact E3.
  - change (length (lit "]")) with 1. exact (ntail_fm t (5 + length o + 1) _ ws n rest B N E4).
Qed.
Lemma slice_mid : forall (a b c : str) i j, i = length a -> j = length a + length b -> slice i j (a ++ b ++ c) = b.
Proof. intros a b c i j -> ->. unfold slice. rewrite skipn_app_exact by reflexivity. apply firstn_app_exact. lia. Qed.
Lemma group_mid : forall (t a b c : str) m g i j, t = a ++ b ++ c -> cap_get g (m_caps m) = Some (i, j) -> g <> 0 -> i = length a -> j = length a + length b -> m_group t g m = Some b.
Proof. intros t a b c m g i j -> C G Hi Hj. unfold m_group, m_span. destruct g as [|g]; [congruence|]. cbn [Nat.eqb]. rewrite C. cbn [option_map]. f_equal. apply slice_mid; assumption. Qed.
Lemma num_apart : apart u "num" (TABLE u) "number" = true.
Proof. vm_compute. reflexivity. Qed.
Lemma num_after : exists T', after (TABLE u) "number" = ("number"%string, (P_number, ANumber)) :: T'.
Proof. eexists. reflexivity. Qed.
Lemma handle_num : forall rest m prev, (forall x r, rest = x :: r -> name_b x = false) -> re_match_at P_number (lit "\num" ++ rest) 0 = Some m -> fmt_handle u quantize [] prev (lit "\num" ++ rest) = act quantize (lit "\num" ++ rest) prev ANumber m.
Proof.
  intros rest m prev H M. change (lit "\num" ++ rest) with ((lit "\" ++ lit "num") ++ rest) in *. unfold fmt_handle. rewrite (apart_ok u quantize "num" "number" rest prev (TABLE u) H (fun e I => I) num_apart). destruct num_after as (T' & E). rewrite E. cbn [try_table existsb]. rewrite M. reflexivity.
Qed.
Theorem num_plain_ok : forall ws n rest prev, blank ws -> ~ In c_rb n ->
  fmt_handle u quantize [] prev (lit "\num" ++ ws ++ [c_lb] ++ n ++ [c_rb] ++ rest) = Ok (Some (text_token n), length (lit "\num" ++ ws ++ [c_lb] ++ n ++ [c_rb]), prev).
Proof.
  intros ws n rest prev B N. destruct (num_plain ws n rest B N) as (m & M & El & Ec). rewrite (handle_num (ws ++ [c_lb] ++ n ++ [c_rb] ++ rest) m prev (fun x r => gap_no_name ws (n ++ [c_rb] ++ rest) x r B) M). unfold act. cbv zeta.
  assert (G2 : m_group (lit "\num" ++ ws ++ [c_lb] ++ n ++ [c_rb] ++ rest) 2 m = Some n).
  { apply (group_mid _ (lit "\num" ++ ws ++ [c_lb]) n ([c_rb] ++ rest) m 2 (4 + length ws + 1) (4 + length ws + 1 + length n)); [rewrite <- !app_assoc; reflexivity|rewrite Ec; reflexivity|discriminate| |]; rewrite !app_length; change (length (lit "\num")) with 4; cbn [List.length]; lia. }
  assert (G1 : m_group (lit "\num" ++ ws ++ [c_lb] ++ n ++ [c_rb] ++ rest) 1 m = None) by (unfold m_group, m_span; rewrite Ec; reflexivity).
  rewrite G1, G2, El. cbn [format_number]. rewrite !app_length. change (length (lit "\num")) with 4. cbn [List.length]. f_equal. f_equal. f_equal. lia.
Qed.
Theorem num_option_ok : forall o ws n rest prev, ~ In c_rk o -> blank ws -> ~ In c_rb n ->
  exists s, fmt_handle u quantize [] prev (lit "\num" ++ [c_lk] ++ o ++ [c_rk] ++ ws ++ [c_lb] ++ n ++ [c_rb] ++ rest) = Ok (Some (text_token s), length (lit "\num" ++ [c_lk] ++ o ++ [c_rk] ++ ws ++ [c_lb] ++ n ++ [c_rb]), prev) /\
    (s = n \/ exists a d b, o = a ++ lit "round-precision=" ++ d ++ b /\ d <> [] /\ Forall digit d /\ quantize n d = Some s).
Proof.
  intros o ws n rest prev No B N. destruct (num_option o ws n rest No B N) as (m & M & El & Ec). set (t := lit "\num" ++ [c_lk] ++ o ++ [c_rk] ++ ws ++ [c_lb] ++ n ++ [c_rb] ++ rest) in *.
  assert (Hh : fmt_handle u quantize [] prev t = act quantize t prev ANumber m) by (apply (handle_num ([c_lk] ++ o ++ [c_rk] ++ ws ++ [c_lb] ++ n ++ [c_rb] ++ rest) m prev); [intros x r E; injection E as <- _; reflexivity|exact M]). rewrite Hh. unfold act. cbv zeta.
  assert (G2 : m_group t 2 m = Some n).
  { apply (group_mid _ (lit "\num" ++ [c_lk] ++ o ++ [c_rk] ++ ws ++ [c_lb]) n ([c_rb] ++ rest) m 2 (5 + length o + 1 + length ws + 1) (5 + length o + 1 + length ws + 1 + length n)); [unfold t; rewrite <- !app_assoc; reflexivity|rewrite Ec; reflexivity|discriminate| |]; rewrite !app_length; change (length (lit "\num")) with 4; cbn [List.length]; lia. }
  assert (G1 : m_group t 1 m = Some o).
  { apply (group_mid _ (lit "\num" ++ [c_lk]) o ([c_rk] ++ ws ++ [c_lb] ++ n ++ [c_rb] ++ rest) m 1 5 (5 + length o)); [unfold t; rewrite <- !app_assoc; reflexivity|rewrite Ec; reflexivity|discriminate|reflexivity|reflexivity]. }
  rewrite G1, G2, El. exists (format_number quantize n (Some o)). split.
  - f_equal. f_equal. f_equal. rewrite !app_length. change (length (lit "\num")) with 4. cbn [List.length]. lia.
  - unfold format_number. destruct o as [|x o']; [left; reflexivity|]. set (o := x :: o') in *. destruct (re_search P_precision o) as [m2|] eqn:S; [|left; reflexivity]. unfold re_search in S. apply re_search_some in S as (L0 & L1' & _ & M2 & _). assert (L1 : m_start m2 <= length o) by lia. clear L0 L1'.
    destruct (m_group o 1 m2) as [p|] eqn:G; [|left; reflexivity]. destruct (quantize n p) as [r|] eqn:Q; [|left; reflexivity]. right.
    set (k := m_start m2) in *. destruct (re_match_at_some _ _ _ _ L1 M2) as (_ & R & _). unfold P_precision in R. apply rel_rseq2 in R as (j & R1 & R2). apply rel_rstr in R1 as (-> & q & E). apply rel_grp1 in R2. change (length (lit "round-precision=")) with 16 in R2.
    unfold rplus in R2. apply rel_rseq2 in R2 as (j & R2 & R3). apply LegacyProofs5.chr_inv in R2 as (-> & y & Ey & Fy). apply rel_star_chr in R3 as (ds & q2 & E3 & F3 & Ej).
    assert (Eq : q = y :: ds ++ q2). { rewrite nth_error_skipn in Ey. rewrite <- skipn_add, E in Ey. change 16 with (length (lit "round-precision=")) in Ey. rewrite skipn_app_exact in Ey by reflexivity. destruct q as [|z q]; [discriminate|]. injection Ey as ->. f_equal.
      rewrite <- E3. replace (S (k + 16)) with (k + 17) by lia. rewrite <- skipn_add, E. reflexivity. }
    (* the longest run of digits is taken *)
    assert (Eo : exists a, o = a ++ lit "round-precision=" ++ q) by (exists (firstn k o); rewrite <- E; symmetry; apply firstn_skipn). destruct Eo as (a & Eo).
    assert (Hp : exists d b, q = d ++ b /\ d <> [] /\ forallb isdigit d = true /\ p = d).
    { clear - M2 G E Eq L1 Fy. clearbody k. set (d := y :: firstn (runlen isdigit (ds ++ q2)) (ds ++ q2)). set (b := skipn (runlen isdigit (ds ++ q2)) (ds ++ q2)).
      assert (Fd : forallb isdigit (firstn (runlen isdigit (ds ++ q2)) (ds ++ q2)) = true /\ (match b with z :: _ => isdigit z | [] => false end) = false).
      { subst b. generalize (ds ++ q2) as l. induction l as [|z l [IH1 IH2]]; [split; reflexivity|]. cbn [runlen]. destruct (isdigit z) eqn:Ez; [cbn [firstn skipn forallb]; rewrite Ez; split; assumption|split; [reflexivity|exact Ez]]. }
      assert (Eb : q = d ++ b) by (rewrite Eq; unfold d, b; cbn [List.app]; f_equal; symmetry; apply firstn_skipn). destruct Fd as (Fd & Fb).
      assert (Dd : forallb isdigit d = true) by (unfold d; cbn [forallb]; rewrite Fy; exact Fd).
      assert (Fm : first_match P_precision o k [] (k + 16 + length d) [(1, (k + 16, k + 16 + length d))]).
      { unfold P_precision. eapply fm_seq; [apply (fm_rstr (lit "round-precision=") o k [] q); exact E|]. change (length (lit "round-precision=")) with 16. apply fm_grp. apply (fm_plus isdigit o (k + 16) [] d b); [|discriminate|exact Dd|exact Fb]. rewrite <- skipn_add, E, Eb. reflexivity. }
      apply fm_match in Fm. rewrite Fm in M2. injection M2 as M2. rewrite <- M2 in G. exists d, b. split; [exact Eb|]. split; [discriminate|]. split; [exact Dd|].
      unfold m_group, m_span in G. cbn [m_caps cap_get Nat.eqb option_map] in G. unfold slice in G. injection G as <-. rewrite <- skipn_add, E, Eb. replace (skipn 16 (lit "round-precision=" ++ d ++ b)) with (d ++ b) by reflexivity. apply firstn_app_exact. unfold d. cbn [List.length]. lia. }
    destruct Hp as (d & b & -> & Nd & Fd & ->). exists a, d, b. split; [exact Eo|]. split; [exact Nd|]. split; [|exact Q]. apply Forall_forall. intros z I. rewrite forallb_forall in Fd. specialize (Fd z I). unfold isdigit, in_range in Fd. apply andb_prop in Fd as [D1 D2]. apply N.leb_le in D1, D2. split; assumption.
Qed.
End P.
