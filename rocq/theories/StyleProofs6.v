(** C87: colours, columns, Roman numerals. *)
From Coq Require Import List NArith PeanoNat Lia Bool String.
From Verif Require Import PyStr Regex RegexLemmas RegexHead Json TexUtilsModel DelimSpec DelimProofs DelimFinal KeyvalProofs2 TextModel TextProofs RomanProofs BuilderModel ContentModel CommandModel BoxModel StyleModel StyleSpec StyleProofs StyleProofs2 StyleProofs3 StyleProofs5.
Import ListNotations. Notation length := List.length. Notation concat := List.concat. Open Scope list_scope.
Section H.
Variable w : ch -> bool.
Variable process : str -> res (list val).
Hypothesis Hw : w c_rk = false.
Lemma color_match : forall model s ws r, model_at w model s -> blank ws ->
  let t := lit "\textcolor" ++ s ++ ws ++ c_lb :: r in
  exists c, re_match_at (TEXTCOLOR_PATTERN w) t 0 = Some {| m_start := 0; m_end := S (length (lit "\textcolor" ++ s) + length ws); m_caps := c |} /\
  option_map (fun g => removelast (skipn 1 g)) (m_group t 1 {| m_start := 0; m_end := S (length (lit "\textcolor" ++ s) + length ws); m_caps := c |}) = model.
Proof.
  intros model s ws r M B t. destruct M as [|ws1 m B1 Nm Fm].
  - exists []. split; [|reflexivity]. apply fm_match. cbn [List.app] in t. rewrite app_nil_r. assert (S1 : skipn 10 t = ws ++ c_lb :: r) by reflexivity.
    assert (S2 : skipn (10 + length ws) t = c_lb :: r) by exact (skipn_more t 10 ws _ S1). unfold TEXTCOLOR_PATTERN. cbn [rseq].
    eapply fm_seq; [exact (fm_rstr (lit "\textcolor") t 0 [] (ws ++ c_lb :: r) eq_refl)|]. eapply fm_seq; [exact (fm_star isspace t 10 [] ws (c_lb :: r) S1 B eq_refl)|].
    eapply fm_seq. { apply fm_alt_right; [|apply fm_eps]. assert (Z : rm (RSeq (is_ch c_lk) (RSeq (rplus (RChr w)) (is_ch c_rk))) t (10 + length ws) [] = []) by (apply rm_seq_none; unfold is_ch; apply rm_chr_none; rewrite S2; reflexivity).
      exact (f_equal (map (fun jc => (fst jc, (1, (10 + length ws, fst jc)) :: snd jc))) Z). }
    eapply fm_seq; [exact (fm_star isspace t (10 + length ws) [] [] (c_lb :: r) S2 eq_refl eq_refl)|]. cbn [length]. rewrite Nat.add_0_r.
    exact (fm_is_ch c_lb t (10 + length ws) [] r S2).
  - assert (E : t = lit "\textcolor" ++ ws1 ++ c_lk :: m ++ c_rk :: ws ++ c_lb :: r) by (unfold t; rewrite <- !app_assoc; reflexivity).
    assert (S1 : skipn 10 t = ws1 ++ c_lk :: m ++ c_rk :: ws ++ c_lb :: r) by (rewrite E; reflexivity).
    pose (p := 10 + length ws1). assert (S2 : skipn p t = c_lk :: m ++ c_rk :: ws ++ c_lb :: r) by exact (skipn_more t 10 ws1 _ S1).
    assert (S3 := skipn_more1 t p _ _ S2). assert (S4 : skipn (S p + length m) t = c_rk :: ws ++ c_lb :: r) by exact (skipn_more t (S p) m _ S3).
    assert (S5 := skipn_more1 t _ _ _ S4). assert (S6 : skipn (S (S p + length m) + length ws) t = c_lb :: r) by exact (skipn_more t _ ws _ S5).
    pose (c := [(1, (p, S (S p + length m)))] : caps). exists c.
    assert (Len : S (length (lit "\textcolor" ++ ws1 ++ [c_lk] ++ m ++ [c_rk]) + length ws) = S (S (S p + length m) + length ws)).
    { unfold p. rewrite !app_length. cbn [length]. change (length (lit "\textcolor")) with 10. lia. }
    rewrite Len. split.
    + apply fm_match. unfold TEXTCOLOR_PATTERN. cbn [rseq].
      eapply fm_seq; [apply (fm_rstr (lit "\textcolor") t 0 [] (ws1 ++ c_lk :: m ++ c_rk :: ws ++ c_lb :: r)); exact E|]. change (0 + length (lit "\textcolor")) with 10.
      eapply fm_seq; [exact (fm_star isspace t 10 [] ws1 _ S1 B1 eq_refl)|]. fold p.
      eapply fm_seq. { apply fm_alt_left. apply (fm_grp 1 _ t p [] (S (S p + length m)) []). eapply fm_seq; [exact (fm_is_ch c_lk t p [] _ S2)|].
        eapply fm_seq; [exact (fm_plus w t (S p) [] m _ S3 Nm Fm Hw)|]. exact (fm_is_ch c_rk t _ [] _ S4). }
      eapply fm_seq; [exact (fm_star isspace t _ c ws _ S5 B eq_refl)|]. exact (fm_is_ch c_lb t _ c r S6).
    + unfold m_group. cbn [m_caps]. unfold c. cbn [cap_get Nat.eqb option_map]. f_equal. unfold slice. rewrite S2. replace (S (S p + length m) - p) with (length (c_lk :: m ++ [c_rk])) by (cbn [length]; rewrite app_length; cbn [length]; lia).
      replace (c_lk :: m ++ c_rk :: ws ++ c_lb :: r) with ((c_lk :: m ++ [c_rk]) ++ ws ++ c_lb :: r) by (cbn; rewrite <- app_assoc; reflexivity).
      rewrite firstn_app, Nat.sub_diag, firstn_all. cbn [firstn]. rewrite app_nil_r. cbn [skipn]. apply removelast_last.
Qed.
Lemma color_ok : forall model s rest name b n l d old st, model_at w model s -> groups_at c_lb c_rb rest [name; b] n ->
  process b = Ok l -> as_one l d -> has_styles d old -> firsts [] (color_style model (strip name) :: old) st ->
  handle w process (lit "\textcolor" ++ s ++ rest) = Ok (styled_with st d, 10 + length s + n).
Proof.
  intros model s rest name b n l d old st M G P A Hs F. destruct (groups_open _ _ _ _ _ _ G) as (ws & r & -> & B). destruct (groups_from c_lb c_rb ws r name [b] n eq_refl B G) as (m & Gm & ->).
  destruct (color_match model s ws r M B) as (c & T5 & Gc). cbv zeta in T5, Gc. pose (t := lit "\textcolor" ++ s ++ ws ++ c_lb :: r).
  unfold handle, PATTERNS. cbn [try_patterns].
  assert (T0 : re_match_at TEXT_PATTERN t 0 = None) by (vm_compute; reflexivity). unfold t in T0. rewrite T0.
  assert (T1 : re_match_at CITETEXT_PATTERN t 0 = None) by (vm_compute; reflexivity). unfold t in T1. rewrite T1.
  assert (T2 : re_match_at (FONTS_PATTERN w) t 0 = None) by (vm_compute; reflexivity). unfold t in T2. rewrite T2.
  assert (T3 : re_match_at FRAC_PATTERN t 0 = None) by (vm_compute; reflexivity). unfold t in T3. rewrite T3.
  assert (T4 : re_match_at TEXORPDF_PATTERN t 0 = None) by (vm_compute; reflexivity). unfold t in T4. rewrite T4. rewrite T5.
  unfold handle_color. cbn [m_end].
  assert (Sk := brace_skip (lit "\textcolor" ++ s) ws r c_lb). rewrite <- app_assoc in Sk. unfold str in *. rewrite Sk.
  assert (Bl := blocks_exact c_lb c_rb (c_lb :: r) [name; b] m delims_curly Gm). cbn [length] in Bl. rewrite Bl.
  rewrite P. cbn [bind]. rewrite (as_one_norm l d A). rewrite (styles_of_has d old Hs). cbn [bind].
  assert (C : (match m_group (lit "\textcolor" ++ s ++ ws ++ c_lb :: r) 1 {| m_start := 0; m_end := S (length (lit "\textcolor" ++ s) + length ws); m_caps := c |} with
                     | Some g => lit "{" ++ removelast (skipn 1 g) ++ lit ":" ++ strip name ++ lit "}" | None => strip name end) = match model with Some m => lit "{" ++ m ++ lit ":" ++ strip name ++ lit "}" | None => strip name end).
  { rewrite <- Gc. destruct (m_group _ 1 _); reflexivity. }
  unfold str in *. rewrite C. cbv zeta.
  pose proof (firsts_ok _ _ F) as Q. cbn [map] in Q. unfold color_style in Q. unfold str in *. rewrite Q. unfold styled_with. f_equal. f_equal.
  rewrite app_length. change (length (lit "\textcolor")) with 10. lia.
Qed.
Lemma twocolumn_ok : forall rest b n l d, group_at c_lk c_rk rest b n -> process b = Ok l -> as_one l d ->
  handle w process (lit "\twocolumn" ++ rest) = Ok (VDict d, 10 + n).
Proof.
  intros rest b n l d G P A. destruct (group_open _ _ _ _ _ G) as (ws & r & -> & B). destruct (group_from c_lk c_rk ws r b n eq_refl B G) as (m & Gm & ->).
  pose (t := lit "\twocolumn" ++ ws ++ c_lk :: r). unfold handle, PATTERNS. cbn [try_patterns].
  assert (T0 : re_match_at TEXT_PATTERN t 0 = None) by (vm_compute; reflexivity). unfold t in T0. rewrite T0.
  assert (T1 : re_match_at CITETEXT_PATTERN t 0 = None) by (vm_compute; reflexivity). unfold t in T1. rewrite T1.
  assert (T2 : re_match_at (FONTS_PATTERN w) t 0 = None) by (vm_compute; reflexivity). unfold t in T2. rewrite T2.
  assert (T3 : re_match_at FRAC_PATTERN t 0 = None) by (vm_compute; reflexivity). unfold t in T3. rewrite T3.
  assert (T4 : re_match_at TEXORPDF_PATTERN t 0 = None) by (vm_compute; reflexivity). unfold t in T4. rewrite T4.
  assert (T5 : re_match_at (TEXTCOLOR_PATTERN w) t 0 = None) by (vm_compute; reflexivity). unfold t in T5. rewrite T5.
  assert (T6 : re_match_at (COLUMNS_PATTERN w) t 0 = Some {| m_start := 0; m_end := S (10 + length ws); m_caps := [] |}).
  { apply fm_match. unfold COLUMNS_PATTERN. eapply fm_seq; [apply (fm_is_ch c_bs t 0 [] (lit "twocolumn" ++ ws ++ c_lk :: r)); reflexivity|].
    apply fm_alt_right; [vm_compute; reflexivity|]. cbn [rseq]. eapply fm_seq; [exact (fm_rstr (lit "twocolumn") t 1 [] (ws ++ c_lk :: r) eq_refl)|].
    assert (S1 : skipn 10 t = ws ++ c_lk :: r) by reflexivity. eapply fm_seq; [exact (fm_star isspace t 10 [] ws (c_lk :: r) S1 B eq_refl)|].
    apply fm_alt_left. exact (fm_is_ch c_lk t _ [] r (skipn_more t 10 ws _ S1)). }
  unfold t in T6. rewrite T6. unfold handle_columns.
  assert (G0 : m_group0 (lit "\twocolumn" ++ ws ++ c_lk :: r) {| m_start := 0; m_end := S (10 + length ws); m_caps := [] |} = (lit "\twocolumn" ++ ws) ++ [c_lk]).
  { unfold m_group0, slice. cbn [m_start m_end skipn]. replace (lit "\twocolumn" ++ ws ++ c_lk :: r) with (((lit "\twocolumn" ++ ws) ++ [c_lk]) ++ r) by (rewrite <- !app_assoc; reflexivity).
    replace (S (10 + length ws) - 0) with (length ((lit "\twocolumn" ++ ws) ++ [c_lk])) by (rewrite !app_length; cbn [length]; change (length (lit "\twocolumn")) with 10; lia).
    rewrite firstn_app, Nat.sub_diag, firstn_all. cbn [firstn]. apply app_nil_r. }
  rewrite G0, last_last, N.eqb_refl. cbn [m_end].
  assert (Sk := brace_skip (lit "\twocolumn") ws r c_lk). change (length (lit "\twocolumn")) with 10 in Sk. unfold str in *. rewrite Sk.
  assert (Dk : delims_ok c_lk c_rk) by (split; [discriminate|split; [reflexivity|split; discriminate]]).
  rewrite (proj2 (extract_nested_content_iff c_lk c_rk _ _ _ Dk) Gm). rewrite P. cbn [bind]. rewrite (as_one_norm l d A). repeat f_equal; lia.
Qed.
End H.
Section R.
Variable w : ch -> bool.
Variable process : str -> res (list val).
Lemma roman_ok : forall n ws rest, blank ws -> ws <> [] -> (forall x r, rest = x :: r -> isdigit x = false) ->
  handle w process (lit "\romannumeral" ++ ws ++ str_of_nat n ++ rest) = Ok (text_token (roman_numeral n), 13 + length ws + length (str_of_nat n)).
Proof.
  intros n ws rest B Nw Hr. pose (ds := str_of_nat n). pose (t := lit "\romannumeral" ++ ws ++ ds ++ rest).
  assert (Dig : forallb isdigit ds = true). { apply forallb_forall. intros x I. pose proof (str_of_nat_digits n) as D. rewrite forallb_forall in D. exact (D x I). }
  assert (Nd : ds <> []) by exact (str_of_nat_nonempty n).
  unfold handle, PATTERNS. cbn [try_patterns]. fold ds.
  assert (T0 : re_match_at TEXT_PATTERN t 0 = None) by (vm_compute; reflexivity). unfold t in T0. rewrite T0.
  assert (T1 : re_match_at CITETEXT_PATTERN t 0 = None) by (vm_compute; reflexivity). unfold t in T1. rewrite T1.
  assert (T2 : re_match_at (FONTS_PATTERN w) t 0 = None) by (vm_compute; reflexivity). unfold t in T2. rewrite T2.
  assert (T3 : re_match_at FRAC_PATTERN t 0 = None) by (vm_compute; reflexivity). unfold t in T3. rewrite T3.
  assert (T4 : re_match_at TEXORPDF_PATTERN t 0 = None) by (vm_compute; reflexivity). unfold t in T4. rewrite T4.
  assert (T5 : re_match_at (TEXTCOLOR_PATTERN w) t 0 = None) by (vm_compute; reflexivity). unfold t in T5. rewrite T5.
  assert (T6 : re_match_at (COLUMNS_PATTERN w) t 0 = None) by (vm_compute; reflexivity). unfold t in T6. rewrite T6.
  assert (T7 : re_match_at SUBFLOAT_PATTERN t 0 = None) by (vm_compute; reflexivity). unfold t in T7. rewrite T7.
  assert (S1 : skipn 13 t = ws ++ ds ++ rest) by reflexivity. assert (S2 : skipn (13 + length ws) t = ds ++ rest) by exact (skipn_more t 13 ws _ S1).
  assert (Hd : forall x, isdigit x = true -> isspace x = false).
  { intros x H. destruct (isspace x) eqn:E; [|reflexivity]. exfalso. unfold isdigit, in_range in H. unfold isspace, in_range in E.
    repeat rewrite Bool.orb_true_iff in *. repeat rewrite Bool.andb_true_iff in *. repeat rewrite N.leb_le in *. repeat rewrite N.eqb_eq in *. lia. }
  assert (T8 : re_match_at ROMAN_PATTERN t 0 = Some {| m_start := 0; m_end := 13 + length ws + length ds; m_caps := [(1, (13 + length ws, 13 + length ws + length ds))] |}).
  { apply fm_match. unfold ROMAN_PATTERN. cbn [rseq]. eapply fm_seq; [exact (fm_rstr (lit "\romannumeral") t 0 [] (ws ++ ds ++ rest) eq_refl)|].
    eapply fm_seq. { apply (fm_plus isspace t 13 [] ws (ds ++ rest) S1 Nw B). destruct ds as [|x ds']; [congruence|]. cbn [List.app]. apply Hd. cbn in Dig. apply andb_prop in Dig as [H _]. exact H. }
    apply (fm_grp 1). apply (fm_plus isdigit t (13 + length ws) [] ds rest S2 Nd Dig). destruct rest as [|x r]; [reflexivity|]. exact (Hr x r eq_refl). }
  unfold t in T8. rewrite T8. unfold handle_roman_numerals.
  assert (G : grp t 1 {| m_start := 0; m_end := 13 + length ws + length ds; m_caps := [(1, (13 + length ws, 13 + length ws + length ds))] |} = ds).
  { unfold grp, m_group. cbn [m_caps cap_get Nat.eqb option_map]. unfold slice. rewrite S2. replace (13 + length ws + length ds - (13 + length ws)) with (length ds) by lia. rewrite firstn_app, Nat.sub_diag, firstn_all. apply app_nil_r. }
  unfold t in G. unfold str in *. rewrite G. unfold ds. rewrite int_of_str_of_nat, roman_std. reflexivity.
Qed.
End R.
