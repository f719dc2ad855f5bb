(** C87: the other text commands. *)
From Coq Require Import List NArith PeanoNat Lia Bool String.
From Verif Require Import PyStr Regex RegexLemmas RegexHead Json TexUtilsModel DelimSpec DelimProofs DelimFinal KeyvalProofs2 TextModel TextProofs BuilderModel ContentModel CommandModel BoxModel StyleModel StyleSpec StyleProofs StyleProofs2 StyleProofs3.
Import ListNotations. Notation length := List.length. Notation concat := List.concat. Open Scope list_scope.

Lemma as_one_norm : forall l d, as_one l d -> normalize_text_token l = d.
Proof.
  intros l d H. destruct H as [d H|l H].
  - unfold normalize_text_token, get. unfold k_type. rewrite H. reflexivity.
  - unfold normalize_text_token. destruct l as [|v [|]]; try reflexivity; [|destruct v; reflexivity]. destruct v; try reflexivity.
    destruct (is_str (get k_type d) "text") eqn:E; [|reflexivity]. exfalso. unfold get, k_type in E. destruct (lookup (lit "type") d) as [v|] eqn:El; [|discriminate].
    unfold is_str in E. destruct v; try discriminate. apply str_eqb_spec in E. subst s. apply (H d eq_refl). exact El.
Qed.
Lemma group_open : forall o c rest b n, group_at o c rest b n -> exists ws r, rest = ws ++ o :: r /\ blank ws.
Proof. intros o c rest b n (ws & r & -> & B & _). eexists ws, _. split; [reflexivity|exact B]. Qed.
Lemma groups_open : forall o c rest b bs n, groups_at o c rest (b :: bs) n -> exists ws r, rest = ws ++ o :: r /\ blank ws.
Proof. intros o c rest b bs n H. inversion H as [|t b0 n0 bs0 m G R E1 E2 E3]. exact (group_open _ _ _ _ _ G). Qed.
(** the groups start at the brace *)
Lemma group_from : forall o c ws r b n, isspace o = false -> blank ws -> group_at o c (ws ++ o :: r) b n -> exists m, group_at o c (o :: r) b m /\ n = length ws + m.
Proof.
  intros o c ws r b n Ho Hw G. apply (group_at_lstrip o c _ b n Ho) in G as [L G]. rewrite nlead_ws_app in L, G by exact Hw. cbn [nlead] in L, G. rewrite Ho, Nat.add_0_r in L, G.
  rewrite skipn_app_exact in G by reflexivity. exists (n - length ws). split; [exact G|lia].
Qed.
Lemma groups_from : forall o c ws r b bs n, isspace o = false -> blank ws -> groups_at o c (ws ++ o :: r) (b :: bs) n -> exists m, groups_at o c (o :: r) (b :: bs) m /\ n = length ws + m.
Proof.
  intros o c ws r b bs n Ho Hw H. inversion H as [|t b0 n0 bs0 m G R E1 E2 E3]. subst. destruct (group_from o c ws r b n0 Ho Hw G) as (k & Gk & ->).
  exists (k + m). split; [|lia]. constructor; [exact Gk|]. rewrite <- skipn_add in R. rewrite skipn_app_exact in R by reflexivity. exact R.
Qed.
(** word, blanks, brace *)
Lemma word_brace : forall (word ws r : str) x k, blank ws -> isspace x = false -> forall t, t = word ++ ws ++ x :: r -> k = length word + length ws ->
  first_match (RSeq (rstr word) (RSeq (rstar rspace) (is_ch x))) t 0 [] (S k) [].
Proof.
  intros word ws r x k B Hx t E ->. eapply fm_seq; [apply (fm_rstr word t 0 [] (ws ++ x :: r)); exact E|]. cbn [plus].
  assert (S1 : skipn (length word) t = ws ++ x :: r) by (rewrite E; apply skipn_app_exact; reflexivity).
  eapply fm_seq; [apply (fm_star isspace t (length word) [] ws (x :: r) S1 B Hx)|]. apply (fm_is_ch x t _ [] r). exact (skipn_more t _ ws _ S1).
Qed.

Section H.
Variable w : ch -> bool.
Variable process : str -> res (list val).
Lemma brace_skip : forall (a ws r : str) x, skipn (S (length a + length ws) - 1) (a ++ ws ++ x :: r) = x :: r.
Proof. intros a ws r x. rewrite app_assoc. apply skipn_app_exact. rewrite app_length. lia. Qed.

Lemma citetext_ok : forall rest b n l, group_at c_lb c_rb rest b n -> process b = Ok l -> handle w process (lit "\citetext" ++ rest) = Ok (VList l, 9 + n).
Proof.
  intros rest b n l G P. destruct (group_open _ _ _ _ _ G) as (ws & r & -> & B). destruct (group_from c_lb c_rb ws r b n eq_refl B G) as (m & Gm & ->).
  unfold handle, PATTERNS. cbn [try_patterns].
  assert (T0 : re_match_at TEXT_PATTERN (lit "\citetext" ++ ws ++ c_lb :: r) 0 = None) by (vm_compute; reflexivity). rewrite T0.
  assert (T1 := fm_match _ _ 0 _ _ (word_brace (lit "\citetext") ws r c_lb _ B eq_refl _ eq_refl eq_refl)). unfold CITETEXT_PATTERN. change (rseq [nm "\citetext"; rstar rspace; is_ch c_lb]) with (RSeq (rstr (lit "\citetext")) (RSeq (rstar rspace) (is_ch c_lb))).
  rewrite T1. unfold handle_citetext. cbn [m_end]. rewrite brace_skip.
  assert (Bl := blocks_exact c_lb c_rb (c_lb :: r) [b] (m + 0) delims_curly). cbn [length] in Bl. rewrite Bl by (constructor; [exact Gm|constructor]).
  rewrite P. cbn [bind]. f_equal. f_equal. change (length (lit "\citetext")) with 9. lia.
Qed.

Lemma flatten_texts : forall l, flatten_all_to_string (VList (map text_token l)) = Ok (join [c_sp] l).
Proof.
  intros l. unfold flatten_all_to_string. cbn [flatten_token].
  assert (X : (fix go l := match l with [] => Ok [] | x :: r => do a <- flatten_token x; do b <- go r; Ok (a :: b) end) (map text_token l) = Ok l).
  { induction l as [|x l IH]; [reflexivity|]. cbn [map]. unfold text_token at 1. cbn [flatten_token bind]. change (str_eqb k_type k_content) with false. cbn [bind]. change (str_eqb k_content k_content) with true. cbn [bind]. rewrite IH. reflexivity. }
  rewrite X. reflexivity.
Qed.
Lemma frac_match : forall name ws r, In name [lit "frac"; lit "nicefrac"; lit "textfrac"] -> blank ws ->
  let t := [c_bs] ++ name ++ ws ++ c_lb :: r in
  re_match_at TEXT_PATTERN t 0 = None /\ re_match_at CITETEXT_PATTERN t 0 = None /\ re_match_at (FONTS_PATTERN w) t 0 = None /\
  re_match_at FRAC_PATTERN t 0 = Some {| m_start := 0; m_end := S (length ([c_bs] ++ name) + length ws); m_caps := [] |}.
Proof.
  intros name ws r I B t.
  assert (Tail : forall k, skipn k t = ws ++ c_lb :: r -> first_match (RSeq (rstar rspace) (is_ch c_lb)) t k [] (S (k + length ws)) []).
  { intros k E. eapply fm_seq; [exact (fm_star isspace t k [] ws (c_lb :: r) E B eq_refl)|]. apply (fm_is_ch c_lb t _ [] r). exact (skipn_more t k ws _ E). }
  assert (M : first_match FRAC_PATTERN t 0 [] (S (length ([c_bs] ++ name) + length ws)) []).
  { unfold FRAC_PATTERN. cbn [rseq]. eapply fm_seq; [apply (fm_is_ch c_bs t 0 [] (name ++ ws ++ c_lb :: r)); reflexivity|]. eapply fm_seq.
    - instantiate (1 := []). instantiate (1 := length ([c_bs] ++ name)). destruct I as [<-|[<-|[<-|[]]]]; eexists; vm_compute; reflexivity.
    - apply Tail. unfold t. rewrite app_assoc. apply skipn_app_exact. reflexivity. }
  split; [|split; [|split; [|exact (fm_match _ _ _ _ _ M)]]]; unfold t; destruct I as [<-|[<-|[<-|[]]]]; vm_compute; reflexivity.
Qed.
Lemma frac_ok : forall name rest a b n la lb, In name [lit "frac"; lit "nicefrac"; lit "textfrac"] -> groups_at c_lb c_rb rest [a; b] n ->
  process a = Ok (map text_token la) -> process b = Ok (map text_token lb) ->
  handle w process ([c_bs] ++ name ++ rest) = Ok (text_token (strip_latex_newlines (join [c_sp] la) ++ lit " / " ++ strip_latex_newlines (join [c_sp] lb)), length ([c_bs] ++ name) + n).
Proof.
  intros name rest a b n la lb I G Pa Pb. destruct (groups_open _ _ _ _ _ _ G) as (ws & r & -> & B). destruct (groups_from c_lb c_rb ws r a [b] n eq_refl B G) as (m & Gm & ->).
  destruct (frac_match name ws r I B) as (T0 & T1 & T2 & T3). cbv zeta in T0, T1, T2, T3. unfold handle, PATTERNS. cbn [try_patterns]. rewrite T0, T1, T2, T3. unfold handle_frac. cbn [m_end].
  assert (Sk := brace_skip ([c_bs] ++ name) ws r c_lb). rewrite <- app_assoc in Sk. unfold str in *. rewrite Sk.
  assert (Bl := blocks_exact c_lb c_rb (c_lb :: r) [a; b] m delims_curly Gm). cbn [length] in Bl. rewrite Bl.
  rewrite Pa. cbn [bind]. rewrite flatten_texts. cbn [bind]. rewrite Pb. cbn [bind]. rewrite flatten_texts. cbn [bind]. f_equal. f_equal. lia.
Qed.
Lemma texorpdf_ok : forall rest a b n l d, groups_at c_lb c_rb rest [a; b] n -> process b = Ok l -> as_one l d ->
  handle w process (lit "\texorpdfstring" ++ rest) = Ok (VDict d, 15 + n).
Proof.
  intros rest a b n l d G P A. destruct (groups_open _ _ _ _ _ _ G) as (ws & r & -> & B). destruct (groups_from c_lb c_rb ws r a [b] n eq_refl B G) as (m & Gm & ->).
  unfold handle, PATTERNS. cbn [try_patterns].
  assert (T0 : re_match_at TEXT_PATTERN (lit "\texorpdfstring" ++ ws ++ c_lb :: r) 0 = None) by (vm_compute; reflexivity). rewrite T0.
  assert (T1 : re_match_at CITETEXT_PATTERN (lit "\texorpdfstring" ++ ws ++ c_lb :: r) 0 = None) by (vm_compute; reflexivity). rewrite T1.
  assert (T2 : re_match_at (FONTS_PATTERN w) (lit "\texorpdfstring" ++ ws ++ c_lb :: r) 0 = None) by (vm_compute; reflexivity). rewrite T2.
  assert (T3 : re_match_at FRAC_PATTERN (lit "\texorpdfstring" ++ ws ++ c_lb :: r) 0 = None) by (vm_compute; reflexivity). rewrite T3.
  assert (T4 := fm_match _ _ 0 _ _ (word_brace (lit "\texorpdfstring") ws r c_lb _ B eq_refl _ eq_refl eq_refl)). unfold TEXORPDF_PATTERN. change (rseq [nm "\texorpdfstring"; rstar rspace; is_ch c_lb]) with (RSeq (rstr (lit "\texorpdfstring")) (RSeq (rstar rspace) (is_ch c_lb))).
  rewrite T4. unfold handle_texorpdfstring. cbn [m_end]. rewrite brace_skip.
  assert (Bl := blocks_exact c_lb c_rb (c_lb :: r) [a; b] m delims_curly Gm). cbn [length] in Bl. rewrite Bl.
  rewrite P. cbn [bind]. rewrite (as_one_norm l d A). change (length (lit "\texorpdfstring")) with 15. repeat f_equal; lia.
Qed.
Lemma subfloat_head : forall ws r, blank ws -> let t := lit "\subfloat" ++ ws ++ c_lk :: r in
  handle w process t = handle_subfloat process t {| m_start := 0; m_end := S (length (lit "\subfloat") + length ws); m_caps := [] |}.
Proof.
  intros ws r B t. unfold handle, PATTERNS. cbn [try_patterns].
  assert (T0 : re_match_at TEXT_PATTERN t 0 = None) by (vm_compute; reflexivity). rewrite T0.
  assert (T1 : re_match_at CITETEXT_PATTERN t 0 = None) by (vm_compute; reflexivity). rewrite T1.
  assert (T2 : re_match_at (FONTS_PATTERN w) t 0 = None) by (vm_compute; reflexivity). rewrite T2.
  assert (T3 : re_match_at FRAC_PATTERN t 0 = None) by (vm_compute; reflexivity). rewrite T3.
  assert (T4 : re_match_at TEXORPDF_PATTERN t 0 = None) by (vm_compute; reflexivity). rewrite T4.
  assert (T5 : re_match_at (TEXTCOLOR_PATTERN w) t 0 = None) by (vm_compute; reflexivity). rewrite T5.
  assert (T6 : re_match_at (COLUMNS_PATTERN w) t 0 = None) by (vm_compute; reflexivity). rewrite T6.
  assert (T7 := fm_match _ _ 0 _ _ (word_brace (lit "\subfloat") ws r c_lk _ B eq_refl t eq_refl eq_refl)). unfold SUBFLOAT_PATTERN. change (rseq [nm "\subfloat"; rstar rspace; is_ch c_lk]) with (RSeq (rstr (lit "\subfloat")) (RSeq (rstar rspace) (is_ch c_lk))).
  rewrite T7. reflexivity.
Qed.
Lemma subfloat_ok : forall rest cap n b m lc dc lb db, group_at c_lk c_rk rest cap n -> group_at c_lb c_rb (skipn n rest) b m -> b <> [] ->
  process (strip cap) = Ok lc -> as_one lc dc -> process b = Ok lb -> as_one lb db ->
  handle w process (lit "\subfloat" ++ rest) = Ok (group_of [caption_of dc; VDict db], 9 + n + m).
Proof.
  intros rest cap n b m lc dc lb db Gc Gb Hb Pc Ac Pb Ab. destruct (group_open _ _ _ _ _ Gc) as (ws & r & -> & B). destruct (group_from c_lk c_rk ws r cap n eq_refl B Gc) as (k & Gk & ->).
  rewrite (subfloat_head ws r B). unfold handle_subfloat. cbn [m_end]. rewrite brace_skip.
  assert (Dk : delims_ok c_lk c_rk) by (split; [discriminate|split; [reflexivity|split; discriminate]]).
  assert (X := proj2 (extract_nested_content_iff c_lk c_rk _ _ _ Dk) Gk). rewrite X.
  assert (Sk : skipn (S (length (lit "\subfloat") + length ws) - 1 + k) (lit "\subfloat" ++ ws ++ c_lk :: r) = skipn (length ws + k) (ws ++ c_lk :: r)).
  { replace (S (length (lit "\subfloat") + length ws) - 1 + k) with (length (lit "\subfloat") + (length ws + k)) by lia. rewrite <- skipn_add. rewrite skipn_app_exact by reflexivity. reflexivity. }
  unfold str in *. rewrite Sk. assert (Y := proj2 (extract_nested_content_iff c_lb c_rb _ _ _ delims_curly) Gb). unfold str in *. rewrite Y.
  rewrite Pc. cbn [bind]. rewrite (as_one_norm _ _ Ac). destruct b as [|x b]; [congruence|]. rewrite Pb. cbn [bind]. rewrite (as_one_norm _ _ Ab). unfold group_of, caption_of.
  change (length (lit "\subfloat")) with 9. repeat f_equal; lia.
Qed.
End H.
