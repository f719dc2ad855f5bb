(** C89-C90: switches in front of a group, colours. *)
From Coq Require Import List NArith PeanoNat Lia Bool String Compare_dec.
From Verif Require Import PyStr Regex RegexLemmas RegexHead Json TexUtilsModel DelimSpec DelimProofs EnvSpec EqSpec EnvHandlerCases CommandModel CommandSpec StyleModel StyleSpec StyleProofs EnvHandlerModel ItemModel ItemSpec LegacyModel LegacySpec LegacyProofs LegacyProofs2 LegacyProofs3 LegacyProofs4.
Import ListNotations. Notation length := List.length. Notation concat := List.concat. Open Scope list_scope.

(** * In front of a group *)
Lemma brace_ends : forall ws r, blank ws -> ends_word (ws ++ c_lb :: r).
Proof.
  intros ws r B x q E L. destruct ws as [|y ws].
  - cbn [List.app] in E. injection E as <- _. unfold letter, c_lb in L. lia.
  - cbn [List.app] in E. injection E as -> _. cbn [blank] in B. unfold blank in B. cbn [forallb] in B. apply andb_true_iff in B as [B _]. exact (proj1 (StyleProofs3.letter_ok _) (StyleProofs3.space_not_letter _ B) L).
Qed.
Theorem group_styles : forall w size name cmd ws g r, In (name, cmd) (kind_of size) -> blank ws -> good_body g ->
  handle w ([c_bs] ++ name ++ ws ++ [c_lb] ++ g ++ [c_rb] ++ r) = Ok (Some (written_as cmd (strip g), 1 + length name + length ws + length g + 2)).
Proof.
  intros w size name cmd ws g r I B G. rewrite (handle_named w size name cmd ws _ I B); [|reflexivity|apply brace_ends; exact B]. cbn [has_brace List.app]. rewrite N.eqb_refl. cbn [Nat.eqb].
  erewrite group_exact; [f_equal; f_equal; apply f_equal2; [reflexivity|]|lia| |exact G]; [|].
  2:{ replace (1 + length name + length ws + 1 - 1) with (S (length (name ++ ws))) by (rewrite app_length; lia). cbn [skipn]. rewrite app_assoc. apply DelimFinal.skipn_app_exact. reflexivity. }
  lia.
Qed.
Theorem group_unclosed : forall w size name cmd ws r, In (name, cmd) (kind_of size) -> blank ws -> (forall g n, ~ group_at c_lb c_rb ([c_lb] ++ r) g n) ->
  handle w ([c_bs] ++ name ++ ws ++ [c_lb] ++ r) = Raise AttributeError.
Proof.
  intros w size name cmd ws r I B G. rewrite (handle_named w size name cmd ws _ I B); [|reflexivity|apply brace_ends; exact B]. cbn [has_brace List.app]. rewrite N.eqb_refl. cbn [Nat.eqb]. unfold apply_group.
  replace (1 + length name + length ws + 1 - 1) with (S (length (name ++ ws))) by (rewrite app_length; lia). cbn [skipn]. rewrite app_assoc, DelimFinal.skipn_app_exact by reflexivity.
  destruct (extract_nested_content_cases c_lb c_rb (c_lb :: r) delims_curly) as [(b & n & _ & X)|(X & _)]; [exfalso; exact (G b n X)|]. rewrite X. reflexivity.
Qed.

(** * Colours *)
Section Color.
Variable w : ch -> bool.
Hypothesis Wr : w 114%N = true.
Hypothesis Hw : w c_rk = false.
Lemma chr_inv : forall p t i j, rel (RChr p) t i j -> j = S i /\ exists x, nth_error t i = Some x /\ p x = true.
Proof. intros p t i j R. inversion R as [|p0 t0 i0 x N H| | | | | | | | | | | |]. split; [reflexivity|]. exists x. auto. Qed.
Lemma bound_inv : forall v t i j, rel (RBound v) t i j -> xorb (prev_is v t i) (next_is v t i) = true.
Proof. intros v t i j R. inversion R as [| | | | | | | | | | | | |w0 t0 i0 X]. exact X. Qed.
Lemma rel_opt : forall a t i k, rel (ropt a) t i k -> rel a t i k \/ k = i.
Proof. intros a t i k R. apply rel_alt2 in R as [R|R]; [left; exact R|right]. inversion R. reflexivity. Qed.
Lemma color_fm : forall t i model g ws r, model_at w model g -> blank ws -> skipn i t = lit "\color" ++ g ++ ws ++ [c_lb] ++ r ->
  exists c, re_match_at (COLOR_PATTERN w) t i = Some {| m_start := i; m_end := i + 6 + length g + length ws + 1; m_caps := c |} /\
    m_group t 1 {| m_start := i; m_end := i + 6 + length g + length ws + 1; m_caps := c |} = option_map (fun m => [c_lk] ++ m ++ [c_rk]) model.
Proof.
  intros t i model g ws r M B E. assert (S0 : skipn (S i) t = lit "color" ++ g ++ ws ++ [c_lb] ++ r) by (eapply skipn_more1; exact E).
  destruct M as [|ws1 m B1 Nm Fm].
  - exists []. split; [|reflexivity]. cbn [List.app] in *. assert (S1 : skipn (S i + 5) t = ws ++ c_lb :: r) by exact (skipn_more t (S i) (lit "color") _ S0).
    assert (S2 : skipn (S i + 5 + length ws) t = c_lb :: r) by exact (skipn_more t _ ws _ S1).
    replace (i + 6 + length (@nil ch) + length ws + 1) with (S (S i + 5 + length ws)) by (cbn [List.length]; lia). apply fm_match. unfold COLOR_PATTERN. cbn [rseq].
    eapply fm_seq; [apply (fm_is_ch c_bs t i [] (lit "color" ++ ws ++ c_lb :: r)); exact E|]. apply fm_alt_left.
    eapply fm_seq; [apply (fm_rstr (lit "color") t (S i) [] (ws ++ c_lb :: r)); exact S0|]. change (length (lit "color")) with 5.
    eapply fm_seq; [exact (fm_star isspace t (S i + 5) [] ws (c_lb :: r) S1 B eq_refl)|].
    eapply fm_seq. { apply fm_alt_right; [|apply fm_eps]. assert (Z : rm (RSeq (is_ch c_lk) (RSeq (rplus (RChr w)) (is_ch c_rk))) t (S i + 5 + length ws) [] = []) by (apply rm_seq_none; unfold is_ch; apply rm_chr_none; rewrite S2; reflexivity).
      exact (f_equal (map (fun jc => (fst jc, (1, (S i + 5 + length ws, fst jc)) :: snd jc))) Z). }
    eapply fm_seq; [exact (fm_star isspace t (S i + 5 + length ws) [] [] (c_lb :: r) S2 eq_refl eq_refl)|]. cbn [List.length]. rewrite Nat.add_0_r.
    exact (fm_is_ch c_lb t (S i + 5 + length ws) [] r S2).
  - rewrite <- !app_assoc in S0, E. assert (S1 : skipn (S i + 5) t = ws1 ++ c_lk :: m ++ c_rk :: ws ++ c_lb :: r) by exact (skipn_more t (S i) (lit "color") _ S0).
    pose (p := S i + 5 + length ws1). assert (S2 : skipn p t = c_lk :: m ++ c_rk :: ws ++ c_lb :: r) by exact (skipn_more t (S i + 5) ws1 _ S1).
    assert (S3 := skipn_more1 t p _ _ S2). assert (S4 : skipn (S p + length m) t = c_rk :: ws ++ c_lb :: r) by exact (skipn_more t (S p) m _ S3).
    assert (S5 := skipn_more1 t _ _ _ S4). assert (S6 : skipn (S (S p + length m) + length ws) t = c_lb :: r) by exact (skipn_more t _ ws _ S5).
    pose (c := [(1, (p, S (S p + length m)))] : caps). exists c.
    assert (Len : i + 6 + length (ws1 ++ [c_lk] ++ m ++ [c_rk]) + length ws + 1 = S (S (S p + length m) + length ws)).
    { unfold p. repeat (rewrite app_length || cbn [List.length]). lia. }
    rewrite Len. split.
    + apply fm_match. unfold COLOR_PATTERN. cbn [rseq].
      eapply fm_seq; [apply (fm_is_ch c_bs t i [] (lit "color" ++ ws1 ++ [c_lk] ++ m ++ [c_rk] ++ ws ++ [c_lb] ++ r)); exact E|]. apply fm_alt_left.
      eapply fm_seq; [apply (fm_rstr (lit "color") t (S i) [] (ws1 ++ [c_lk] ++ m ++ [c_rk] ++ ws ++ [c_lb] ++ r)); exact S0|]. change (length (lit "color")) with 5.
      eapply fm_seq; [exact (fm_star isspace t (S i + 5) [] ws1 _ S1 B1 eq_refl)|]. fold p.
      eapply fm_seq. { apply fm_alt_left. apply (fm_grp 1 _ t p [] (S (S p + length m)) []). eapply fm_seq; [exact (fm_is_ch c_lk t p [] _ S2)|].
        eapply fm_seq; [exact (fm_plus w t (S p) [] m _ S3 Nm Fm Hw)|]. exact (fm_is_ch c_rk t _ [] _ S4). }
      eapply fm_seq; [exact (fm_star isspace t _ c ws _ S5 B eq_refl)|]. exact (fm_is_ch c_lb t _ c r S6).
    + unfold m_group. cbn [m_caps]. unfold c. cbn [cap_get Nat.eqb option_map]. f_equal. unfold slice. rewrite S2. replace (S (S p + length m) - p) with (length (c_lk :: m ++ [c_rk])) by (cbn [List.length]; rewrite app_length; cbn [List.length]; lia).
      replace (c_lk :: m ++ c_rk :: ws ++ c_lb :: r) with ((c_lk :: m ++ [c_rk]) ++ ws ++ c_lb :: r) by (cbn; rewrite <- app_assoc; reflexivity).
      rewrite DelimFinal.firstn_app_exact by reflexivity. reflexivity.
Qed.
Lemma normal_fm : forall t i r, skipn i t = lit "\normalcolor" ++ r -> starts_with w r = false -> re_match_at (COLOR_PATTERN w) t i = Some {| m_start := i; m_end := i + 12; m_caps := [] |}.
Proof.
  intros t i r E Hr. assert (S0 : skipn (S i) t = lit "normalcolor" ++ r) by (eapply skipn_more1; exact E).
  assert (S1 : skipn (S i + 11) t = r) by exact (skipn_more t (S i) (lit "normalcolor") _ S0).
  replace (i + 12) with (S i + 11) by lia. apply fm_match. unfold COLOR_PATTERN. eapply fm_seq; [apply (fm_is_ch c_bs t i [] (lit "normalcolor" ++ r)); exact E|].
  apply fm_alt_right.
  - cbn [rseq]. apply rm_seq_none. cbn [lit list_ascii_of_string]. cbn [rstr]. apply rm_seq_none. apply rm_chr_none. rewrite S0. reflexivity.
  - eapply fm_seq; [apply (fm_rstr (lit "normalcolor") t (S i) [] r); exact S0|]. change (length (lit "normalcolor")) with 11.
    assert (P : prev_is w t (S i + 11) = true).
    { replace (S i + 11) with (S (S i + 10)) by lia. cbn [prev_is]. assert (N : nth_error t (S i + 10) = Some 114%N).
      { rewrite nth_error_skipn. pose proof (skipn_more t (S i) (lit "normalcolo") (lit "r" ++ r) S0) as Q. change (length (lit "normalcolo")) with 10 in Q. rewrite Q. reflexivity. }
      rewrite N. exact Wr. }
    assert (Nx : next_is w t (S i + 11) = false). { unfold next_is. rewrite nth_error_skipn, S1. destruct r as [|x r]; [reflexivity|]. exact Hr. }
    exists []. cbn [rm]. rewrite P, Nx. reflexivity.
Qed.
Lemma color_rel : forall t i, i <= length t -> ((exists j, rel (COLOR_PATTERN w) t i j) <-> color_here w (skipn i t)).
Proof.
  intros t i L. split.
  - intros (j & R). unfold COLOR_PATTERN in R. apply rel_rseq2 in R as (k1 & R1 & R). apply rel_is_ch in R1 as (-> & r1 & E1). pose proof (skipn_more1 _ _ _ _ E1) as F1.
    apply rel_alt2 in R as [R|R].
    + cbn [rseq] in R. left. apply rel_rseq2 in R as (k2 & R2 & R). apply rel_rstr in R2 as (-> & r2 & E2). apply rel_rseq2 in R as (k3 & R3 & R). apply rel_star_chr in R3 as (ws1 & r3 & E3 & B1 & ->).
      rewrite (skipn_more _ _ _ _ E2) in E3. apply rel_rseq2 in R as (k4 & R4 & R). apply rel_rseq2 in R as (k5 & R5 & R). apply rel_star_chr in R5 as (ws2 & r5 & E5 & B2 & ->). apply rel_is_ch in R as (_ & r6 & E6).
      pose proof (skipn_more _ _ _ _ E5) as F5. rewrite E6 in F5. subst r5.
      assert (E2' : skipn (S i + length (lit "color")) t = ws1 ++ r3) by (rewrite (skipn_more _ _ _ _ E2); exact E3).
      pose proof (skipn_more _ _ _ _ E2') as F3. apply rel_opt in R4 as [R4| ->].
      * apply rel_grp1 in R4. apply rel_rseq2 in R4 as (k6 & R6 & R4). apply rel_is_ch in R6 as (-> & r7 & E7). apply rel_rseq2 in R4 as (k7 & R7 & R4). apply rel_is_ch in R4 as (-> & r8 & E8).
        apply rel_rseq2 in R7 as (k8 & R8 & R7). apply chr_inv in R8 as (-> & x & Nx & Hx). apply rel_star_chr in R7 as (m & r9 & E9 & Fm & ->).
        pose proof (skipn_more1 _ _ _ _ E7) as F7. pose proof Nx as Nx2. rewrite nth_error_skipn, F7 in Nx2. destruct r7 as [|x' r7]; [discriminate|]. cbn in Nx2. injection Nx2 as ->.
        pose proof (skipn_more1 _ _ _ _ F7) as F8. pose proof (skipn_more _ _ _ _ E9) as F9. pose proof (skipn_more1 _ _ _ _ E8) as F10.
        exists (Some (x :: m)), (ws1 ++ [c_lk] ++ (x :: m) ++ [c_rk]), ws2, r6. split; [constructor; [exact B1|discriminate|cbn [forallb]; rewrite Hx; exact Fm]|]. split; [exact B2|].
        assert (Q1 : r1 = lit "color" ++ r2) by congruence. assert (Q3 : r3 = c_lk :: x :: r7) by congruence. assert (Q7 : r7 = m ++ r9) by congruence. assert (Q9 : r9 = c_rk :: r8) by congruence. assert (Q8 : r8 = ws2 ++ c_lb :: r6) by congruence.
        rewrite E1, Q1, E3, Q3, Q7, Q9, Q8. change (lit "\color") with ([c_bs] ++ lit "color"). repeat (rewrite <- app_assoc || rewrite <- app_comm_cons). reflexivity.
      * exists None, [], (ws1 ++ ws2), r6. split; [constructor|]. split; [unfold blank; rewrite forallb_app, B1, B2; reflexivity|].
        assert (Q1 : r1 = lit "color" ++ r2) by congruence. assert (Q3 : r3 = ws2 ++ c_lb :: r6) by congruence.
        rewrite E1, Q1, E3, Q3. change (lit "\color") with ([c_bs] ++ lit "color"). repeat (rewrite <- app_assoc || rewrite <- app_comm_cons). reflexivity.
    + right. apply rel_rseq2 in R as (k2 & R2 & R). apply rel_rstr in R2 as (-> & r2 & E2). exists r2. split; [assert (Q1 : r1 = lit "normalcolor" ++ r2) by congruence; rewrite E1, Q1; reflexivity|].
      apply bound_inv in R as X. pose proof (skipn_more _ _ _ _ E2) as F2. set (q := S i + length (lit "normalcolor")) in *.
      assert (P : prev_is w t q = true).
      { assert (Hq : q = S (S i + 10)) by (unfold q; change (length (lit "normalcolor")) with 11; lia). rewrite Hq. cbn [prev_is].
        assert (N : nth_error t (S i + 10) = Some 114%N) by (rewrite nth_error_skipn; pose proof (skipn_more t (S i) (lit "normalcolo") (lit "r" ++ r2) E2) as Q; change (length (lit "normalcolo")) with 10 in Q; rewrite Q; reflexivity).
        rewrite N. exact Wr. }
      rewrite P in X. unfold next_is in X. rewrite nth_error_skipn, F2 in X. destruct r2 as [|x r2]; [reflexivity|]. cbn in X |- *. destruct (w x); [discriminate|reflexivity].
  - intros [(model & g & ws & r & M & B & E)|(r & E & Hr)].
    + destruct (color_fm t i model g ws r M B E) as (c & Mt & _). destruct (re_match_at_some _ _ _ _ L Mt) as (_ & R & _). eexists. exact R.
    + pose proof (normal_fm t i r E Hr) as Mt. destruct (re_match_at_some _ _ _ _ L Mt) as (_ & R & _). eexists. exact R.
Qed.
Lemma color_none_empty : ~ color_here w [].
Proof. intros [(m & g & ws & r & _ & _ & E)|(r & E & _)]; discriminate. Qed.
Lemma color_no_brace : forall r, ~ color_here w (c_lb :: r).
Proof. intros q [(m & g & ws & r & _ & _ & E)|(r & E & _)]; discriminate. Qed.
Lemma color_no_opener : forall s, color_here w s -> ~ opens_here w s.
Proof.
  intros s H [(ws & nm & q & _ & _ & F)|(short & q & F & _)]; destruct H as [(m & g & ws' & r & _ & _ & E)|(r & E & _)]; rewrite E in F; try discriminate F; destruct short; discriminate F.
Qed.
Lemma color_not_font : forall s, color_here w s -> ~ command_here all_names s.
Proof.
  intros s [(m & g & ws' & r & _ & _ & E)|(r & E & _)]; rewrite E.
  - apply (not_here (lit "color") _ all_names apart_color). auto.
  - apply (not_here (lit "normalcolor") _ all_names apart_normal). auto.
Qed.
Lemma color_tried : forall t, color_here w t -> handle w t = match re_match_at (COLOR_PATTERN w) t 0 with Some m => apply w (COLOR_PATTERN w) t m | None => Ok None end.
Proof.
  intros t H. pose proof (color_not_font t H) as N. unfold handle, PATTERNS. cbn [try_patterns].
  assert (T1 : re_match_at FONT_PATTERN t 0 = None).
  { destruct (re_match_at FONT_PATTERN t 0) as [m|] eqn:E; [exfalso|reflexivity]. apply re_match_at_some in E as (_ & R & _); [|lia].
    assert (C : command_here fonts t) by (apply (font_rel t 0); [lia|eexists; exact R]). apply N. destruct C as (n & r & I & C). exists n, r. split; [apply in_or_app; left; exact I|exact C]. }
  assert (T2 : re_match_at SIZE_PATTERN t 0 = None).
  { destruct (re_match_at SIZE_PATTERN t 0) as [m|] eqn:E; [exfalso|reflexivity]. apply re_match_at_some in E as (_ & R & _); [|lia].
    assert (C : command_here sizes t) by (apply (size_rel t 0); [lia|eexists; exact R]). apply N. destruct C as (n & r & I & C). exists n, r. split; [apply in_or_app; right; exact I|exact C]. }
  rewrite T1, T2. reflexivity.
Qed.
Theorem normal_vanishes : forall r, starts_with w r = false -> handle w (lit "\normalcolor" ++ r) = Ok (Some ([], 12)).
Proof.
  intros r Hr. rewrite color_tried by (right; exists r; auto). rewrite (normal_fm (lit "\normalcolor" ++ r) 0 r eq_refl Hr). reflexivity.
Qed.
Theorem color_styles : forall model g ws color rest text e out, w 112%N = true -> model_at w model g -> blank ws -> good_body color ->
  reaches rest text -> plain_ends w text -> scope w (color_here w) text e -> styled (color_command model color) (firstn e text) out ->
  (forall m x r, model = Some m -> skipn e rest = c_bs :: x :: r -> ~ In x m) ->
  handle w (lit "\color" ++ g ++ ws ++ [c_lb] ++ color ++ [c_rb] ++ rest) = Ok (Some (out, 6 + length g + length ws + length color + 2 + e)).
Proof.
  intros model g ws color rest text e out Wp M B G R P Sc St Off. set (t := lit "\color" ++ g ++ ws ++ [c_lb] ++ color ++ [c_rb] ++ rest).
  assert (H : color_here w t) by (left; exists model, g, ws, (color ++ [c_rb] ++ rest); auto). rewrite (color_tried t H).
  destruct (color_fm t 0 model g ws (color ++ [c_rb] ++ rest) M B eq_refl) as (c & Mt & Gt). rewrite Mt. set (m := {| m_start := 0; m_end := _; m_caps := c |}) in *.
  assert (Pre : t = (lit "\color" ++ g ++ ws ++ [c_lb]) ++ color ++ [c_rb] ++ rest) by (unfold t; rewrite <- !app_assoc; reflexivity).
  assert (Lp : m_end m = length (lit "\color" ++ g ++ ws ++ [c_lb])) by (unfold m; cbn [m_end]; rewrite !app_length; change (length (lit "\color")) with 6; cbn [List.length]; lia).
  assert (G0 : m_group0 t m = lit "\color" ++ g ++ ws ++ [c_lb]).
  { unfold m_group0, slice. rewrite Lp. unfold m. cbn [m_start skipn]. rewrite Nat.sub_0_r, Pre. apply DelimFinal.firstn_app_exact. reflexivity. }
  assert (Sk1 : skipn (m_end m) t = color ++ [c_rb] ++ rest) by (rewrite Lp, Pre; apply DelimFinal.skipn_app_exact; reflexivity).
  unfold apply. cbv zeta. rewrite G0. change (str_eqb (lit "\color" ++ g ++ ws ++ [c_lb]) (lit "\normalcolor")) with false. cbv iota.
  rewrite (startswith_app (lit "\color") (g ++ ws ++ [c_lb])). rewrite Sk1, Gt.
  assert (Ga : group_at c_lb c_rb (c_lb :: color ++ [c_rb] ++ rest) color (length color + 2)).
  { exists [], rest. destruct G as [G1 G2]. split; [reflexivity|split; [reflexivity|split; [exact G1|split; [exact G2|cbn [List.length]; lia]]]]. }
  apply (extract_nested_content_iff _ _ _ _ _ delims_curly) in Ga. rewrite Ga.
  set (p := m_end m + (length color + 2 - 1)). assert (Sk : skipn p t = rest).
  { unfold p. rewrite <- skipn_add, Sk1. replace (length color + 2 - 1) with (length (color ++ [c_rb])) by (rewrite app_length; cbn [List.length]; lia). rewrite app_assoc. apply DelimFinal.skipn_app_exact. reflexivity. }
  match goal with |- apply_switch _ _ _ _ ?c ?mc _ = _ => assert (Hc : mc = color_command model color) by (destruct model; reflexivity); rewrite Hc end.
  rewrite (apply_exact w Wp (COLOR_PATTERN w) (color_here w) color_rel color_no_brace color_none_empty color_no_opener true t _ _ p rest text e Sk R P Sc out St).
  f_equal. f_equal. f_equal. assert (Hp : p + e = 6 + length g + length ws + length color + 2 + e) by (unfold p, m; cbn [m_end]; lia). rewrite Hp. clear Hp.
  unfold consumed. destruct model as [mm|]; [|reflexivity]. cbn [option_map List.app].
  assert (O : off_switch true (c_lk :: mm ++ [c_rk]) (skipn e rest) = false).
  { destruct (skipn e rest) as [|x [|y r]] eqn:Er; [reflexivity|cbn [off_switch]; apply andb_false_r|]. cbn [off_switch skipn]. rewrite removelast_last. destruct (N.eqb_spec x c_bs) as [->|_]; [|reflexivity]. cbn [andb].
    destruct (existsb (N.eqb y) mm) eqn:Ex; [exfalso|reflexivity]. apply existsb_exists in Ex as (z & I & Ez). apply N.eqb_eq in Ez as <-. exact (Off mm y r eq_refl eq_refl I). }
  rewrite O. reflexivity.
Qed.
Theorem color_unclosed : forall model g ws rest, model_at w model g -> blank ws -> (forall b n, ~ group_at c_lb c_rb ([c_lb] ++ rest) b n) ->
  handle w (lit "\color" ++ g ++ ws ++ [c_lb] ++ rest) = Raise AttributeError.
Proof.
  intros model g ws rest M B G. set (t := lit "\color" ++ g ++ ws ++ [c_lb] ++ rest).
  assert (H : color_here w t) by (left; exists model, g, ws, rest; auto). rewrite (color_tried t H).
  destruct (color_fm t 0 model g ws rest M B eq_refl) as (c & Mt & Gt). rewrite Mt. set (m := {| m_start := 0; m_end := _; m_caps := c |}) in *.
  assert (Pre : t = (lit "\color" ++ g ++ ws ++ [c_lb]) ++ rest) by (unfold t; rewrite <- !app_assoc; reflexivity).
  assert (Lp : m_end m = length (lit "\color" ++ g ++ ws ++ [c_lb])) by (unfold m; cbn [m_end]; rewrite !app_length; change (length (lit "\color")) with 6; cbn [List.length]; lia).
  assert (G0 : m_group0 t m = lit "\color" ++ g ++ ws ++ [c_lb]).
  { unfold m_group0, slice. rewrite Lp. unfold m. cbn [m_start skipn]. rewrite Nat.sub_0_r, Pre. apply DelimFinal.firstn_app_exact. reflexivity. }
  assert (Sk1 : skipn (m_end m) t = rest) by (rewrite Lp, Pre; apply DelimFinal.skipn_app_exact; reflexivity).
  assert (Sk2 : skipn (m_end m - 1) t = c_lb :: rest).
  { assert (Pre2 : t = (lit "\color" ++ g ++ ws) ++ c_lb :: rest) by (unfold t; rewrite <- !app_assoc; reflexivity).
    assert (L2 : m_end m - 1 = length (lit "\color" ++ g ++ ws)) by (rewrite Lp, !app_length; cbn [List.length]; lia). rewrite L2, Pre2. apply DelimFinal.skipn_app_exact. reflexivity. }
  unfold apply. cbv zeta. rewrite G0. change (str_eqb (lit "\color" ++ g ++ ws ++ [c_lb]) (lit "\normalcolor")) with false. cbv iota.
  rewrite (startswith_app (lit "\color") (g ++ ws ++ [c_lb])). rewrite Sk1.
  destruct (extract_nested_content_cases c_lb c_rb (c_lb :: rest) delims_curly) as [(b & n & _ & X)|(X & _)]; [exfalso; exact (G b n X)|]. rewrite X. unfold apply_group. rewrite Sk2, X. reflexivity.
Qed.
End Color.
