From Coq Require Import List NArith PeanoNat Lia Bool String Permutation.
From Verif Require Import PyStr Regex RegexLemmas RegexLocal RegexHead Json TexUtilsModel DelimSpec DelimFinal TextModel TextSpec TextProofs TextProofs3 TableCases Placeholder PlaceModel PlaceProofs
  EqProofs PreModel PreSpec PreProofs PreProofs2 PreProofs3.
Import ListNotations. Notation length := List.length. Notation concat := List.concat. Open Scope list_scope.

(** * The class declaration *)
Definition cW := lit "\documentclass".
Lemma cW_borderless : borderless cW. Proof. apply borderless_ok. reflexivity. Qed.
Lemma cW_start : forall a k r, k < length a -> ~ occurs cW a -> startswith (skipn k (a ++ cW ++ r)) cW = false.
Proof.
  intros a k r Hk N. rewrite skipn_app. replace (k - length a) with 0 by lia. cbn [skipn].
  pose proof (no_start_in_gap cW cW_borderless (skipn k a) [r]) as H. unfold marked in H. cbn [map concat] in H. rewrite app_nil_r in H. apply H.
  - intros C. apply (f_equal (@List.length _)) in C. rewrite skipn_length in C. cbn in C. lia.
  - intros C. apply N. eapply occurs_skipn. exact C.
Qed.
Lemma in_str_one : forall (y : ch) s, ~ In y s -> forallb (fun x => negb (in_str [y] x)) s = true.
Proof.
  intros y s H. apply forallb_forall. intros x Hx. unfold in_str. cbn [existsb]. rewrite orb_false_r. destruct (N.eqb x y) eqn:E; [|reflexivity]. apply N.eqb_eq in E. subst. contradiction.
Qed.
Lemma group_fm : forall t i c name r, skipn i t = [c_lb] ++ name ++ [c_rb] ++ r -> name <> [] -> ~ In c_rb name ->
  first_match (rseq [is_ch c_lb; RGrp 1 (rplus (rncls [c_rb])); is_ch c_rb]) t i c (i + length ([c_lb] ++ name ++ [c_rb])) ((1, (S i, S i + length name)) :: c).
Proof.
  intros t i c name r E Ne Ni. cbn [rseq]. eapply fm_seq; [apply (fm_is_ch c_lb t i c (name ++ [c_rb] ++ r)); exact E|].
  assert (E1 : skipn (S i) t = name ++ [c_rb] ++ r) by (apply skipn_more1 with (x := c_lb); exact E).
  eapply fm_seq.
  - apply fm_grp. apply (fm_plus _ t (S i) c name ([c_rb] ++ r)); [exact E1|exact Ne|apply in_str_one; exact Ni|reflexivity].
  - replace (i + length ([c_lb] ++ name ++ [c_rb])) with (S (S i + length name)) by (rewrite !app_length; cbn [length]; lia). eapply fm_is_ch with (r := r).
    eapply skipn_more in E1. exact E1.
Qed.
Lemma class_fm : forall d name, class_declaration d name -> forall t i r, skipn i t = d ++ r ->
  exists j, first_match DOCUMENTCLASS t i [] (i + length d) [(1, (j, j + length name))] /\ slice j (j + length name) t = name.
Proof.
  intros d name H t i r E. unfold DOCUMENTCLASS.
  change (rseq [rstr (lit "\documentclass"); rstar rspace; ropt (rseq [is_ch c_lk; rstar (rncls [c_rk]); is_ch c_rk]); rstar rspace; is_ch c_lb; RGrp 1 (rplus (rncls [c_rb])); is_ch c_rb])
   with (RSeq (rstr cW) (RSeq (rstar rspace) (RSeq (ropt (rseq [is_ch c_lk; rstar (rncls [c_rk]); is_ch c_rk])) (RSeq (rstar rspace) (rseq [is_ch c_lb; RGrp 1 (rplus (rncls [c_rb])); is_ch c_rb]))))).
  assert (Sl : forall k u w, skipn k t = [c_lb] ++ u ++ w -> slice (S k) (S k + length u) t = u).
  { intros k u w Ek. apply skipn_more1 in Ek. unfold slice. replace (S k + length u - S k) with (length u) by lia. pose proof (firstn_app_exact u w) as X. rewrite <- X at 2 by reflexivity. f_equal. exact Ek. }
  destruct H as [ws name Hw Ne Ni|ws options ws2 name Hw No Hw2 Ne Ni].
  - rewrite <- !app_assoc in E. exists (S (i + length cW + length ws)).
    assert (E1 : skipn (i + length cW) t = ws ++ [c_lb] ++ name ++ [c_rb] ++ r) by (apply skipn_more; exact E).
    assert (E2 : skipn (i + length cW + length ws) t = [c_lb] ++ name ++ [c_rb] ++ r) by (apply skipn_more; exact E1). split; [|eapply Sl; exact E2].
    eapply fm_seq; [apply (fm_rstr cW t i [] _ E)|]. eapply fm_seq; [apply (fm_star _ t _ [] ws _ E1 Hw); reflexivity|].
    eapply fm_seq; [apply fm_alt_right; [|apply fm_eps]|].
    + cbn [rseq]. apply rm_seq_none. apply rm_chr_none. rewrite E2. reflexivity.
    + eapply fm_seq; [apply (fm_star _ t _ [] [] _ E2); reflexivity|]. cbn [length]. rewrite Nat.add_0_r.
      replace (i + length (lit "\documentclass" ++ ws ++ [c_lb] ++ name ++ [c_rb])) with (i + length cW + length ws + length ([c_lb] ++ name ++ [c_rb])) by (rewrite !app_length; unfold cW; lia).
      eapply group_fm; [exact E2|exact Ne|exact Ni].
  - rewrite <- !app_assoc in E.
    assert (E1 : skipn (i + length cW) t = ws ++ [c_lk] ++ options ++ [c_rk] ++ ws2 ++ [c_lb] ++ name ++ [c_rb] ++ r) by (apply skipn_more; exact E).
    assert (E2 : skipn (i + length cW + length ws) t = [c_lk] ++ options ++ [c_rk] ++ ws2 ++ [c_lb] ++ name ++ [c_rb] ++ r) by (apply skipn_more; exact E1).
    remember (i + length cW + length ws) as k eqn:Ek.
    assert (E3 : skipn (S k) t = options ++ [c_rk] ++ ws2 ++ [c_lb] ++ name ++ [c_rb] ++ r) by (apply skipn_more1 with (x := c_lk); exact E2).
    assert (E4 : skipn (S k + length options) t = [c_rk] ++ ws2 ++ [c_lb] ++ name ++ [c_rb] ++ r) by (apply skipn_more; exact E3).
    assert (E5 : skipn (S (S k + length options)) t = ws2 ++ [c_lb] ++ name ++ [c_rb] ++ r) by (apply skipn_more1 with (x := c_rk); exact E4).
    assert (E6 : skipn (S (S k + length options) + length ws2) t = [c_lb] ++ name ++ [c_rb] ++ r) by (apply skipn_more; exact E5).
    exists (S (S (S k + length options) + length ws2)). split; [|eapply Sl; exact E6].
    eapply fm_seq; [apply (fm_rstr cW t i [] _ E)|]. eapply fm_seq; [apply (fm_star _ t _ [] ws _ E1 Hw); reflexivity|]. rewrite <- Ek.
    eapply fm_seq; [apply fm_alt_left; cbn [rseq]; eapply fm_seq; [eapply fm_is_ch; exact E2|]; eapply fm_seq; [apply (fm_star _ t _ [] options _ E3); [apply in_str_one; exact No|reflexivity]|eapply fm_is_ch; exact E4]|].
    eapply fm_seq; [apply (fm_star _ t _ [] ws2 _ E5 Hw2); reflexivity|].
    replace (i + length (lit "\documentclass" ++ ws ++ [c_lk] ++ options ++ [c_rk] ++ ws2 ++ [c_lb] ++ name ++ [c_rb])) with (S (S k + length options) + length ws2 + length ([c_lb] ++ name ++ [c_rb]))
      by (rewrite Ek, !app_length; unfold cW; cbn [length]; lia).
    eapply group_fm; [exact E6|exact Ne|exact Ni].
Qed.
Lemma class_prefix : forall d name, class_declaration d name -> exists d', d = cW ++ d'.
Proof. intros d name H. destruct H; eexists; reflexivity. Qed.
Section Class.
Variable St : Type.
Variable load : St -> str -> res St.
Lemma class_found : forall s a d name rest, class_declaration d name -> ~ occurs cW a ->
  check_documentclass St load s (a ++ d ++ rest) = (do s1 <- load s (strip name); Ok (s1, length (a ++ d))).
Proof.
  intros s a d name rest H N. destruct (class_fm d name H (a ++ d ++ rest) (length a) rest ltac:(apply skipn_app_exact; reflexivity)) as (j & F & G). apply fm_match in F.
  unfold check_documentclass. unfold re_search. rewrite (search_first _ _ 0 (length a) _ ltac:(lia) ltac:(rewrite app_length; apply Nat.le_add_r)) with (2 := F).
  - unfold m_group. cbn [m_caps cap_get Nat.eqb option_map m_end]. rewrite G, app_length. reflexivity.
  - intros k _ Hk. apply re_match_at_none; [rewrite app_length; lia|]. intros e R. unfold DOCUMENTCLASS in R. cbn [rseq] in R. apply rel_rseq2 in R as (k' & R & _). apply rel_rstr in R as (_ & r & R).
    destruct (class_prefix d name H) as (d' & ->). rewrite <- app_assoc in R. pose proof (cW_start a k (d' ++ rest) Hk N) as C. rewrite R in C.
    change (lit "\documentclass") with cW in C. rewrite startswith_app in C. discriminate.
Qed.
Lemma class_none : forall s content, ~ occurs cW content -> check_documentclass St load s content = Ok (s, 0).
Proof.
  intros s content N. unfold check_documentclass. replace (re_search DOCUMENTCLASS content) with (@None mobj); [reflexivity|]. symmetry. apply re_search_none. intros i j _ R. apply N.
  unfold DOCUMENTCLASS in R. cbn [rseq] in R. apply rel_rseq2 in R as (k' & R & _). apply rel_rstr in R as (_ & r & R). exists (firstn i content), r.
  rewrite <- (firstn_skipn i content) at 1. rewrite R. reflexivity.
Qed.
End Class.

(** * Verbatim environments *)
Definition venv (body : str) : str := lit "\begin{verbatim}" ++ body ++ lit "\end{verbatim}".
Lemma env_starts : forall name t i j, rel (env_pattern name) t i j -> exists r, skipn i t = c_bs :: r.
Proof. intros name t i j R. unfold env_pattern in R. cbn [rseq] in R. apply rel_rseq2 in R as (k & R & _). apply rel_rstr in R as (_ & r & R). eexists. exact R. Qed.
Lemma lst_starts : forall t i j, rel lstlisting_pattern t i j -> exists r, skipn i t = c_bs :: r.
Proof. intros t i j R. unfold lstlisting_pattern in R. cbn [rseq] in R. apply rel_rseq2 in R as (k & R & _). apply rel_rstr in R as (_ & r & R). eexists. exact R. Qed.
Lemma pic_starts : forall t i j, rel picture_pattern t i j -> exists r, skipn i t = c_bs :: r.
Proof. intros t i j R. unfold picture_pattern in R. cbn [ralt] in R. repeat (apply rel_alt2 in R as [R|R]); eapply env_starts; exact R. Qed.
Lemma not_before : forall (a r t' : str) i, ~ In c_bs a -> skipn i (a ++ t') = c_bs :: r -> length a <= i.
Proof.
  intros a r t' i N E. destruct (Nat.le_gt_cases (length a) i) as [L|L]; [exact L|]. exfalso. rewrite skipn_app in E. replace (i - length a) with 0 in E by lia.
  destruct (skipn i a) as [|y s] eqn:S; [apply (f_equal (@List.length _)) in S; rewrite skipn_length in S; cbn in S; lia|]. cbn [app] in E. injection E as -> _. apply N. rewrite <- (firstn_skipn i a), S. apply in_or_app. right. left. reflexivity.
Qed.
Definition late (a t' : str) (p : searcher) : Prop := forall s e, p (a ++ t') 0 = Some (s, e) -> length a <= s.
Lemma of_re_late : forall r a t', ~ In c_bs a -> (forall t i j, rel r t i j -> exists q, skipn i t = c_bs :: q) -> late a t' (of_re r).
Proof.
  intros r a t' N H s e E. unfold of_re in E. destruct (re_search_from r (a ++ t') 0) as [m|] eqn:S; [|discriminate]. cbn in E. injection E as <- <-. apply re_search_some in S as (_ & _ & R & _).
  apply H in R as (q & R). eapply not_before; [exact N|exact R].
Qed.
Lemma verb_find_starts : forall t i s e, verb_find t i = Some (s, e) -> exists r, skipn (s - i) t = c_bs :: r /\ i <= s.
Proof.
  induction t as [|x t IH]; intros i s e H; cbn [verb_find] in H; [discriminate H|]. destruct (verb_match (x :: t)) as [n|] eqn:E.
  - injection H as <- <-. rewrite Nat.sub_diag. unfold verb_match in E. destruct (startswith (x :: t) (lit "\verb")) eqn:S; [|discriminate]. apply startswith_spec in S as (r & S). rewrite S. eexists. split; [reflexivity|lia].
  - apply IH in H as (r & H & L). exists r. split; [|lia]. replace (s - i) with (S (s - S i)) by lia. exact H.
Qed.
Lemma verb_late : forall a t', ~ In c_bs a -> late a t' verb_search.
Proof. intros a t' N s e H. unfold verb_search in H. cbn [skipn] in H. apply verb_find_starts in H as (r & H & _). rewrite Nat.sub_0_r in H. eapply not_before; eassumption. Qed.

Definition eW := lit "\end".
Lemma venv_fm : forall a body c, ~ In c_bs a -> ~ occurs eW body ->
  of_re (env_pattern (lit "verbatim")) (a ++ venv body ++ c) 0 = Some (length a, length a + length (venv body)).
Proof.
  intros a body c Na Nb. set (t := a ++ venv body ++ c).
  assert (E : skipn (length a) t = lit "\begin" ++ lit "{verbatim}" ++ body ++ eW ++ lit "{verbatim}" ++ c).
  { unfold t. rewrite skipn_app_exact by reflexivity. unfold venv. rewrite <- !app_assoc. reflexivity. }
  assert (F : exists cc, first_match (env_pattern (lit "verbatim")) t (length a) [] (length a + length (venv body)) cc).
  { unfold env_pattern. change (c_lb :: lit "verbatim" ++ [c_rb]) with (lit "{verbatim}"). set (en := lit "{verbatim}") in *.
    assert (E1 : skipn (length a + 6) t = en ++ body ++ eW ++ en ++ c) by (apply (skipn_more t (length a) (lit "\begin")); exact E).
    assert (E2 : skipn (length a + 6 + length en) t = body ++ eW ++ en ++ c) by (apply skipn_more; exact E1).
    assert (E3 : skipn (length a + 6 + length en + length body) t = eW ++ en ++ c) by (apply skipn_more; exact E2).
    assert (E4 : skipn (length a + 6 + length en + length body + length eW) t = en ++ c) by (apply skipn_more; exact E3).
    change (rseq [rstr (lit "\begin"); rstar rspace; rstr en; RGrp 1 (rlazy rany); rstr (lit "\end"); rstar rspace; rstr en]) with
      (RSeq (rstr (lit "\begin")) (RSeq (rstar rspace) (RSeq (rstr en) (RSeq (RGrp 1 (rlazy rany)) (RSeq (rstr eW) (RSeq (rstar rspace) (rstr en))))))).
    eexists. eapply fm_seq; [apply (fm_rstr (lit "\begin") t _ [] _ E)|]. change (length (lit "\begin")) with 6.
    eapply fm_seq; [apply (fm_star _ t _ [] [] _ E1); reflexivity|]. cbn [length]. rewrite Nat.add_0_r.
    eapply fm_seq; [apply (fm_rstr en t _ [] _ E1)|].
    eapply (fm_lazy_first 1 _ _ body t _ [] _ _ (eW ++ en ++ c)); [exact E2|apply forallb_forall; reflexivity| |].
    - intros k c' Hk. apply rm_seq_none. rewrite rm_rstr.
      replace (skipn (length a + 6 + length en + k) t) with (skipn k (body ++ eW ++ en ++ c)) by (rewrite <- E2; apply skipn_add).
      rewrite skipn_app. replace (k - length body) with 0 by lia. change (skipn 0 (eW ++ en ++ c)) with (eW ++ en ++ c).
      pose proof (no_start_in_gap eW ltac:(apply borderless_ok; reflexivity) (skipn k body) [en ++ c]) as H. unfold marked in H. cbn [map concat] in H. rewrite app_nil_r in H.
      rewrite H; [reflexivity| |].
      + intros C. apply (f_equal (@List.length _)) in C. rewrite skipn_length in C. cbn in C. lia.
      + intros C. apply Nb. eapply occurs_skipn. exact C.
    - eapply fm_seq; [apply (fm_rstr eW t _ _ _ E3)|]. eapply fm_seq; [apply (fm_star _ t _ _ [] _ E4); reflexivity|]. cbn [length]. rewrite Nat.add_0_r.
      replace (length a + length (venv body)) with (length a + 6 + length en + length body + length eW + length en); [apply (fm_rstr en t _ _ _ E4)|].
      unfold venv. rewrite !app_length. change (length (lit "\begin{verbatim}")) with 16. change (length (lit "\end{verbatim}")) with 14. change (length en) with 10. change (length eW) with 4. lia. }
  destruct F as (cc & F). apply fm_match in F. unfold of_re. rewrite (search_first _ t 0 (length a) _ ltac:(lia) ltac:(unfold t; rewrite app_length; apply Nat.le_add_r)) with (2 := F); [reflexivity|].
  intros k _ Hk. apply re_match_at_none; [unfold t; rewrite app_length; lia|]. intros j R. apply env_starts in R as (r & R). unfold t in R. apply not_before in R; [lia|exact Na].
Qed.
Lemma earliest_first : forall p ps t s e, p t 0 = Some (s, e) -> s < length t -> Forall (fun q => forall a b, q t 0 = Some (a, b) -> s <= a) ps -> earliest_match (p :: ps) t 0 = Some (s, e).
Proof.
  intros p ps t s e H L F. unfold earliest_match. cbn [fold_left]. rewrite H. cbn [fst]. replace (Nat.ltb s (length t)) with true by (symmetry; apply Nat.ltb_lt; exact L).
  induction F as [|q ps Hq F IH]; [reflexivity|]. cbn [fold_left]. destruct (q t 0) as [[a b]|] eqn:E; [|exact IH]. cbn [fst]. replace (Nat.ltb a s) with false by (symmetry; apply Nat.ltb_ge; apply (Hq a b); reflexivity). exact IH.
Qed.
Lemma venv_first : forall a body c, ~ In c_bs a -> ~ occurs eW body -> let content := a ++ venv body ++ c in
  exists t1 segs, extract_verbatim_blocks content = (with_placeholders vW vkey a ((0, venv body, t1) :: segs), map (fun s => (verbatim_key (fst (fst s)), snd (fst s))) ((0, venv body, t1) :: segs)) /\
    with_blocks a ((0, venv body, t1) :: segs) = content /\ keys_from 0 ((0, venv body, t1) :: segs).
Proof.
  intros a body c Na Nb content.
  assert (Lv : 0 < length (venv body)) by (unfold venv; rewrite app_length; cbn; lia).
  assert (Em : earliest_match ALL_VERBATIM_PATTERNS content 0 = Some (length a, length a + length (venv body))).
  { unfold ALL_VERBATIM_PATTERNS. apply earliest_first; [apply venv_fm; assumption|unfold content; rewrite !app_length; lia|].
    repeat (apply Forall_cons; [first [apply verb_late; exact Na|apply of_re_late; [exact Na|first [apply env_starts|apply lst_starts|apply pic_starts]]]|]). apply Forall_nil. }
  destruct (verbatim_segs ALL_VERBATIM_PATTERNS content all_good (length content) 1 (length a + length (venv body))) as (t1 & segs & Eq & Hb & Hk);
    [unfold content; rewrite !app_length; lia|unfold content; rewrite !app_length; lia|].
  assert (S1 : slice 0 (length a) content = a) by (unfold slice, content; cbn [skipn]; rewrite Nat.sub_0_r; apply firstn_app_exact; reflexivity).
  assert (S2 : slice (length a) (length a + length (venv body)) content = venv body).
  { unfold slice, content. rewrite skipn_app_exact by reflexivity. replace (length a + length (venv body) - length a) with (length (venv body)) by lia. apply firstn_app_exact. reflexivity. }
  assert (S3 : skipn (length a + length (venv body)) content = c).
  { unfold content. rewrite app_assoc, <- app_length. apply skipn_app_exact. reflexivity. }
  exists t1, segs. split; [|split].
  - unfold extract_verbatim_blocks. cbn [verbatim_loop]. replace (Nat.ltb 0 (length content)) with true by (symmetry; apply Nat.ltb_lt; unfold content; rewrite !app_length; lia).
    rewrite Em, Eq, S1, S2. cbn [with_placeholders map fst snd]. rewrite <- (verbatim_key_split 0). reflexivity.
  - cbn [with_blocks]. rewrite Hb, S3. reflexivity.
  - cbn [keys_from fst]. split; [reflexivity|exact Hk].
Qed.
Lemma trim_head : forall o0 b y m p, trimmed_between (o0, (b, y) :: m) p -> exists q, written p = lstrip o0 ++ b ++ q.
Proof.
  intros o0 b y m p H. remember (o0, (b, y) :: m) as l0 eqn:E. destruct H as [t|t0 l b0 t]; [discriminate E|]. injection E as -> E. unfold written. cbn [fst snd].
  destruct l as [|z l]; cbn [app] in *; [injection E as -> _ _|injection E as -> _]; cbn [app map fst snd concat]; rewrite <- app_assoc; eexists; reflexivity.
Qed.
(** the environment arrives unchanged after the respaced and trimmed text before it *)
Lemma venv_kept : forall a body c, ~ In c_bs a -> ~ occurs eW body -> ~ occurs (lit "VERBATIM_BLOCK") (a ++ venv body ++ c) -> ~ occurs (lit "<PARA_BREAK>") (a ++ venv body ++ c) ->
  forall o, respaced a o -> exists rest, normalize_outside_verbatim (a ++ venv body ++ c) = lstrip o ++ venv body ++ rest.
Proof.
  intros a body c Na Nb Hv Hp o R. destruct (venv_first a body c Na Nb) as (t1 & segs & Eq & Hb & Hk).
  destruct (step4_core _ _ _ Hv Hp Eq Hb Hk) as (m & p & Rb & Tb & ->). unfold layout_of in Rb. cbn [map fst snd] in Rb. inversion Rb as [t0' o0 l' m' R0 F E1 E2]; subst. clear Rb.
  rewrite (respaced_fun _ _ R _ R0). inversion F as [|x y l1 m1 [Ef Es] F1 E3 E4]; subst. destruct y as [b y]. cbn [fst snd] in *. subst b.
  exact (trim_head _ _ _ _ _ Tb).
Qed.

(** * A macro that expands to itself *)
Section Never.
Variable St : Type.
Variable math : str -> nat.
Variable define : St -> str -> res (definition St).
Variable usepackage : St -> str -> res (St * nat).
Variable format : str -> option (str * nat).
Variable expand if_else : St -> str -> res (option (str * nat)).
Lemma never_ends : forall s t s1 b, t <> [] -> re_match_at DELIM_QUOTES t 0 <> None -> re_match_at ADD_TO t 0 = None -> math t = 0 -> ~ In c_tick t ->
  define s t = Ok DNone -> usepackage s t = Ok (s, 0) -> handled (format t) = None -> expand s t = Ok (Some (b, S s1)) -> b ++ skipn (S s1) t = t ->
  forall fuel before blocks, pre_loop St math define usepackage format expand if_else fuel s before t blocks = None.
Proof.
  intros s t n b Ne D A M T H1 H2 H3 H4 H5.
  assert (R : round St math define usepackage format expand if_else s t = Ok (Move s t 0)).
  { unfold round. assert (Z : exists m, re_search DELIM_QUOTES t = Some m /\ m_start m = 0).
    { destruct (re_match_at DELIM_QUOTES t 0) as [m|] eqn:E; [|congruence]. exists m. split; [unfold re_search; apply (search_first _ t 0 0); [lia|lia|intros; lia|exact E]|]. apply re_match_at_some in E as (E & _); [exact E|lia]. }
    destruct Z as (m & -> & ->). cbn [Nat.ltb Nat.leb]. rewrite A, M. cbn [Nat.ltb Nat.leb]. rewrite no_tick by exact T. unfold dispatch_rest. rewrite H1. cbn [bind]. rewrite H2. cbn [bind Nat.ltb Nat.leb].
    rewrite H3, H4. cbn [bind handled Nat.ltb Nat.leb]. rewrite H5. reflexivity. }
  induction fuel as [|f IH]; intros before blocks; [reflexivity|]. rewrite pre_loop_S. destruct t as [|x t]; [congruence|]. rewrite R. cbn [firstn skipn]. apply IH.
Qed.
End Never.
