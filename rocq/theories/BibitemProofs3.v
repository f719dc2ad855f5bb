(** C91: the bibliography environment. *)
From Coq Require Import List NArith PeanoNat Lia Bool String Compare_dec.
From Verif Require TextProofs TextProofs2 ParseCases DelimFinal StyleProofs3 LegacyProofs5.
From Verif Require Import PyStr Regex RegexLemmas RegexHead RegexLocal DelimSpec StyleSpec EqProofs EqProofs2 Placeholder ItemSpec BibitemModel BibitemSpec BibitemProofs BibitemProofs2.
Import ListNotations. Notation length := List.length. Notation concat := List.concat. Open Scope list_scope.

Section Env.
Variable w : ch -> bool.
Hypothesis W : word_class w.
Lemma not_w : forall (p : str) x, forallb w p = true -> w x = false -> ~ In x p.
Proof. intros p x H Hx I. rewrite forallb_forall in H. rewrite (H x I) in Hx. discriminate. Qed.
Lemma name_no_rb : forall p, forallb w p = true -> ~ In c_rb (p ++ lit "bibliography").
Proof. intros p H I. apply in_app_or in I as [I|I]; [exact (not_w p c_rb H (proj2 (proj2 W)) I)|]. cbn in I. repeat (destruct I as [I|I]; [discriminate I|]). exact I. Qed.
Lemma name_no_bs : forall p, forallb w p = true -> ~ In c_bs (p ++ lit "bibliography").
Proof. intros p H I. apply in_app_or in I as [I|I]; [exact (not_w p c_bs H (proj1 (proj2 W)) I)|]. cbn in I. repeat (destruct I as [I|I]; [discriminate I|]). exact I. Qed.
(** what a match is *)
Lemma begin_some : forall t i m, re_match_at (begin_bibliography w) t i = Some m ->
  exists p r, forallb w p = true /\ skipn i t = open_tag (p ++ lit "bibliography") ++ r /\ m_group t 1 m = Some (p ++ lit "bibliography") /\ m_end m = i + length (open_tag (p ++ lit "bibliography")).
Proof.
  intros t i m H. unfold re_match_at in H. destruct (rm (begin_bibliography w) t i []) as [|[j c] l] eqn:R; [discriminate|]. injection H as <-.
  assert (I : In (j, c) (rm (begin_bibliography w) t i [])) by (rewrite R; left; reflexivity). clear R l.
  unfold begin_bibliography in I. cbn [rseq] in I.
  change (In (j, c) (flat_map (fun jc => flat_map (fun jc => rm (is_ch c_rb) t (fst jc) (snd jc)) (rm (RGrp 1 (RSeq (rstar (RChr w)) (rstr (lit "bibliography")))) t (fst jc) (snd jc))) (rm (rstr (lit "\begin{")) t i []))) in I.
  apply in_flat_map in I as ([j1 c1] & I1 & I). cbn [fst snd] in I. rewrite rm_rstr in I1. destruct (startswith (skipn i t) (lit "\begin{")) eqn:S1; [|destruct I1]. destruct I1 as [I1|[]]. injection I1 as <- <-.
  apply startswith_spec in S1 as (r1 & E1). apply in_flat_map in I as ([j2 c2] & I2 & I3). cbn [fst snd] in I3.
  change (In (j2, c2) (map (fun jc => (fst jc, (1, (i + length (lit "\begin{"), fst jc)) :: snd jc)) (flat_map (fun jc => rm (rstr (lit "bibliography")) t (fst jc) (snd jc)) (rm (RStar true (RChr w)) t (i + length (lit "\begin{")) [])))) in I2.
  apply in_map_iff in I2 as ([j3 c3] & E3 & I2). cbn [fst snd] in E3. injection E3 as -> <-. apply in_flat_map in I2 as ([j4 c4] & I4 & I2). cbn [fst snd] in I2.
  rewrite rm_rstr in I2. destruct (startswith (skipn j4 t) (lit "bibliography")) eqn:S2; [|destruct I2]. destruct I2 as [I2|[]]. injection I2 as <- <-. apply startswith_spec in S2 as (r2 & E2).
  assert (L1 : i + length (lit "\begin{") <= length t). { apply (f_equal (@List.length ch)) in E1. rewrite skipn_length, app_length in E1. cbn in E1 |- *. lia. }
  assert (Rl := I4). apply rm_sound in Rl; [|exact L1]. rewrite rm_star_chr_greedy in I4. apply in_map_iff in I4 as (k & Ek & _). injection Ek as _ <-.
  apply rel_star_chr in Rl as (p & r & Ep & Hp & ->).
  change (In (j, c) (if next_is (N.eqb c_rb) t (i + length (lit "\begin{") + length p + length (lit "bibliography")) then [(S (i + length (lit "\begin{") + length p + length (lit "bibliography")), [(1, (i + length (lit "\begin{"), i + length (lit "\begin{") + length p + length (lit "bibliography")))])] else [])) in I3.
  destruct (next_is _ _ _) eqn:Nx; [|destruct I3]. destruct I3 as [I3|[]]. injection I3 as <- <-.
  assert (E1' := skipn_more t i (lit "\begin{") r1 E1). assert (X : r1 = p ++ r) by (rewrite <- Ep, <- E1'; reflexivity). clear Ep.
  assert (Y := skipn_more t (i + length (lit "\begin{")) p r (eq_trans E1' X)). rewrite E2 in Y.
  assert (Z := skipn_more t _ (lit "bibliography") r2 E2). unfold next_is in Nx. rewrite nth_error_skipn, Z in Nx. destruct r2 as [|y r2]; [discriminate|]. cbn [nth_error] in Nx. apply N.eqb_eq in Nx. subst y.
  assert (Es : skipn i t = lit "\begin{" ++ p ++ lit "bibliography" ++ c_rb :: r2) by (rewrite E1, X, <- Y; reflexivity).
  exists p, r2. split; [exact Hp|]. split; [|split].
  - rewrite Es. unfold open_tag. rewrite <- !app_assoc. reflexivity.
  - unfold m_group. cbn [m_caps cap_get Nat.eqb option_map]. unfold slice. change (skipn (i + 7) t) with (skipn (i + length (lit "\begin{")) t). rewrite E1', X, <- Y. f_equal.
    replace (i + 7 + length p + 12 - (i + 7)) with (length (p ++ lit "bibliography")) by (rewrite app_length; change (length (lit "bibliography")) with 12; lia).
    rewrite app_assoc. apply DelimFinal.firstn_app_exact. reflexivity.
  - cbn [m_end]. unfold open_tag. rewrite !app_length. change (length (lit "bibliography")) with 12. change (length (lit "\begin{")) with 7. cbn [List.length]. lia.
Qed.
Lemma begin_none : forall t i, i <= length t -> re_match_at (begin_bibliography w) t i = None -> forall p r, forallb w p = true -> skipn i t <> open_tag (p ++ lit "bibliography") ++ r.
Proof.
  intros t i L H p r Hp E. unfold open_tag in E. rewrite <- !app_assoc in E. unfold re_match_at in H. destruct (rm (begin_bibliography w) t i []) as [|[j c] l] eqn:R; [|discriminate]. clear H.
  assert (Rl : rel (begin_bibliography w) t i (S (i + length (lit "\begin{") + length p + length (lit "bibliography")))).
  { assert (E1 := skipn_more t i _ _ E). assert (E2 := skipn_more t _ p _ E1). assert (E3 := skipn_more t _ (lit "bibliography") _ E2).
    unfold begin_bibliography. cbn [rseq]. apply rel_rseq2. exists (i + length (lit "\begin{")). split; [apply rel_rstr; split; [reflexivity|eexists; exact E]|].
    apply rel_rseq2. exists (i + length (lit "\begin{") + length p + length (lit "bibliography")). split.
    - constructor. apply rel_rseq2. exists (i + length (lit "\begin{") + length p). split; [apply rel_star_chr; exists p; eexists; split; [exact E1|split; [exact Hp|reflexivity]]|].
      apply rel_rstr. split; [reflexivity|eexists; exact E2].
    - apply rel_is_ch. split; [reflexivity|exists r; exact E3]. }
  destruct (rm_complete _ _ _ _ Rl L []) as (c' & I). rewrite R in I. destruct I.
Qed.
(** equal tags *)
Lemma same_name : forall p p' r r', forallb w p = true -> forallb w p' = true -> open_tag (p ++ lit "bibliography") ++ r = open_tag (p' ++ lit "bibliography") ++ r' -> p = p' /\ r = r'.
Proof.
  intros p p' r r' H H' E. unfold open_tag in E. rewrite <- !app_assoc in E. apply app_inv_head in E.
  assert (E' : (p ++ lit "bibliography") ++ [c_rb] ++ r = (p' ++ lit "bibliography") ++ [c_rb] ++ r') by (rewrite <- !app_assoc; exact E). clear E.
  assert (N := name_no_rb p H). assert (N' := name_no_rb p' H').
  destruct (cut_app _ _ _ _ E') as [(e & E1 & E2)|(e & He & E1 & E2)].
  - destruct e as [|y e].
    + rewrite app_nil_r in E1. cbn [List.app] in E2. injection E2 as E2. apply app_inv_tail in E1. auto.
    + exfalso. cbn in E2. injection E2 as <- _. apply N'. rewrite E1. apply in_or_app. right. left. reflexivity.
  - destruct e as [|y e]; [congruence|]. exfalso. cbn in E2. injection E2 as <- _. apply N. rewrite E1. apply in_or_app. right. left. reflexivity.
Qed.
Lemma find_sub_some : forall u s k, find_sub u s = Some k -> exists b, s = firstn k s ++ u ++ b.
Proof.
  intros u. induction s as [|x s IH]; intros k H; cbn [find_sub] in H.
  - destruct (startswith [] u) eqn:E; [|discriminate]. injection H as <-. apply startswith_spec in E as (q & E). exists q. exact E.
  - destruct (startswith (x :: s) u) eqn:E.
    + injection H as <-. apply startswith_spec in E as (q & E). exists q. exact E.
    + destruct (find_sub u s) as [k'|] eqn:F; [|discriminate]. cbn in H. injection H as <-. destruct (IH k' eq_refl) as (b & B). exists b. cbn [firstn List.app]. f_equal. exact B.
Qed.
Lemma find_sub_none : forall u s, find_sub u s = None -> ~ occurs u s.
Proof.
  intros u. induction s as [|x s IH]; intros H (p & q & E); cbn [find_sub] in H.
  - destruct (startswith [] u) eqn:F; [discriminate|]. symmetry in E. apply app_eq_nil in E as [-> E]. rewrite <- E, startswith_app in F. discriminate.
  - destruct (startswith (x :: s) u) eqn:F; [discriminate|]. destruct (find_sub u s) as [k|] eqn:G; [discriminate|]. destruct p as [|y p].
    + cbn in E. rewrite E, startswith_app in F. discriminate.
    + cbn in E. injection E as _ E. apply IH; [reflexivity|]. exists p, q. exact E.
Qed.
(** the closing tag is found at its first occurrence *)
Lemma find_close : forall name inner post, ~ In c_bs name -> ~ occurs (close_tag name) inner -> find_sub (close_tag name) (inner ++ close_tag name ++ post) = Some (length inner).
Proof.
  intros name inner post N O. rewrite find_miss.
  - assert (F : find_sub (close_tag name) (close_tag name ++ post) = Some 0). { unfold find_sub. destruct (close_tag name ++ post) eqn:E; rewrite <- E, startswith_app; reflexivity. }
    rewrite F. cbn [option_map]. f_equal. lia.
  - intros n Hn. apply not_true_iff_false. intros S. apply startswith_spec in S as (q & S).
    assert (Ne : skipn n inner <> []) by (intros X; apply (f_equal (@List.length ch)) in X; rewrite skipn_length in X; cbn [List.length] in X; lia).
    destruct (cut_app _ _ _ _ S) as [(e & E1 & E2)|(e & He & E1 & E2)].
    + destruct e as [|y e]; [apply O; apply (occurs_skipn _ n); exists [], []; cbn [List.app]; rewrite app_nil_r; rewrite app_nil_r in E1; symmetry; exact E1|].
      assert (y = c_bs) by (unfold close_tag in E2; cbn in E2; injection E2 as E2 _; symmetry; exact E2). subst y.
      destruct (skipn n inner) as [|z v]; [congruence|]. unfold close_tag in E1. cbn [List.app] in E1. assert (I : In c_bs (lit "end{" ++ name ++ [c_rb])).
      { assert (X : lit "end{" ++ name ++ [c_rb] = v ++ c_bs :: e) by (apply (f_equal (@tl ch)) in E1; exact E1). rewrite X. apply in_or_app. right. left. reflexivity. }
      apply in_app_or in I as [I|I]; [cbn in I; repeat (destruct I as [I|I]; [discriminate I|]); exact I|]. apply in_app_or in I as [I|I]; [exact (N I)|]. cbn in I. destruct I as [I|[]]. discriminate I.
    + apply O. apply (occurs_skipn _ n). exists [], e. exact E1.
Qed.
Lemma env_step : forall k t i, environment w (S k) t i = match re_match_at (begin_bibliography w) t i with
  | Some m => match find_sub (lit "\end{" ++ match m_group t 1 m with Some n => n | None => [] end ++ [c_rb]) (skipn (m_end m) t) with
      | Some p => Some (firstn p (skipn (m_end m) t)) | None => environment w k t (S i) end
  | None => environment w k t (S i) end.
Proof. reflexivity. Qed.
Lemma env_sound : forall k t i inner, environment w k t i = Some inner -> exists pre name post, bibliography_env w t pre name inner post.
Proof.
  induction k as [|k IH]; intros t i inner H; [discriminate|]. rewrite env_step in H. destruct (re_match_at (begin_bibliography w) t i) as [m|] eqn:M; [|exact (IH _ _ _ H)].
  destruct (begin_some _ _ _ M) as (p & r & Hp & E & G & He). rewrite G in H. fold (close_tag (p ++ lit "bibliography")) in H.
  destruct (find_sub _ _) as [n|] eqn:F; [|exact (IH _ _ _ H)]. injection H as <-. rewrite He in F |- *. rewrite (skipn_more t i _ r E) in F |- *. destruct (find_sub_some _ _ _ F) as (b & B).
  exists (firstn i t), (p ++ lit "bibliography"), b. split; [|exists p; auto]. rewrite <- B, <- E. symmetry. apply firstn_skipn.
Qed.
(** no tag begins before the first one *)
Lemma no_tag_before : forall pre rest i p r, (exists q, rest = lit "\begin{" ++ q) -> ~ occurs (lit "bibliography}") pre -> i < length pre -> forallb w p = true ->
  skipn i (pre ++ rest) <> open_tag (p ++ lit "bibliography") ++ r.
Proof.
  intros pre rest i p r (q & Er) O Li Hp E. rewrite skipn_app in E. replace (i - length pre) with 0 in E by lia. cbn [skipn] in E.
  assert (Ne : skipn i pre <> []) by (intros X; apply (f_equal (@List.length ch)) in X; rewrite skipn_length in X; cbn [List.length] in X; lia).
  destruct (cut_app _ _ _ _ E) as [(e & E1 & E2)|(e & He & E1 & E2)].
  - destruct e as [|y e].
    + rewrite app_nil_r in E1. apply O. apply (occurs_skipn _ i). rewrite <- E1. unfold open_tag. exists (lit "\begin{" ++ p), []. rewrite <- !app_assoc. reflexivity.
    + rewrite Er in E2. cbn in E2. injection E2 as <- _. destruct (skipn i pre) as [|z v]; [congruence|]. unfold open_tag in E1.
      assert (I : In c_bs (lit "begin{" ++ (p ++ lit "bibliography") ++ [c_rb])).
      { assert (X : lit "begin{" ++ (p ++ lit "bibliography") ++ [c_rb] = v ++ c_bs :: e) by (apply (f_equal (@tl ch)) in E1; exact E1). rewrite X. apply in_or_app. right. left. reflexivity. }
      apply in_app_or in I as [I|I]; [cbn in I; repeat (destruct I as [I|I]; [discriminate I|]); exact I|]. apply in_app_or in I as [I|I]; [exact (name_no_bs p Hp I)|]. cbn in I. destruct I as [I|[]]. discriminate I.
  - apply O. apply (occurs_skipn _ i). rewrite E1. unfold open_tag. exists (lit "\begin{" ++ p), e. rewrite <- !app_assoc. reflexivity.
Qed.
Lemma env_found : forall t pre name inner post, bibliography_env w t pre name inner post -> ~ occurs (lit "bibliography}") pre -> ~ occurs (close_tag name) inner ->
  environment w (S (length t)) t 0 = Some inner.
Proof.
  intros t pre name inner post (E & p & -> & Hp) Opre Oin.
  assert (Go : forall k i, i <= length pre -> length pre - i < k -> environment w k t i = Some inner).
  { induction k as [|k IH]; intros i Li Lk; [lia|]. rewrite env_step. destruct (Nat.eq_dec i (length pre)) as [->|Ni].
    - assert (Es : skipn (length pre) t = open_tag (p ++ lit "bibliography") ++ inner ++ close_tag (p ++ lit "bibliography") ++ post) by (rewrite E; apply DelimFinal.skipn_app_exact; reflexivity).
      destruct (re_match_at (begin_bibliography w) t (length pre)) as [m|] eqn:M.
      + destruct (begin_some _ _ _ M) as (p' & r & Hp' & E' & G & He). rewrite Es in E'. destruct (same_name _ _ _ _ Hp Hp' E') as (<- & Hr). rewrite G, He, (skipn_more t _ _ _ Es). fold (close_tag (p ++ lit "bibliography")).
        rewrite find_close by (auto using name_no_bs). rewrite DelimFinal.firstn_app_exact by reflexivity. reflexivity.
      + exfalso. apply (begin_none t (length pre)) with (p := p) (r := inner ++ close_tag (p ++ lit "bibliography") ++ post) in M; auto. rewrite E, app_length. lia.
    - destruct (re_match_at (begin_bibliography w) t i) as [m|] eqn:M; [|apply IH; lia].
      exfalso. destruct (begin_some _ _ _ M) as (p' & r & Hp' & E' & _). rewrite E in E'. revert E'. apply no_tag_before; [|exact Opre|lia|exact Hp']. unfold open_tag. eexists. rewrite <- app_assoc. reflexivity. }
  apply Go; [lia|]. rewrite E, app_length. lia.
Qed.
Theorem searched_exact : forall t b, searched w t b -> match environment w (S (length t)) t 0 with Some inner => inner | None => t end = b.
Proof.
  intros t b H. destruct H as [pre name inner post H O1 O2|H].
  - rewrite (env_found _ _ _ _ _ H O1 O2). reflexivity.
  - destruct (environment w (S (length t)) t 0) as [inner|] eqn:E; [|reflexivity]. exfalso. destruct (env_sound _ _ _ _ E) as (pre & name & post & X). exact (H _ _ _ _ X).
Qed.
Theorem bibitems_exact : forall t pre T items out, searched w t (pre ++ T) -> ~ occurs item_word pre -> items_text items T -> entries_of w None items out -> parse_bibitems w t = Some out.
Proof.
  intros t pre T items out S N HT HE. unfold parse_bibitems. cbv zeta. rewrite (searched_exact _ _ S). eapply items_parsed; eauto; apply (proj1 W); unfold letter; lia.
Qed.

(** * When nothing is raised *)
Lemma replaced_start : forall cmd s out, starts_with w cmd = false -> replaced w cmd [] s out -> starts_with w s = false -> starts_with w out = false.
Proof. intros cmd s out C R. induction R as [|r out Hr R IH|x r out Hx R IH]; intros H; [reflexivity|cbn [List.app]; apply IH; exact Hr|exact H]. Qed.
Lemma replaced_word : forall cmd s out, starts_with w cmd = false -> replaced w cmd [] s out -> forall u q, forallb w u = true -> u <> [] -> out = u ++ q -> starts_with w s = true -> exists q', s = u ++ q'.
Proof.
  intros cmd s out C R. induction R as [|r out Hr R IH|x r out Hx R IH]; intros u q Hu Ne E St.
  - destruct u; [congruence|discriminate].
  - exfalso. destruct cmd as [|z cmd]; [cbn in St; congruence|]. cbn in St, C. congruence.
  - destruct u as [|y u]; [congruence|]. cbn in E. injection E as <- E. cbn in Hu. apply andb_prop in Hu as [_ Hu]. destruct u as [|y u]; [exists r; reflexivity|].
    destruct (starts_with w r) eqn:Sr; [destruct (IH (y :: u) q Hu) as (q' & ->); [discriminate|exact E|reflexivity|exists q'; reflexivity]|].
    assert (X := replaced_start _ _ _ C R Sr). rewrite E in X. cbn in X, Hu. rewrite X in Hu. discriminate.
Qed.
Lemma no_new_command : forall cmd word s out, starts_with w cmd = false -> forallb w word = true -> word <> [] -> replaced w cmd [] s out -> occurs (c_bs :: word) out -> occurs (c_bs :: word) s.
Proof.
  intros cmd word s out C Hw Ne R. induction R as [|r out Hr R IH|x r out Hx R IH]; intros O; [exact O| |].
  - destruct (IH O) as (p & q & ->). exists (cmd ++ p), q. rewrite <- app_assoc. reflexivity.
  - apply occurs_cons in O as [(q & E)|O].
    + cbn in E. injection E as -> E. destruct (starts_with w r) eqn:Sr.
      * destruct (replaced_word _ _ _ C R word q Hw Ne E Sr) as (q' & ->). exists [], q'. reflexivity.
      * exfalso. assert (X := replaced_start _ _ _ C R Sr). rewrite E in X. destruct word as [|y word]; [congruence|]. cbn in X, Hw. rewrite X in Hw. discriminate.
    + destruct (IH O) as (p & q & ->). exists (x :: p), q. reflexivity.
Qed.
Lemma item_total : forall prev s, ~ occurs (lit "\bysame") s -> item_content w prev s <> None.
Proof.
  intros prev s N. assert (Wk : w 107%N = true) by (apply (proj1 W); unfold letter; lia).
  destruct (replaced_total w (lit "\newbloc") 107%N [] (length s) s (le_n _)) as (c & R).
  unfold item_content. cbv zeta. rewrite newblock_eq, (sub_replaced w (lit "\newbloc") 107%N Wk [] s c R).
  destruct prev as [[|x p]|]; try discriminate. rewrite bysame_eq, (sub_absent w (lit "\bysam") 101%N [] c); [discriminate|].
  intros O. apply N. apply (no_new_command (lit "\newblock") (lit "bysame") s c); [exact (proj1 (proj2 W))| |discriminate|exact R|exact O].
  apply forallb_forall. intros x0 I. apply (proj1 W). unfold letter. cbn in I. repeat (destruct I as [<-|I]; [lia|]). destruct I.
Qed.
Lemma entries_total : forall t ms prev, ~ occurs (lit "\bysame") t -> entries w t prev ms <> None.
Proof.
  intros t ms. induction ms as [|m ms IH]; intros prev N; [discriminate|]. cbn [entries].
  set (g := match m_group t 3 m with Some g => g | None => [] end).
  assert (Ng : ~ occurs (lit "\bysame") (strip g)).
  { intros O. apply TextProofs.occurs_strip in O. unfold g, m_group in O. destruct (cap_get 3 (m_caps m)) as [[i j]|]; cbn [option_map] in O.
    - apply N. unfold slice in O. apply (occurs_skipn _ i). destruct O as (a & b & E). exists a, (b ++ skipn (j - i) (skipn i t)). rewrite <- (firstn_skipn (j - i) (skipn i t)), E at 1. rewrite <- !app_assoc. reflexivity.
    - destruct O as (a & b & E). symmetry in E. apply app_eq_nil in E as [_ E]. discriminate E. }
  destruct (strip g) as [|y s] eqn:Es; [apply IH; exact N|]. rewrite <- Es in *. assert (X := item_total prev (strip g) Ng). destruct (item_content w prev (strip g)) as [c|]; [|congruence].
  specialize (IH (Some c) N). destruct (entries w t (Some c) ms); [discriminate|congruence].
Qed.
Theorem bibitems_total : forall t, ~ occurs (lit "\bysame") t -> parse_bibitems w t <> None.
Proof.
  intros t N. unfold parse_bibitems. cbv zeta. apply entries_total. destruct (environment w (S (length t)) t 0) as [inner|] eqn:E; [|exact N].
  destruct (env_sound _ _ _ _ E) as (pre & name & post & -> & _). intros (a & b & ->). apply N. exists (pre ++ open_tag name ++ a), (b ++ close_tag name ++ post). rewrite <- !app_assoc. reflexivity.
Qed.
End Env.
