(** C93: the fields of an entry. *)
From Coq Require Import List NArith PeanoNat Lia Bool String Compare_dec.
From Verif Require TextProofs BibProofs2 DelimFinal.
From Verif Require Import PyStr Regex RegexLemmas RegexHead RegexLocal DelimSpec DelimProofs TexUtilsModel CommandSpec ItemSpec EqProofs2 Placeholder KeyvalModel BibModel BibSpec BibProofs BibdivModel BibdivSpec.
Import ListNotations. Notation length := List.length. Notation concat := List.concat. Open Scope list_scope.
Notation fields_loop := BibdivModel.fields_loop.
Notation loop := fields_loop.

(** * Termination *)
Section Total.
Variable isword : ch -> bool.
Variable lower : str -> str.
Lemma loop_step : forall fuel text pos fs, loop isword lower (S fuel) text pos fs =
      if Nat.ltb pos (length text) then
        match re_match_at (field_pattern isword) (skipn pos text) 0 with
        | None => loop isword lower fuel text (pos + 1) fs
        | Some m =>
            let name := lower (match m_group (skipn pos text) 1 m with Some g => g | None => [] end) in
            let start := pos + m_end m in
            let '(fields, pos) :=
              if startswith (lstrip (skipn start text)) [c_lb] then
                let start := start + nlead (skipn start text) in
                match extract_nested_content (skipn start text) c_lb c_rb with
                | (Some value, value_end) => (add_field fs name (strip (strip_braces value)), start + value_end)
                | (None, _) => (fs, pos)
                end
              else
                let comma := match find_char c_comma (skipn start text) with Some k => start + k | None => length text end in
                (add_field fs name (strip_braces (strip (slice start comma text))), comma + 1) in
            loop isword lower fuel text (pos + nlead (skipn pos text)) fields
        end
      else Some fs.
Proof. reflexivity. Qed.
Lemma field_at : forall u m, re_match_at (field_pattern isword) u 0 = Some m -> exists a ws r, u = a ++ [c_eq] ++ ws ++ r /\ blank ws /\ m_end m = length a + 1 + length ws.
Proof.
  intros u m H. assert (R : rel (field_pattern isword) u 0 (m_end m)).
  { unfold re_match_at in H. destruct (rm (field_pattern isword) u 0 []) as [|[j c] l] eqn:E; [discriminate|]. injection H as <-. cbn [m_end]. assert (I : In (j, c) (rm (field_pattern isword) u 0 [])) by (rewrite E; left; reflexivity). apply rm_sound in I; [exact I|lia]. }
  assert (B : m_end m <= length u) by (apply rel_bounds in R; lia).
  unfold field_pattern in R. cbn [rseq] in R. apply rel_rseq2 in R as (j0 & _ & R). apply rel_rseq2 in R as (j1 & _ & R). apply rel_rseq2 in R as (j2 & _ & R). apply rel_rseq2 in R as (j3 & R3 & R).
  apply rel_is_ch in R3 as (-> & r & E). apply rel_star_chr in R as (ws & r' & E' & W & Em). rewrite (skipn_more1 _ _ _ _ E) in E'. subst r.
  exists (firstn j2 u), ws, r'. cbn [List.app]. rewrite <- E, firstn_skipn. split; [reflexivity|]. split; [exact W|]. rewrite firstn_length. lia.
Qed.
Lemma loop_total : forall text, closable text -> forall fuel pos fs, length text - pos < fuel -> exists o, loop isword lower fuel text pos fs = Some o.
Proof.
  intros text C. induction fuel as [|fuel IH]; intros pos fs Hf; [lia|]. rewrite loop_step.
  destruct (Nat.ltb pos (length text)) eqn:L; [|eauto]. apply Nat.ltb_lt in L.
  destruct (re_match_at (field_pattern isword) (skipn pos text) 0) as [m|] eqn:S; [|apply IH; lia].
  destruct (field_at _ _ S) as (a & ws & r & E & W & Em). cbv zeta.
  assert (ET : text = (firstn pos text ++ a ++ [c_eq] ++ ws) ++ r) by (rewrite <- !app_assoc, <- E; symmetry; apply firstn_skipn).
  assert (EL : length (firstn pos text ++ a ++ [c_eq] ++ ws) = pos + m_end m) by (rewrite !app_length, firstn_length, Em; cbn [length]; lia).
  assert (ER : skipn (pos + m_end m) text = r) by (rewrite ET at 1; apply skipn_len; symmetry; exact EL).
  rewrite ER. destruct (startswith (lstrip r) [c_lb]) eqn:SB.
  - destruct (lstrip_open _ SB) as (w2 & rest & Er & W2 & NL). rewrite NL.
    assert (ET2 : text = (firstn pos text ++ a ++ [c_eq] ++ ws ++ w2) ++ c_lb :: rest) by (rewrite <- !app_assoc, <- Er; rewrite <- !app_assoc in ET; exact ET).
    assert (ER2 : skipn (pos + m_end m + length w2) text = c_lb :: rest) by (rewrite ET2 at 1; apply skipn_len; rewrite !app_length in *; lia).
    rewrite ER2. destruct (C _ _ ET2) as (v & n & EX & Hn).
    { intros e. rewrite !esc_end_app. match goal with |- esc_end (esc_end (esc_end ?X [c_eq]) ws) w2 = _ => change (esc_end X [c_eq]) with false end. rewrite (blank_esc ws W). apply blank_esc, W2. }
    rewrite EX. apply IH. lia.
  - assert (Hc : pos + m_end m <= match find_char c_comma r with Some k => pos + m_end m + k | None => length text end).
    { destruct (find_char c_comma r); [lia|]. assert (X := f_equal (@List.length ch) ET). rewrite app_length in X. lia. }
    apply IH. lia.
Qed.
Lemma entry_total : forall content m, exists o, bib_entry isword lower (S (length content)) content m = Some o.
Proof.
  intros content m. unfold bib_entry. destruct (extract_nested_content _ _ _) as [[entry|] n] eqn:X; [|eauto]. destruct entry as [|x entry]; [eauto|].
  apply extract_nested_content_iff in X; [|exact delims_curly]. destruct X as (ws & rest & E & _ & B & _ & _).
  assert (LE : length (x :: entry) <= length content). { apply (f_equal (@List.length ch)) in E. rewrite skipn_length, !app_length in E. cbn [length] in E. rewrite app_length in E. cbn [length] in E |- *. lia. }
  destruct (loop_total (x :: entry)) with (fuel := S (length content)) (pos := 0) (fs := @nil (str * str)) as (o & Ho).
  - apply (balanced_closable (x :: entry) [] _ []); [exact B|rewrite app_nil_r; reflexivity|reflexivity].
  - lia.
  - rewrite Ho. eauto.
Qed.
Theorem bibdiv_terminates : forall content, exists es, bibdiv_parse isword lower (S (length content)) content = Some es.
Proof.
  intros content. unfold bibdiv_parse. induction (re_finditer BibPattern content) as [|m ms [o IH]]; cbn [bib_entries]; [eauto|]. destruct (entry_total content m) as (e & ->). rewrite IH. eauto.
Qed.
End Total.

(** * Values without braces *)
Lemma brace_rb : forall g, braceless g -> ~ In c_rb g /\ ~ In c_lb g.
Proof. intros g H. unfold braceless in H. rewrite forallb_forall in H. split; intros I; specialize (H _ I); discriminate H. Qed.
Lemma filter_id : forall (p : ch -> bool) s, forallb p s = true -> filter p s = s.
Proof. intros p. induction s as [|x s IH]; intros H; [reflexivity|]. cbn in H |- *. apply andb_prop in H as [H1 H2]. rewrite H1, IH by exact H2. reflexivity. Qed.
Lemma brace_min : 0 < minlen brace_pattern. Proof. apply Nat.ltb_lt. vm_compute. reflexivity. Qed.
Lemma flat_stripped : forall v, flat v -> strip_braces v = no_braces v.
Proof.
  intros v F. unfold strip_braces. rewrite re_sub_at0. set (f := fun m => match m_group v 1 m with Some g => g | None => [] end).
  assert (Go : forall s, flat s -> forall pos, pos <= length v -> skipn pos v = s -> sub_at brace_pattern f v pos = no_braces s).
  { clear F. intros s F. induction F as [|x r Hx F IH|g r Hg F IH]; intros pos L E.
    - assert (length v <= pos) by (apply (f_equal (@List.length ch)) in E; rewrite skipn_length in E; cbn [List.length] in E; lia). rewrite sub_at_end by (auto using brace_min). reflexivity.
    - assert (Lp : pos < length v) by (apply (f_equal (@List.length ch)) in E; rewrite skipn_length in E; cbn [List.length] in E; lia).
      rewrite sub_at_step by (auto using brace_min). assert (M : re_match_at brace_pattern v pos = None).
      { apply re_match_at_none; [lia|]. intros j R. unfold brace_pattern in R. cbn [rseq] in R. apply rel_rseq2 in R as (k & R & _). apply rel_is_ch in R as (_ & q & R). rewrite E in R. injection R as -> _. discriminate Hx. }
      rewrite M. unfold slice. rewrite E. replace (S pos - pos) with 1 by lia. cbn [firstn List.app no_braces filter]. rewrite Hx. cbn [negb]. f_equal. apply IH; [lia|exact (skipn_more1 v pos x r E)].
    - assert (Lp : pos + length g + 2 <= length v) by (apply (f_equal (@List.length ch)) in E; rewrite skipn_length in E; cbn [List.length] in E; rewrite app_length in E; cbn [List.length] in E; lia).
      rewrite sub_at_step; [|exact brace_min|lia]. destruct (brace_rb g Hg) as [N1 N2].
      assert (E1 := skipn_more1 v pos c_lb _ E). assert (E2 := skipn_more v (S pos) g _ E1).
      assert (M : re_match_at brace_pattern v pos = Some {| m_start := pos; m_end := S (S pos + length g); m_caps := [(1, (S pos, S pos + length g))] |}).
      { apply fm_match. unfold brace_pattern. cbn [rseq]. eapply fm_seq; [eapply fm_is_ch; exact E|]. eapply fm_seq; [apply fm_grp; eapply fm_star; [exact E1| |reflexivity]|eapply fm_is_ch; exact E2].
        apply forallb_forall. intros y Iy. apply negb_true_iff. apply N.eqb_neq. intros ->. exact (N1 Iy). }
      rewrite M. cbn [m_end]. assert (G : f {| m_start := pos; m_end := S (S pos + length g); m_caps := [(1, (S pos, S pos + length g))] |} = g).
      { unfold f, m_group. cbn [m_caps cap_get Nat.eqb option_map]. unfold slice. rewrite E1. replace (S pos + length g - S pos) with (length g) by lia. apply DelimFinal.firstn_app_exact. reflexivity. }
      rewrite G. assert (NB : no_braces (c_lb :: g ++ c_rb :: r) = g ++ no_braces r). { unfold no_braces. cbn [filter]. change (negb (brace c_lb)) with false. cbv iota. rewrite filter_app. cbn [filter]. change (negb (brace c_rb)) with false. cbv iota. rewrite filter_id by exact Hg. reflexivity. }
      rewrite NB. f_equal. apply IH; [lia|]. exact (skipn_more1 v (S pos + length g) c_rb r E2). }
  apply (Go v F 0); [lia|reflexivity].
Qed.

(** * The dictionary *)
Section Dict.
Variable lower : str -> str.
Definition add (d : list (str * str)) (kv : str * str) : list (str * str) := add_field d (lower (fst kv)) (snd kv).
Lemma str_eqb_refl : forall k, str_eqb k k = true. Proof. intros k. apply str_eqb_spec. reflexivity. Qed.
Lemma str_eqb_sym : forall a b, str_eqb a b = str_eqb b a.
Proof. intros a b. destruct (str_eqb a b) eqn:E; destruct (str_eqb b a) eqn:F; try reflexivity; [apply str_eqb_spec in E; subst; rewrite str_eqb_refl in F; discriminate|apply str_eqb_spec in F; subst; rewrite str_eqb_refl in E; discriminate]. Qed.
Lemma in_firsts : forall k l, In k (firsts l) <-> In k l.
Proof.
  intros k. induction l as [|x l IH]; [reflexivity|]. cbn [firsts In]. rewrite filter_In, IH. split; [tauto|]. intros [->|I]; [left; reflexivity|]. destruct (str_eqb x k) eqn:E; [left; apply str_eqb_spec; exact E|right; auto].
Qed.
Lemma firsts_snoc : forall l k, firsts (l ++ [k]) = if existsb (str_eqb k) l then firsts l else firsts l ++ [k].
Proof.
  induction l as [|x l IH]; intros k; [reflexivity|]. cbn [firsts List.app existsb]. rewrite IH, (str_eqb_sym k x). destruct (str_eqb x k) eqn:E; cbn [orb].
  - apply str_eqb_spec in E. subst k. destruct (existsb (str_eqb x) l); [reflexivity|]. rewrite filter_app. cbn [filter]. rewrite str_eqb_refl. cbn [negb]. rewrite app_nil_r. reflexivity.
  - destruct (existsb (str_eqb k) l); [reflexivity|]. rewrite filter_app. cbn [filter]. rewrite E. reflexivity.
Qed.
Lemma sget_map : forall (f : str -> str) k l, sget k (map (fun k => (k, f k)) l) = if existsb (str_eqb k) l then Some (f k) else None.
Proof.
  intros f k. induction l as [|x l IH]; [reflexivity|]. cbn [map sget existsb]. destruct (str_eqb k x) eqn:E; cbn [orb]; [apply str_eqb_spec in E; subst; reflexivity|exact IH].
Qed.
Lemma sset_map_new : forall (f : str -> str) k v l, existsb (str_eqb k) l = false -> sset k v (map (fun k => (k, f k)) l) = map (fun k => (k, f k)) l ++ [(k, v)].
Proof. intros f k v. induction l as [|x l IH]; intros H; [reflexivity|]. cbn [existsb] in H. apply orb_false_elim in H as [H1 H2]. cbn [map sset List.app]. rewrite H1, IH by exact H2. reflexivity. Qed.
Lemma sset_map_old : forall (f g : str -> str) k l, NoDup l -> In k l -> (forall k', k' <> k -> f k' = g k') -> sset k (g k) (map (fun k => (k, f k)) l) = map (fun k => (k, g k)) l.
Proof.
  intros f g k. induction l as [|x l IH]; intros N I H; [destruct I|]. inversion N; subst. cbn [map sset]. destruct (str_eqb k x) eqn:E.
  - apply str_eqb_spec in E. subst x. f_equal. apply map_ext_in. intros a Ia. f_equal. apply H. intros ->. contradiction.
  - assert (x <> k) by (intros ->; rewrite str_eqb_refl in E; discriminate). f_equal; [f_equal; apply H; assumption|]. apply IH; [assumption| |exact H]. destruct I as [I|I]; [congruence|exact I].
Qed.
Lemma nodup_firsts : forall l, NoDup (firsts l).
Proof.
  induction l as [|x l IH]; [constructor|]. cbn [firsts]. constructor.
  - intros I. apply filter_In in I as [_ I]. rewrite str_eqb_refl in I. discriminate.
  - apply NoDup_filter. exact IH.
Qed.
Lemma join_snoc : forall sep l v, l <> [] -> join sep (l ++ [v]) = join sep l ++ sep ++ v.
Proof.
  intros sep. induction l as [|x l IH]; intros v H; [congruence|]. destruct l as [|y l]; [reflexivity|]. change (join sep ((x :: y :: l) ++ [v])) with (x ++ sep ++ join sep ((y :: l) ++ [v])). rewrite IH by discriminate. change (join sep (x :: y :: l)) with (x ++ sep ++ join sep (y :: l)). rewrite <- !app_assoc. reflexivity.
Qed.
Definition vals (fs : list (str * str)) (k : str) : str := join (lit " and ") (map snd (filter (fun kv => str_eqb k (lower (fst kv))) fs)).
Lemma exists_key : forall k fs, existsb (str_eqb k) (map (fun kv : str * str => lower (fst kv)) fs) = negb (nilb (filter (fun kv => str_eqb k (lower (fst kv))) fs)).
Proof. intros k. induction fs as [|x fs IH]; [reflexivity|]. cbn [map existsb filter]. destruct (str_eqb k (lower (fst x))); [reflexivity|exact IH]. Qed.
Lemma existsb_firsts : forall k l, existsb (str_eqb k) (firsts l) = existsb (str_eqb k) l.
Proof.
  intros k l. destruct (existsb (str_eqb k) l) eqn:E.
  - apply existsb_exists in E as (x & I & X). apply existsb_exists. exists x. split; [apply in_firsts; exact I|exact X].
  - apply not_true_iff_false. intros X. apply existsb_exists in X as (x & I & Y). apply (proj1 (in_firsts _ _)) in I. assert (existsb (str_eqb k) l = true) by (apply existsb_exists; exists x; split; assumption). congruence.
Qed.
Theorem dict_merged : forall fs, fold_left add fs [] = merged lower fs.
Proof.
  intros fs. induction fs as [|[n v] fs IH] using rev_ind; [reflexivity|]. rewrite fold_left_app. cbn [fold_left]. rewrite IH. unfold add at 1. cbn [fst snd]. unfold merged. fold (vals fs). fold (vals (fs ++ [(n, v)])).
  change (map (fun k => (k, join (lit " and ") (map snd (filter (fun kv => str_eqb k (lower (fst kv))) fs)))) (firsts (map (fun kv => lower (fst kv)) fs))) with (map (fun k => (k, vals fs k)) (firsts (map (fun kv => lower (fst kv)) fs))).
  change (map (fun k => (k, join (lit " and ") (map snd (filter (fun kv => str_eqb k (lower (fst kv))) (fs ++ [(n, v)]))))) (firsts (map (fun kv => lower (fst kv)) (fs ++ [(n, v)])))) with (map (fun k => (k, vals (fs ++ [(n, v)]) k)) (firsts (map (fun kv => lower (fst kv)) (fs ++ [(n, v)])))).
  assert (Oth : forall k', k' <> lower n -> vals fs k' = vals (fs ++ [(n, v)]) k').
  { intros k' Hk. unfold vals. rewrite filter_app. cbn [filter fst]. destruct (str_eqb k' (lower n)) eqn:E; [apply str_eqb_spec in E; congruence|]. rewrite app_nil_r. reflexivity. }
  rewrite map_app. cbn [map fst]. rewrite firsts_snoc. unfold add_field. rewrite sget_map, existsb_firsts. destruct (existsb (str_eqb (lower n)) (map (fun kv => lower (fst kv)) fs)) eqn:Ex.
  - assert (Vn : vals (fs ++ [(n, v)]) (lower n) = vals fs (lower n) ++ lit " and " ++ v).
    { unfold vals. rewrite filter_app. cbn [filter fst]. rewrite str_eqb_refl, map_app. cbn [map snd]. apply join_snoc. rewrite exists_key in Ex. destruct (filter _ fs); [discriminate Ex|discriminate]. }
    rewrite <- Vn. apply sset_map_old; [apply nodup_firsts| |exact Oth]. apply in_firsts. apply existsb_exists in Ex as (x & I & X). apply str_eqb_spec in X. subst x. exact I.
  - rewrite sset_map_new by (rewrite existsb_firsts; exact Ex). rewrite map_app. cbn [map]. f_equal.
    + apply map_ext_in. intros a Ia. f_equal. apply Oth. intros ->. apply (proj1 (in_firsts _ _)) in Ia. assert (existsb (str_eqb (lower n)) (map (fun kv => lower (fst kv)) fs) = true) by (apply existsb_exists; exists (lower n); split; [exact Ia|apply str_eqb_refl]). congruence.
    + do 2 f_equal. unfold vals. rewrite filter_app. cbn [filter fst]. rewrite str_eqb_refl. rewrite exists_key in Ex. destruct (filter _ fs); [reflexivity|discriminate Ex].
Qed.
End Dict.
