(** Equations: labels and placeholders. *)
From Coq Require Import List NArith PeanoNat Lia Bool String.
From Verif Require Import PyStr Regex RegexLemmas RegexLocal RegexHead TexUtilsModel DelimSpec DelimProofs DelimFinal KeyvalProofs2 Placeholder PlaceProofs
  EnvModel EnvHandlerModel EnvHandlerProofs EqModel EqSpec EqProofs.
Import ListNotations.
Notation length := List.length.
Notation concat := List.concat.
Open Scope list_scope.

Lemma iter_skip : forall r t n pos, 0 < minlen r -> pos + n <= length t -> (forall k, k < n -> re_match_at r t (pos + k) = None) -> iter_at r t pos = iter_at r t (pos + n).
Proof.
  intros r t n pos M. revert pos. induction n as [|n IH]; intros pos H N; [rewrite Nat.add_0_r; reflexivity|].
  rewrite iter_at_step by (auto; lia). pose proof (N 0 ltac:(lia)) as N0. rewrite Nat.add_0_r in N0. rewrite N0. rewrite IH; [f_equal; lia|lia|].
  intros k Hk. replace (S pos + k) with (pos + S k) by lia. apply N. lia.
Qed.

Notation lab := (lit "\label").
Definition bs_head (s : str) : Prop := s = [] \/ exists r, s = c_bs :: r.
Lemma no_spill : forall u s, u <> [] -> ~ occurs lab u -> bs_head s -> ~ prefix lab (u ++ s).
Proof.
  intros u s U O B (q & P). symmetry in P. destruct (cut_app _ _ _ _ P) as [(e & E & _)|(e & Ne & E & Es)].
  - apply O. exists [], e. exact E.
  - destruct u as [|x u]; [congruence|]. destruct e as [|y e]; [congruence|].
    cbn in E. injection E as Ex E. destruct B as [->|(r & ->)]; [discriminate Es|]. injection Es as <- _.
    assert (I : In c_bs (u ++ c_bs :: e)) by (apply in_app_iff; right; left; reflexivity). rewrite <- E in I.
    vm_compute in I. intuition discriminate.
Qed.
Lemma no_occ_brace : forall l t, ~ occurs lab l -> ~ occurs lab t -> ~ occurs lab (l ++ [c_rb] ++ t).
Proof.
  intros l t Hl Ht. induction l as [|x l IH]; intros O.
  - cbn [List.app] in O. apply occurs_cons in O as [(q & P)|O]; [discriminate P|contradiction].
  - cbn [List.app] in O. apply occurs_cons in O as [(q & P)|O].
    + change (x :: l ++ c_rb :: t) with ((x :: l) ++ c_rb :: t) in P. symmetry in P. destruct (cut_app _ _ _ _ P) as [(e & E & _)|(e & Ne & E & Es)].
      * apply Hl. exists [], e. exact E.
      * destruct e as [|y e]; [congruence|]. injection Es as <- _.
        assert (I : In c_rb lab) by (rewrite E; apply in_app_iff; right; left; reflexivity). vm_compute in I. intuition discriminate.
    + apply IH; [|exact O]. intros C. apply Hl. apply occurs_cons. right. exact C.
Qed.
Lemma label_min : 0 < minlen LABEL_PATTERN. Proof. vm_compute. lia. Qed.
Lemma gap_no_match : forall t pre g s k, t = pre ++ g ++ s -> ~ occurs lab g -> bs_head s -> k < length g -> re_match_at LABEL_PATTERN t (length pre + k) = None.
Proof.
  intros t pre g s k -> O B K. assert (L : length pre + k <= length (pre ++ g ++ s)) by (rewrite !app_length; lia).
  destruct (re_match_at LABEL_PATTERN (pre ++ g ++ s) (length pre + k)) as [m|] eqn:E; [|reflexivity]. exfalso.
  apply re_match_at_some in E as (_ & R & _); [|exact L]. unfold LABEL_PATTERN in R. cbn [rseq] in R. apply rel_rseq2 in R as (j & R & _). apply rel_rstr in R as (_ & r & R).
  rewrite <- skipn_add, skipn_app_exact, skipn_app in R by reflexivity. replace (k - length g) with 0 in R by lia. change (skipn 0 s) with s in R.
  apply (no_spill (skipn k g) s); [|intros C; apply O; eapply occurs_skipn; exact C|exact B|exists r; exact R].
  intros C. apply (f_equal (@length ch)) in C. rewrite skipn_length in C. cbn in C. lia.
Qed.

Fixpoint label_matches (pos : nat) (ls : list (str * str * str)) : list mobj :=
  match ls with
  | [] => []
  | x :: r => {| m_start := pos; m_end := pos + 7 + length (fst (fst x)); m_caps := [] |} :: label_matches (pos + length (label_text x)) r
  end.
Lemma labels_bs : forall ls, bs_head (concat (map label_text ls)).
Proof. intros [|[[ws l] t] ls]; [left; reflexivity|right]. eexists. reflexivity. Qed.
Lemma label_iter : forall ls pre g t, Forall good_label ls -> ~ occurs lab g -> t = pre ++ g ++ concat (map label_text ls) ->
  iter_at LABEL_PATTERN t (length pre) = label_matches (length pre + length g) ls.
Proof.
  induction ls as [|x ls IH]; intros pre g t F O Et.
  - rewrite (iter_skip _ t (length g)); [|exact label_min|subst; rewrite !app_length; lia|intros k Hk; eapply gap_no_match; [exact Et|exact O|left; reflexivity|exact Hk]].
    rewrite iter_at_end; [reflexivity|exact label_min|]. subst. cbn. rewrite !app_length. cbn. lia.
  - inversion F as [|? ? Gx F']; subst x0 l. destruct x as [[ws l] u]. destruct Gx as (W & Nl & Bl & Cl & Ol & Ou).
    rewrite (iter_skip _ t (length g)); [|exact label_min|subst; rewrite !app_length; lia|intros k Hk; eapply gap_no_match; [exact Et|exact O|apply labels_bs|exact Hk]].
    set (p := length pre + length g).
    assert (E : skipn p t = lab ++ ws ++ [c_lb] ++ l ++ [c_rb] ++ u ++ concat (map label_text ls)).
    { unfold p. rewrite Et, app_assoc, <- app_length, skipn_app_exact by reflexivity. cbn [map concat label_text]. rewrite <- !app_assoc. reflexivity. }
    assert (Lp : p < length t). { subst t. unfold p. rewrite !app_length. cbn [map concat label_text]. rewrite !app_length. cbn. lia. }
    assert (M : re_match_at LABEL_PATTERN t p = Some {| m_start := p; m_end := p + 7 + length ws; m_caps := [] |}).
    { apply fm_match. unfold LABEL_PATTERN. cbn [rseq]. eapply fm_seq; [apply (fm_rstr lab t p [] _ E)|].
      apply skipn_more in E. eapply fm_seq; [eapply (fm_star _ _ _ _ ws); [exact E|exact W|reflexivity]|]. apply skipn_more in E.
      replace (p + 7 + length ws) with (S (p + length lab + length ws)) by (cbn; lia). eapply fm_is_ch. exact E. }
    rewrite iter_at_step by (auto using label_min; lia). rewrite M. cbn [m_end label_matches fst]. f_equal.
    replace (p + 7 + length ws) with (length (pre ++ g ++ lab ++ ws ++ [c_lb])) by (unfold p; rewrite !app_length; cbn; lia).
    rewrite (IH (pre ++ g ++ lab ++ ws ++ [c_lb]) (l ++ [c_rb] ++ u) t F').
    + f_equal. unfold p. cbn [label_text]. repeat (rewrite app_length || cbn [List.length]). cbn. lia.
    + apply no_occ_brace; assumption.
    + rewrite Et. cbn [map concat label_text]. rewrite <- !app_assoc. reflexivity.
Qed.

Lemma label_matches_app : forall a b pos, label_matches pos (a ++ b) = label_matches pos a ++ label_matches (pos + length (concat (map label_text a))) b.
Proof.
  induction a as [|x a IH]; intros b pos; [cbn; rewrite Nat.add_0_r; reflexivity|]. cbn [List.app label_matches map concat]. rewrite IH, app_length. do 2 f_equal. f_equal. lia.
Qed.
Lemma label_loop_ok : forall ls t0 tail labels, Forall good_label ls ->
  label_loop (rev (label_matches (length t0) ls)) (with_labels t0 ls ++ tail) labels = (t0 ++ concat (map after_text ls) ++ tail, map label_of ls ++ labels).
Proof.
  induction ls as [|x ls IH] using rev_ind; intros t0 tail labels F.
  - cbn. unfold with_labels. cbn. rewrite app_nil_r. reflexivity.
  - apply Forall_app in F as [F Fx]. inversion Fx as [|? ? Gx _]; subst. destruct x as [[ws l] u]. destruct Gx as (W & Nl & Bl & Cl & Ol & Ou).
    rewrite label_matches_app, rev_app_distr. cbn [label_matches rev List.app]. cbn [label_loop m_start m_end fst].
    set (pre := with_labels t0 ls). set (p := length t0 + length (concat (map label_text ls))).
    assert (Ep : p = length pre) by (unfold p, pre, with_labels; rewrite app_length; reflexivity).
    assert (Et : with_labels t0 (ls ++ [(ws, l, u)]) ++ tail = (pre ++ lab ++ ws) ++ [c_lb] ++ l ++ [c_rb] ++ u ++ tail).
    { unfold with_labels at 1. rewrite map_app, concat_app. cbn [map concat label_text]. unfold pre, with_labels. rewrite app_nil_r. rewrite <- !app_assoc. reflexivity. }
    rewrite Et. replace (p + 7 + length ws - 1) with (length (pre ++ lab ++ ws)) by (rewrite !app_length; cbn; lia).
    rewrite skipn_app_exact by reflexivity.
    assert (G : group_at c_lb c_rb ([c_lb] ++ l ++ [c_rb] ++ u ++ tail) l (0 + 1 + length l + 1)).
    { exists [], (u ++ tail). repeat split; auto. }
    apply (extract_nested_content_iff _ _ _ _ _ delims_curly) in G. rewrite G. destruct l as [|y l]; [congruence|].
    rewrite Ep. rewrite <- (app_assoc pre), firstn_app_exact by reflexivity.
    replace (skipn (length (pre ++ lab ++ ws) + (0 + 1 + length (y :: l) + 1)) (pre ++ (lab ++ ws) ++ [c_lb] ++ (y :: l) ++ [c_rb] ++ u ++ tail)) with (u ++ tail).
    2:{ symmetry. replace (pre ++ (lab ++ ws) ++ [c_lb] ++ (y :: l) ++ [c_rb] ++ u ++ tail) with ((pre ++ lab ++ ws) ++ [c_lb] ++ (y :: l) ++ [c_rb] ++ u ++ tail) by (rewrite <- !app_assoc; reflexivity).
        rewrite <- skipn_add, skipn_app_exact by reflexivity.
        replace ([c_lb] ++ (y :: l) ++ [c_rb] ++ u ++ tail) with (([c_lb] ++ (y :: l) ++ [c_rb]) ++ u ++ tail) by (rewrite <- !app_assoc; reflexivity).
        apply skipn_app_exact. rewrite !app_length. cbn. lia. }
    unfold pre. rewrite IH by exact F. rewrite !map_app, concat_app. cbn [map concat after_text label_of fst snd]. rewrite app_nil_r, <- !app_assoc. reflexivity.
Qed.
Lemma labels_ok : forall t0 ls, Forall good_label ls -> ~ occurs lab t0 -> ls <> [] ->
  handle_labels (with_labels t0 ls) = (strip (t0 ++ concat (map after_text ls)), map label_of ls).
Proof.
  intros t0 ls F O N. unfold handle_labels. change (re_finditer LABEL_PATTERN (with_labels t0 ls)) with (iter_at LABEL_PATTERN (with_labels t0 ls) 0).
  pose proof (label_iter ls [] t0 (with_labels t0 ls) F O eq_refl) as I. change (length (@nil ch)) with 0 in I. rewrite I. cbn [plus].
  destruct (label_matches (length t0) ls) as [|m ms] eqn:E; [destruct ls; [congruence|discriminate E]|]. rewrite <- E.
  pose proof (label_loop_ok ls t0 [] [] F) as H. rewrite !app_nil_r in H. rewrite H. reflexivity.
Qed.
Lemma labels_none : forall t, ~ occurs lab t -> handle_labels t = (t, []).
Proof.
  intros t O. unfold handle_labels. change (re_finditer LABEL_PATTERN t) with (iter_at LABEL_PATTERN t 0).
  assert (Et : t = [] ++ t ++ concat (map label_text [])) by (cbn; rewrite app_nil_r; reflexivity).
  pose proof (label_iter [] [] t t (Forall_nil _) O Et) as I. change (length (@nil ch)) with 0 in I. rewrite I. reflexivity.
Qed.

(** * placeholders *)
Section Eq2.
Variable T : Type.
Variable search : str -> option nat.
Variable handle : str -> option T * nat.
Lemma ph_step : forall f math pos out blocks, ph_loop T search handle (S f) math pos out blocks =
      if Nat.ltb pos (length math) then
        match search (skipn pos math) with
        | None => Some (out ++ skipn pos math, blocks)
        | Some k =>
            let out := if Nat.ltb 0 k then out ++ slice pos (pos + k) math else out in
            let '(token, e) := handle (skipn (pos + k) math) in
            let '(out, blocks) := match token with
                                  | Some t => (out ++ eq_placeholder (length blocks), blocks ++ [(eq_placeholder (length blocks), t)])
                                  | None => (out, blocks)
                                  end in
            ph_loop T search handle f math (pos + k + (if Nat.ltb 0 e then e else 1)) out blocks
        end
      else Some (out, blocks).
Proof. reflexivity. Qed.
Lemma ph_ok : forall text t0 cs, commands_read search handle text t0 cs -> forall pre f out blocks, length text < f ->
  ph_loop T search handle f (pre ++ text) (length pre) out blocks = Some (out ++ with_marks (length blocks) t0 cs, blocks ++ keyed (length blocks) cs).
Proof.
  induction 1 as [t Hs|t0 src tok t1 cs rest Ns Hs Hh R IH]; intros pre f out blocks Hf.
  - destruct f as [|f]; [lia|]. rewrite ph_step, app_length, skipn_app_exact by reflexivity. cbn [with_marks keyed]. rewrite !app_nil_r.
    destruct t as [|x t].
    + cbn [length]. rewrite Nat.add_0_r. rewrite Nat.ltb_irrefl. rewrite app_nil_r. reflexivity.
    + replace (Nat.ltb (length pre) (length pre + length (x :: t))) with true by (symmetry; apply Nat.ltb_lt; cbn; lia).
      rewrite Hs by discriminate. reflexivity.
  - destruct f as [|f]; [lia|]. rewrite !app_length in Hf. destruct src as [|z src]; [congruence|]. cbn [length] in Hf.
    rewrite ph_step, app_length, skipn_app_exact by reflexivity.
    replace (Nat.ltb (length pre) (length pre + length (t0 ++ (z :: src) ++ rest))) with true by (symmetry; apply Nat.ltb_lt; rewrite !app_length; cbn; lia).
    rewrite Hs. cbv zeta. replace (skipn (length pre + length t0) (pre ++ t0 ++ (z :: src) ++ rest)) with ((z :: src) ++ rest).
    2:{ rewrite <- skipn_add, !skipn_app_exact by reflexivity. reflexivity. }
    rewrite Hh. replace (Nat.ltb 0 (length (z :: src))) with true by reflexivity.
    replace (if Nat.ltb 0 (length t0) then out ++ slice (length pre) (length pre + length t0) (pre ++ t0 ++ (z :: src) ++ rest) else out) with (out ++ t0).
    2:{ rewrite slice_mid by reflexivity. destruct t0; [cbn; rewrite app_nil_r; reflexivity|reflexivity]. }
    replace (pre ++ t0 ++ (z :: src) ++ rest) with ((pre ++ t0 ++ (z :: src)) ++ rest) by (rewrite <- !app_assoc; reflexivity).
    replace (length pre + length t0 + length (z :: src)) with (length (pre ++ t0 ++ z :: src)) by (rewrite !app_length; lia).
    rewrite IH by lia. rewrite app_length. cbn [length]. rewrite Nat.add_1_r. cbn [with_marks keyed]. unfold eq_placeholder. rewrite <- !app_assoc. reflexivity.
Qed.
Lemma placeholders_ok : forall text t0 cs, commands_read search handle text t0 cs ->
  extract_placeholders T search handle text = Some (with_marks 0 t0 cs, keyed 0 cs).
Proof. intros text t0 cs R. unfold extract_placeholders. apply (ph_ok _ _ _ R [] _ [] []). lia. Qed.
Lemma ph_total : forall f math pos out blocks, length math - pos < f -> exists r, ph_loop T search handle f math pos out blocks = Some r.
Proof.
  induction f as [|f IH]; intros math pos out blocks H; [lia|]. rewrite ph_step. destruct (Nat.ltb pos (length math)) eqn:L; [|eauto]. apply Nat.ltb_lt in L.
  destruct (search (skipn pos math)) as [k|]; [|eauto]. cbv zeta. destruct (handle (skipn (pos + k) math)) as [[t|] e]; apply IH; destruct (Nat.ltb 0 e) eqn:E; try apply Nat.ltb_lt in E; lia.
Qed.

(** * formatting that finds nothing *)
Lemma find_sub_bs : forall s k, find_sub [c_bs] s = Some k -> exists r, skipn k s = c_bs :: r.
Proof.
  induction s as [|x s IH]; intros k E; [discriminate E|]. cbn [find_sub] in E. destruct (startswith (x :: s) [c_bs]) eqn:S.
  - injection E as <-. apply startswith_iff in S as (r & S). exists r. exact S.
  - destruct (find_sub [c_bs] s) as [j|]; [|discriminate E]. injection E as <-. apply IH. reflexivity.
Qed.
Variable fmt box : str -> str * nat.
Lemma fmt_none : forall f s pos, untouched fmt box s -> (forall p, pos = Some p -> (exists r, skipn p s = c_bs :: r) /\ length s - p < f) -> 0 < f -> fmt_loop fmt box f s pos = Some (strip s).
Proof.
  induction f as [|f IH]; intros s pos N H F; [lia|]. cbn [fmt_loop]. destruct pos as [p|]; [|reflexivity].
  destruct (H p eq_refl) as ((r & E) & L). assert (Es : s = firstn p s ++ c_bs :: r) by (rewrite <- E; symmetry; apply firstn_skipn). destruct (N _ _ Es) as [N1 N2]. clear Es. rewrite E.
  destruct (fmt (c_bs :: r)) as [x1 e1]. destruct (box (c_bs :: r)) as [x2 e2]. cbn [snd] in *. subst e1 e2. cbn [Nat.ltb Nat.leb].
  apply skipn_cons_lt in E as Lt. apply IH; [exact N| |lia].
  intros q Eq. unfold find_bs in Eq. destruct (find_sub [c_bs] (skipn (S p) s)) as [j|] eqn:J; [|discriminate Eq]. injection Eq as <-.
  apply find_sub_bs in J as (r' & J). rewrite skipn_add in J. split; [exists r'; exact J|lia].
Qed.
Lemma fmt_calm : forall f s, untouched fmt box s -> length s < f -> fmt_loop fmt box f s (find_bs s 0) = Some (strip s).
Proof.
  intros f s N F. apply fmt_none; [exact N| |lia]. intros p E. unfold find_bs in E. change (skipn 0 s) with s in E.
  destruct (find_sub [c_bs] s) as [j|] eqn:J; [|discriminate E]. injection E as <-. apply find_sub_bs in J. split; [exact J|lia].
Qed.
End Eq2.
Lemma placeholders_end : forall (T : Type) search handle math, exists r, extract_placeholders T search handle math = Some r.
Proof. intros T search handle math. apply ph_total. lia. Qed.
