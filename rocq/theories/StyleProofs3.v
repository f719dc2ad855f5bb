(** C86: proofs for the style commands. *)
From Coq Require Import List NArith PeanoNat Lia Bool String.
From Verif Require Import PyStr Regex RegexLemmas RegexHead Json TexUtilsModel DelimSpec DelimProofs DelimFinal TextModel TextProofs BuilderModel ContentModel CommandModel CommandProofs2 BoxModel StyleModel StyleSpec StyleProofs StyleProofs2 ParseReadProofs3.
Import ListNotations. Notation length := List.length. Notation concat := List.concat. Open Scope list_scope.

Section H.
Variable w : ch -> bool.
Variable process : str -> res (list val).
Lemma letter_ok : forall x, is_letter x = false <-> ~ letter x.
Proof.
  intros x. unfold is_letter, letter. rewrite Bool.orb_false_iff, !Bool.andb_false_iff, !N.leb_gt. lia.
Qed.
Lemma next_letter_ok : forall r, next_letter r = false <-> (forall x q, r = x :: q -> ~ letter x).
Proof.
  intros [|x r]; cbn; split; intros H; [discriminate|reflexivity| |].
  - intros y q E. injection E as <- <-. apply letter_ok. exact H.
  - apply letter_ok. exact (H x r eq_refl).
Qed.
Lemma space_not_letter : forall x, isspace x = true -> is_letter x = false.
Proof.
  intros x Hx. destruct (is_letter x) eqn:E; [|reflexivity]. exfalso. unfold isspace, in_range in Hx. unfold is_letter in E.
  repeat rewrite Bool.orb_true_iff in *. repeat rewrite Bool.andb_true_iff in *. repeat rewrite N.leb_le in *. repeat rewrite N.eqb_eq in *. lia.
Qed.
Lemma handle_text : forall t m, re_match_at TEXT_PATTERN t 0 = Some m -> handle w process t = handle_styled process t m.
Proof. intros t m H. unfold handle, PATTERNS. cbn [try_patterns]. rewrite H. reflexivity. Qed.
Lemma grp_name : forall name rest j c, grp ([c_bs] ++ name ++ rest) 1 {| m_start := 0; m_end := j; m_caps := c ++ [(1, (1, 1 + length name))] |} = name \/ cap_get 1 c <> None.
Proof.
  intros name rest j c. destruct (cap_get 1 c) eqn:E; [right; discriminate|left]. unfold grp, m_group. cbn [m_caps].
  assert (X : forall l, cap_get 1 l = None -> cap_get 1 (l ++ [(1, (1, 1 + length name))]) = Some (1, 1 + length name)).
  { induction l as [|[k v] l IH]; [reflexivity|]. cbn [cap_get List.app]. destruct (Nat.eqb k 1); [discriminate|exact IH]. }
  rewrite (X c E). cbn [option_map]. unfold slice. cbn [List.app skipn]. replace (1 + length name - 1) with (length name) by lia.
  rewrite firstn_app, Nat.sub_diag, firstn_all. cbn [firstn]. apply app_nil_r.
Qed.
Lemma strip_nil_iff : forall b, nilb (strip b) = true <-> blank b.
Proof.
  intros b. split.
  - intros H. destruct (TextProofs.strip_split b) as (w1 & w2 & E & B1 & B2). destruct (strip b) as [|x s]; [|discriminate]. rewrite E. unfold blank in *. cbn [List.app]. rewrite forallb_app, B1, B2. reflexivity.
  - intros H. unfold strip. rewrite lstrip_all by exact H. reflexivity.
Qed.
(** A command with a group. *)
Lemma at_group : forall name style pre rest b n, In (name, style) style_commands -> In pre [[]; lit "\expandafter"] -> group_at c_lb c_rb rest b n ->
  handle w process ([c_bs] ++ name ++ pre ++ rest) =
  if nilb (strip b) then Ok (VNone, 1 + length name + length pre + n)
  else do toks <- process b; finish (map VStr (opt_list style)) toks (1 + length name + length pre + n).
Proof.
  intros name style pre rest b n I Ip (ws & rest' & -> & Hb & Hbal & Hcl & ->). destruct (same_table name style I) as [In1 Hst].
  pose (t := [c_bs] ++ name ++ pre ++ ws ++ c_lb :: b ++ c_rb :: rest').
  pose (p := 1 + length name + length pre).
  assert (Sp : skipn p t = ws ++ c_lb :: b ++ c_rb :: rest').
  { unfold p, t. replace ([c_bs] ++ name ++ pre ++ ws ++ c_lb :: b ++ c_rb :: rest') with (([c_bs] ++ name ++ pre) ++ ws ++ c_lb :: b ++ c_rb :: rest') by (rewrite <- !app_assoc; reflexivity).
    apply skipn_app_exact. rewrite !app_length. reflexivity. }
  assert (NL : next_letter (pre ++ ws ++ c_lb :: b ++ c_rb :: rest') = false).
  { destruct Ip as [<-|[<-|[]]]; [|reflexivity]. destruct ws as [|x ws]; [reflexivity|]. cbn [List.app next_letter]. unfold blank in Hb. cbn in Hb. apply andb_prop in Hb as [Hx _].
    exact (space_not_letter x Hx). }
  assert (NE : pre = [] -> startswith (ws ++ c_lb :: b ++ c_rb :: rest') exp_word = false).
  { intros _. destruct ws as [|x ws]; [reflexivity|]. cbn [List.app]. unfold blank in Hb. cbn in Hb. apply andb_prop in Hb as [Hx _].
    unfold exp_word. cbn [lit]. destruct (N.eqb c_bs x) eqn:E; [apply N.eqb_eq in E; subst x; discriminate|]. change (startswith (x :: ws ++ c_lb :: b ++ c_rb :: rest') (lit "\expandafter")) with (N.eqb c_bs x && startswith (ws ++ c_lb :: b ++ c_rb :: rest') (lit "expandafter"))%bool. rewrite E. reflexivity. }
  assert (S2 : skipn (p + length ws) t = c_lb :: b ++ c_rb :: rest') by exact (skipn_more t p ws _ Sp).
  assert (M := style_match name (ws ++ c_lb :: b ++ c_rb :: rest') pre _ (S (p + length ws)) [(2, (p, S (p + length ws))); (3, (p + length ws, S (p + length ws))); (1, (1, 1 + length name))] In1 Ip NL NE eq_refl).
  fold t in M. fold p in M. assert (M1 := M ltac:(apply fm_alt_left; apply fm_grp; apply fm_alt_left; eapply fm_seq; [exact (fm_star isspace t p _ ws _ Sp Hb eq_refl)|]; apply fm_grp; exact (fm_is_ch c_lb t (p + length ws) _ _ S2))). clear M.
  fold t. rewrite (handle_text _ _ M1). unfold handle_styled.
  assert (Gn : grp t 1 {| m_start := 0; m_end := S (p + length ws); m_caps := [(2, (p, S (p + length ws))); (3, (p + length ws, S (p + length ws))); (1, (1, 1 + length name))] |} = name).
  { destruct (grp_name name (pre ++ ws ++ c_lb :: b ++ c_rb :: rest') (S (p + length ws)) [(2, (p, S (p + length ws))); (3, (p + length ws, S (p + length ws)))]) as [G|G]; [exact G|exfalso; apply G; reflexivity]. }
  rewrite Gn, Hst. unfold m_span. cbn [m_caps cap_get Nat.eqb m_end].
  assert (Sl : slice p (S (p + length ws)) t = ws ++ [c_lb]).
  { unfold slice. rewrite Sp. replace (ws ++ c_lb :: b ++ c_rb :: rest') with ((ws ++ [c_lb]) ++ b ++ c_rb :: rest') by (rewrite <- app_assoc; reflexivity).
    assert (L : S (p + length ws) - p = length (ws ++ [c_lb])) by (rewrite app_length; cbn [length]; clearbody p; lia). rewrite L. rewrite firstn_app, Nat.sub_diag, firstn_all. apply app_nil_r. }
  rewrite Sl. rewrite (skipn_more1 t _ _ _ S2).
  assert (X : extract_nested_content (c_lb :: b ++ c_rb :: rest') c_lb c_rb = (Some b, 1 + length b + 1)).
  { apply (proj2 (extract_nested_content_iff c_lb c_rb _ _ _ delims_curly)). exists [], rest'. split; [reflexivity|]. split; [reflexivity|]. split; [exact Hbal|]. split; [exact Hcl|reflexivity]. }
  unfold str in *. rewrite X. rewrite last_last, N.eqb_refl.
  assert (Ep : S (p + length ws) + (1 + length b + 1) - 1 = 1 + length name + length pre + (length ws + 1 + length b + 1)) by (unfold p; lia).
  destruct (ws ++ [c_lb]) eqn:Ew; [destruct ws; discriminate|]. rewrite Ep. destruct (nilb (strip b)); reflexivity.
Qed.
Lemma styled_group : forall name style pre rest b n toks out, In (name, style) style_commands -> In pre [[]; lit "\expandafter"] -> group_at c_lb c_rb rest b n ->
  ~ blank b -> process b = Ok toks -> styled style toks out ->
  handle w process ([c_bs] ++ name ++ pre ++ rest) = Ok (out, length ([c_bs] ++ name ++ pre) + n).
Proof.
  intros name style pre rest b n toks out I Ip G Hn P S. rewrite (at_group name style pre rest b n I Ip G). destruct (nilb (strip b)) eqn:E; [apply strip_nil_iff in E; contradiction|].
  rewrite P. cbn [bind]. rewrite (finish_styled style toks out _ S). rewrite !app_length. cbn [length]. rewrite Nat.add_assoc. reflexivity.
Qed.
Lemma styled_empty : forall name style pre rest b n, In (name, style) style_commands -> In pre [[]; lit "\expandafter"] -> group_at c_lb c_rb rest b n ->
  blank b -> handle w process ([c_bs] ++ name ++ pre ++ rest) = Ok (VNone, length ([c_bs] ++ name ++ pre) + n).
Proof.
  intros name style pre rest b n I Ip G Hn. rewrite (at_group name style pre rest b n I Ip G). apply strip_nil_iff in Hn. rewrite Hn. rewrite !app_length. cbn [length]. rewrite Nat.add_assoc. reflexivity.
Qed.
End H.
