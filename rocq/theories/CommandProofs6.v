From Coq Require Import List NArith ZArith PeanoNat Lia Bool String.
From Verif Require Import PyStr Regex RegexLemmas RegexHead TexUtilsModel DelimSpec DelimProofs DelimFinal SubstModel SubstSpec SubstProofs ContentModel ContentSpec ContentProofs ContentProofs2 ContentProofs3 CommandModel CommandSpec CommandProofs CommandProofs2 CommandProofs3 CommandProofs4 TableProofs2.
Import ListNotations. Notation length := List.length. Notation concat := List.concat. Open Scope list_scope.

(** * let *)
Lemma name_ch_nospace : forall x, name_ch x = true -> isspace x = false /\ N.eqb x c_lb = false /\ N.eqb x c_bs = false /\ N.eqb x c_hash = false.
Proof.
  intros x H. split; [|split; [|split]].
  - destruct (isspace x) eqn:E; [|reflexivity]. apply space_not_name in E. congruence.
  - apply N.eqb_neq. intros ->. discriminate H.
  - apply N.eqb_neq. intros ->. discriminate H.
  - apply N.eqb_neq. intros ->. discriminate H.
Qed.
Lemma word_strip : forall w, word w -> strip w = w.
Proof.
  intros w [F (a & x & -> & L)]. assert (S : forall y, word_char y -> isspace y = false) by (intros y Hy; apply name_ch_nospace; apply name_ch_spec; exact Hy).
  rewrite Forall_forall in F. unfold strip.
  assert (H1 : lstrip (a ++ [x]) = a ++ [x]). { destruct a as [|y a]; cbn [List.app]; apply lstrip_id; apply S, F; left; reflexivity. }
  rewrite H1. unfold rstrip. rewrite rev_app_distr. cbn [rev List.app]. rewrite lstrip_id by (apply S, F, in_app_iff; right; left; reflexivity). cbn [rev]. rewrite rev_involutive. reflexivity.
Qed.
Lemma strip_id2 : forall x a y, isspace x = false -> isspace y = false -> strip (x :: a ++ [y]) = x :: a ++ [y].
Proof. intros x a y Hx Hy. unfold strip. rewrite lstrip_id by exact Hx. unfold rstrip. change (x :: a ++ [y]) with ((x :: a) ++ [y]). rewrite rev_app_distr. cbn [rev List.app]. rewrite lstrip_id by exact Hy. cbn [rev]. rewrite rev_app_distr, rev_involutive. reflexivity. Qed.
Lemma last_name : forall name, word name -> exists y, last_ch name = Some y /\ N.eqb y 61 = false.
Proof.
  intros name [_ (a & x & -> & L)]. exists x. unfold last_ch. rewrite rev_app_distr. cbn. split; [reflexivity|]. apply N.eqb_neq. intros ->. destruct L; lia.
Qed.
Theorem let_definition : forall gap name eq old rest, blank gap -> word name -> word old -> let_stop rest ->
  handle_definition (let_text gap name eq old ++ rest) =
    (Some (TLet name ([c_bs] ++ old) (usage_pattern name)), length (let_text gap name eq old)).
Proof.
  intros gap name eq old rest Hg W Wo Hs. set (t := let_text gap name eq old ++ rest).
  set (e := if eq then lit "=" else [] : str).
  assert (Et : t = lit "\let" ++ gap ++ [c_bs] ++ (name ++ e) ++ [c_bs] ++ old ++ rest) by (unfold t, let_text, e; rewrite <- !app_assoc; reflexivity).
  unfold handle_definition. replace (re_match_at P_newcommand t 0) with (@None mobj) by reflexivity.
  set (i := 4 + length gap). set (n1 := S i). set (n2 := n1 + length (name ++ e)). set (n3 := S n2 + length old).
  assert (M : re_match_at P_let t 0 = Some {| m_start := 0; m_end := n3; m_caps := [(2, (n2, n3)); (1, (n1, n2))] |}).
  { apply fm_match. unfold P_let, rseq.
    assert (E0 : skipn 0 t = [c_bs] ++ lit "let" ++ gap ++ [c_bs] ++ (name ++ e) ++ [c_bs] ++ old ++ rest) by (rewrite Et; reflexivity).
    eapply fm_seq; [apply (fm_is_ch c_bs t 0 [] _ E0)|]. apply skipn_more1 in E0.
    eapply fm_seq. { unfold ropt. apply fm_alt_right; [|apply fm_eps]. rewrite rm_rstr, E0. reflexivity. }
    eapply fm_seq; [apply (fm_rstr (lit "let") t 1 [] _ E0)|]. apply (skipn_more t 1 (lit "let")) in E0. change (1 + length (lit "let")) with 4 in *.
    eapply fm_seq; [apply (fm_star isspace t 4 [] gap _ E0 Hg); reflexivity|]. apply skipn_more in E0. fold i in E0 |- *.
    eapply fm_seq; [apply (fm_is_ch c_bs t i [] _ E0)|]. apply skipn_more1 in E0. fold n1 in E0 |- *.
    eapply fm_seq. { apply fm_grp. apply (fm_plus _ t n1 [] (name ++ e) _ E0); [|  |reflexivity].
      - intros Q. apply app_eq_nil in Q as [Q _]. apply word_nonempty in W. contradiction.
      - rewrite forallb_app. apply andb_true_intro. split; [|unfold e; destruct eq; reflexivity]. apply forallb_forall. intros x Hx. apply word_forallb in W. rewrite forallb_forall in W. destruct (name_ch_nospace x (W x Hx)) as (-> & -> & -> & _). reflexivity. }
    apply skipn_more in E0. fold n2 in E0 |- *.
    eapply fm_seq. { apply (fm_star isspace t n2 _ [] _ E0); reflexivity. } change (length (@nil ch)) with 0. rewrite Nat.add_0_r.
    apply fm_grp. apply fm_alt_right. { apply rm_seq_none. apply rm_chr_none. rewrite E0. reflexivity. }
    eapply fm_seq; [apply (fm_is_ch c_bs t n2 _ _ E0)|]. apply skipn_more1 in E0. unfold n3.
    apply (fm_plus _ t (S n2) _ old rest E0 (word_nonempty _ Wo)).
    - apply forallb_forall. intros x Hx. apply word_forallb in Wo. rewrite forallb_forall in Wo. destruct (name_ch_nospace x (Wo x Hx)) as (-> & -> & _). reflexivity.
    - destruct rest as [|x rest]; [reflexivity|]. destruct Hs as [->| ->]; [reflexivity|]. rewrite N.eqb_refl. rewrite andb_false_r. reflexivity. }
  rewrite M. unfold handle_let.
  assert (G1 : grp t 1 {| m_start := 0; m_end := n3; m_caps := [(2, (n2, n3)); (1, (n1, n2))] |} = name ++ e).
  { unfold grp, m_group. cbn [m_caps cap_get Nat.eqb option_map]. unfold n2. replace n1 with (length (lit "\let" ++ gap ++ [c_bs])) by (rewrite !app_length; unfold n1, i; cbn; lia).
    apply (slice_of t _ (name ++ e) ([c_bs] ++ old ++ rest)). rewrite Et, <- !app_assoc. reflexivity. }
  assert (G2 : grp t 2 {| m_start := 0; m_end := n3; m_caps := [(2, (n2, n3)); (1, (n1, n2))] |} = [c_bs] ++ old).
  { unfold grp, m_group. cbn [m_caps cap_get Nat.eqb option_map]. unfold n3. replace (S n2 + length old) with (n2 + length ([c_bs] ++ old)) by (cbn; lia).
    replace n2 with (length (lit "\let" ++ gap ++ [c_bs] ++ name ++ e)) by (unfold n2; rewrite !app_length; unfold n1, i; cbn; lia).
    apply (slice_of t _ ([c_bs] ++ old) rest). rewrite Et, <- !app_assoc. reflexivity. }
  rewrite G1, G2.
  assert (S2 : strip ([c_bs] ++ old) = [c_bs] ++ old). { pose proof Wo as Wo2. destruct Wo2 as [_ (a & x & -> & L)]. apply (strip_id2 c_bs a x); [reflexivity|]. apply name_ch_nospace. apply name_ch_spec. left. exact L. }
  rewrite S2. cbn [List.app]. change (N.eqb c_bs 61) with false. cbv beta iota.
  assert (S1 : strip (name ++ e) = name ++ e /\ match last_ch (name ++ e) with Some y => if N.eqb y 61 then removelast (name ++ e) else name ++ e | None => name ++ e end = name).
  { unfold e. destruct eq.
    - split.
      + destruct name as [|x name]; [apply word_nonempty in W; congruence|]. apply strip_id2; [|reflexivity]. apply word_forallb in W. cbn [forallb] in W. apply andb_prop in W as [W _]. apply name_ch_nospace. exact W.
      + unfold last_ch. rewrite rev_app_distr. change (rev (lit "=")) with [61%N]. cbn [List.app]. rewrite N.eqb_refl. change (lit "=") with [61%N]. apply removelast_last.
    - rewrite app_nil_r. split; [apply word_strip; exact W|]. destruct (last_name name W) as (y & -> & ->). reflexivity. }
  destruct S1 as [S1 S1']. rewrite S1, S1'.
  assert (SW : startswith (m_group0 t {| m_start := 0; m_end := n3; m_caps := [(2, (n2, n3)); (1, (n1, n2))] |}) (lit "\futurelet") = false).
  { unfold m_group0, slice. cbn [m_start m_end]. rewrite Et. unfold n3, n2, n1, i. replace (S (S (4 + length gap) + length (name ++ e)) + length old - 0) with (S (S (2 + length gap + length (name ++ e) + length old + 2))) by lia. reflexivity. }
  rewrite SW. rewrite (usage_word name W). f_equal. unfold n3, n2, n1, i, let_text. fold e. rewrite !app_length. clear. change (length (lit "\let")) with 4. cbn [length m_end]. unfold e. destruct eq; cbn [length lit]; lia.
Qed.
