(** C104, C105: names in \csname and \@namedef; \newcommand and \let. *)
From Coq Require Import List NArith ZArith PeanoNat Lia Bool String.
From Verif Require CommandModel ContentProofs2 FormatProofs3 FormatProofs5 CommandProofs CommandProofs2 CommandProofs3 CommandProofs4 CommandProofs6 CommandProofs7 CommandProofs8.
From Verif Require Import PyStr Regex RegexLemmas RegexHead RegexAbs DelimSpec DelimProofs DelimFinal TexUtilsModel EnvModel EnvSpec EnvProofs StyleModel CommandSpec DefModel DefSpec DefProofs DefProofs3 DefProofs4 DefProofs8 DefProofs9 DefProofs10 DefProofs11.
Import ListNotations. Notation length := List.length. Notation concat := List.concat. Open Scope list_scope.
Section Any.
Variables u ualpha ualnum : ch -> bool.
Local Notation handle := (handle u ualpha ualnum).
Lemma csname_ok : forall keyword gap g1 name g2 gap2 k body rest, In keyword def_words -> blank gap -> blank gap2 -> word name -> blanks_only g1 -> g1 <> [] -> blanks_only g2 -> good_body body ->
  let src := lit keyword ++ gap ++ lit "\csname" ++ g1 ++ name ++ g2 ++ lit "\endcsname" ++ gap2 ++ param_text k ++ braced body in
  handle (src ++ rest) = Ok (Some (csname_token keyword name (g1 ++ name ++ g2) k body), Z.of_nat (length src)).
Proof.
  intros keyword gap g1 name g2 gap2 k body rest I B B2 W B1 N1 B3 G src.
  assert (Es : src ++ rest = lit keyword ++ gap ++ c_bs :: lit "csname" ++ g1 ++ name ++ g2 ++ lit "\endcsname" ++ gap2 ++ param_text k ++ braced body ++ rest) by (unfold src; rewrite <- !app_assoc; reflexivity).
  pose proof (def_enter u ualpha ualnum keyword gap (lit "csname" ++ g1 ++ name ++ g2 ++ lit "\endcsname" ++ gap2 ++ param_text k ++ braced body ++ rest) I B) as H. cbv zeta in H. rewrite <- Es in H. rewrite H.
  destruct (length (src ++ rest)) as [|n] eqn:L; [|exact (csname_loop u ualpha keyword gap g1 name g2 gap2 k body rest n I B B2 W B1 N1 B3 G)].
  exfalso. rewrite Es in L. rewrite !app_length in L. cbn in L. lia.
Qed.
Lemma namedef_ok : forall ws name gap2 k body rest, blank ws -> blank gap2 -> word name -> good_body body ->
  let src := lit "\@namedef" ++ ws ++ braced name ++ gap2 ++ param_text k ++ braced body in
  handle (src ++ rest) = Ok (Some (csname_token "\def" name (lit " " ++ name ++ lit " ") k body), Z.of_nat (length src)).
Proof.
  intros ws name gap2 k body rest Bw B2 W G src. destruct (no_blanks_word _ W) as (_ & Nbs).
  assert (Nrb : ~ In c_rb name) by (intros H; apply CommandProofs.word_forallb in W; rewrite forallb_forall in W; specialize (W _ H); discriminate W).
  set (tl := gap2 ++ param_text k ++ braced body ++ rest). assert (Es : src ++ rest = lit "\@namedef" ++ ws ++ [c_lb] ++ name ++ [c_rb] ++ tl) by (unfold src, tl, braced; rewrite <- !app_assoc; reflexivity).
  rewrite Es. pose proof (DefProofs.namedef_match ws name tl Bw Nrb) as M. set (m := {| m_start := 0; m_end := 9 + length ws + 1 + length name + 1; m_caps := [(1, (9 + length ws + 1, 9 + length ws + 1 + length name))] |}) in *.
  set (t := lit "\@namedef" ++ ws ++ [c_lb] ++ name ++ [c_rb] ++ tl) in *.
  assert (F : first_match (PATTERNS u) t = Some (KNamedef, m)) by (unfold t; eapply (clear_first (lit "\@namedef")); [vm_compute; reflexivity|exact M]).
  rewrite (handle_finish _ _ _ _ _ _ F). cbn [finish]. unfold handle_namedef. cbn [m_end m].
  assert (Eg : grp t 1 m = name).
  { eapply (grp_at t (lit "\@namedef" ++ ws ++ [c_lb]) name); [|reflexivity| |].
    - unfold t. rewrite <- !app_assoc. reflexivity.
    - rewrite !app_length. cbn [List.length]. change (length (lit "\@namedef")) with 9. lia.
    - rewrite !app_length. cbn [List.length]. change (length (lit "\@namedef")) with 9. lia. }
  fold m. rewrite Eg. assert (Sk : skipn (9 + length ws + 1 + length name + 1) t = tl).
  { unfold t. replace (lit "\@namedef" ++ ws ++ [c_lb] ++ name ++ [c_rb] ++ tl) with ((lit "\@namedef" ++ ws ++ [c_lb] ++ name ++ [c_rb]) ++ tl) by (rewrite <- !app_assoc; reflexivity). apply skipn_app_exact. rewrite !app_length. cbn [List.length]. change (length (lit "\@namedef")) with 9. lia. }
  change (m_end m) with (9 + length ws + 1 + length name + 1). rewrite Sk. cbv zeta. set (st := (lit "\def\csname " ++ name ++ lit " \endcsname ") ++ tl).
  assert (Est : st = (lit "\def" ++ [] ++ lit "\csname" ++ lit " " ++ name ++ lit " " ++ lit "\endcsname" ++ (lit " " ++ gap2) ++ param_text k ++ braced body) ++ rest) by (unfold st, tl; rewrite <- !app_assoc; reflexivity).
  assert (M' : re_match_at DEF_PREFIX st 0 = Some {| m_start := 0; m_end := 5; m_caps := [] |}) by (unfold st; vm_compute; reflexivity). rewrite M'.
  unfold def_prefix. cbn [m_end]. change (5 - 1) with (length (lit "\def" ++ [])). assert (Eg0 : removelast (m_group0 st {| m_start := 0; m_end := 5; m_caps := [] |}) = lit "\def" ++ []) by (unfold st; reflexivity). rewrite Eg0.
  assert (Ls : exists n, S (length st) = S (S n)) by (exists (length st - 1); unfold st; rewrite !app_length; change (length (lit "\def\csname ")) with 12; lia). destruct Ls as (n & ->).
  assert (Bs : blanks_only (lit " ")) by (intros x [<-|[]]; reflexivity). assert (Bb : blank (lit " " ++ gap2)) by (unfold blank; rewrite forallb_app; apply andb_true_intro; split; [reflexivity|exact B2]).
  assert (Hl := csname_loop u ualpha "\def" [] (lit " ") name (lit " ") (lit " " ++ gap2) k body rest n (or_introl eq_refl) eq_refl Bb W Bs ltac:(discriminate) Bs G). cbv zeta in Hl. rewrite Est, Hl. f_equal. f_equal.
  unfold src, tl, braced. rewrite !app_length. change (length (lit "\def\csname ")) with 12. change (length (lit " \endcsname ")) with 12. change (length (lit "\def")) with 4. change (length (lit "\csname")) with 7. change (length (lit "\endcsname")) with 10. change (length (lit " ")) with 1. change (length (lit "\@namedef")) with 9. cbn [List.length]. lia.
Qed.
(** ** \newcommand *)
Definition command_token (d : macro) : dtok := DCommand (mc_name d) (mc_body d) (arity d) (default_values d) (use_text (mc_name d) 0) (math_only d).
Lemma newcommand_same : forall b t m n body k ds pat b' e, CommandModel.handle_newcommand b t m = (Some (CommandModel.TNew n body k ds pat b'), e) -> word n ->
  handle_newcommand ualnum b t m = (Some (DCommand n body k ds (use_text n 0) b'), Z.of_nat e).
Proof.
  intros b t m n body k ds pat b' e H W. unfold CommandModel.handle_newcommand in H. unfold handle_newcommand. destruct (extract_nested_content (skipn (m_end m - 1) t) c_lb c_rb) as [[def|] e0]; [|discriminate H].
  assert (En : n = unslash (grp_or t 1 2 m)) by (unfold CommandModel.grp_or, CommandModel.unslash in H; injection H; intros; subst; reflexivity).
  injection H as _ <- <- <- _ <- <-. cbv zeta. rewrite <- En. destruct (CommandProofs7.word_last n W) as (x & El & Lx). assert (El' : last_ch n = Some x) by exact El. rewrite El'. unfold isalnum. rewrite (letter_same _ Lx), (escape_word _ (word_command _ W)). reflexivity.
Qed.
Lemma newcommand_ok : forall d rest, well_written d -> handle (macro_text d ++ rest) = Ok (Some (command_token d), Z.of_nat (length (macro_text d))).
Proof.
  intros d rest Wd. pose proof (CommandProofs3.newcommand_definition d rest Wd) as H. pose proof Wd as (Ik & _ & _ & W & _). set (t := macro_text d ++ rest) in *.
  assert (Et : exists r, t = lit (mc_keyword d) ++ r) by (eexists; unfold t, macro_text, macro_head; rewrite <- !app_assoc; reflexivity). destruct Et as (r & Et). rewrite Et in H |- *.
  unfold CommandModel.handle_definition in H. unfold command_token. unfold keywords in Ik. cbn [In] in Ik.
  assert (K : forall k b kw m, mc_keyword d = kw -> first_match (PATTERNS u) (lit kw ++ r) = Some (k, m) -> finish u ualpha ualnum (lit kw ++ r) k m = Ok (handle_newcommand ualnum b (lit kw ++ r) m) ->
    CommandModel.handle_newcommand b (lit kw ++ r) m = (Some (CommandModel.TNew (mc_name d) (mc_body d) (arity d) (default_values d) (CommandModel.usage_pattern (mc_name d)) (math_only d)), length (macro_text d)) ->
    handle (lit kw ++ r) = Ok (Some (DCommand (mc_name d) (mc_body d) (arity d) (default_values d) (use_text (mc_name d) 0) (math_only d)), Z.of_nat (length (macro_text d)))).
  { intros k b kw m _ F Hf Hn. rewrite (handle_finish _ _ _ _ _ _ F), Hf, (newcommand_same _ _ _ _ _ _ _ _ _ _ Hn W). reflexivity. }
  destruct Ik as [Ek|[Ek|[Ek|[Ek|[Ek|[]]]]]]; rewrite <- Ek in H |- *.
  1,2,3: replace (re_match_at CommandModel.P_let _ 0) with (@None mobj) in H by (symmetry; vm_compute; reflexivity); replace (re_match_at CommandModel.P_declarerobust _ 0) with (@None mobj) in H by (symmetry; vm_compute; reflexivity);
    replace (re_match_at CommandModel.P_declaremathop _ 0) with (@None mobj) in H by (symmetry; vm_compute; reflexivity); replace (re_match_at CommandModel.P_def _ 0) with (@None mobj) in H by (symmetry; vm_compute; reflexivity);
    destruct (re_match_at CommandModel.P_newcommand _ 0) as [m|] eqn:M; [|discriminate H].
  1: apply (K KNewcommand false _ m (eq_sym Ek)); [apply (clear_first (lit "\newcommand") KNewcommand _ CommandModel.P_newcommand); [reflexivity|exact M]|reflexivity|exact H].
  1: apply (K KNewcommand false _ m (eq_sym Ek)); [apply (clear_first (lit "\renewcommand") KNewcommand _ CommandModel.P_newcommand); [reflexivity|exact M]|reflexivity|exact H].
  1: apply (K KNewcommand false _ m (eq_sym Ek)); [apply (clear_first (lit "\providecommand") KNewcommand _ CommandModel.P_newcommand); [reflexivity|exact M]|reflexivity|exact H].
  - replace (re_match_at CommandModel.P_newcommand _ 0) with (@None mobj) in H by (symmetry; vm_compute; reflexivity); replace (re_match_at CommandModel.P_let _ 0) with (@None mobj) in H by (symmetry; vm_compute; reflexivity);
    replace (re_match_at CommandModel.P_declaremathop _ 0) with (@None mobj) in H by (symmetry; vm_compute; reflexivity); replace (re_match_at CommandModel.P_def _ 0) with (@None mobj) in H by (symmetry; vm_compute; reflexivity).
    destruct (re_match_at CommandModel.P_declarerobust _ 0) as [m|] eqn:M; [|discriminate H].
    apply (K KRobust false _ m (eq_sym Ek)); [apply (clear_first (lit "\DeclareRobustCommand") KRobust _ CommandModel.P_declarerobust); [vm_compute; reflexivity|exact M]|reflexivity|exact H].
  - replace (re_match_at CommandModel.P_newcommand _ 0) with (@None mobj) in H by (symmetry; vm_compute; reflexivity); replace (re_match_at CommandModel.P_let _ 0) with (@None mobj) in H by (symmetry; vm_compute; reflexivity);
    replace (re_match_at CommandModel.P_declarerobust _ 0) with (@None mobj) in H by (symmetry; vm_compute; reflexivity); replace (re_match_at CommandModel.P_def _ 0) with (@None mobj) in H by (symmetry; vm_compute; reflexivity).
    destruct (re_match_at CommandModel.P_declaremathop _ 0) as [m|] eqn:M; [|discriminate H].
    apply (K KOperator true _ m (eq_sym Ek)); [apply (clear_first (lit "\DeclareMathOperator") KOperator _ CommandModel.P_declaremathop); [vm_compute; reflexivity|exact M]|reflexivity|exact H].
Qed.
End Any.
