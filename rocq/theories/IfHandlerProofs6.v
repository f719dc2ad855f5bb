(** C82: the conditionals whose branches are brace groups. *)
From Coq Require Import List NArith PeanoNat Lia Bool String.
From Verif Require Import PyStr Regex RegexLemmas RegexHead Json TexUtilsModel TextModel DelimSpec DelimProofs DelimProofs2 DelimFinal CommandModel CommandSpec KeyvalProofs2 IfModel IfSpec IfHandlerModel IfHandlerSpec IfHandlerProofs IfHandlerProofs2 IfHandlerProofs3 IfHandlerProofs5.
Import ListNotations. Notation length := List.length. Notation concat := List.concat. Open Scope list_scope.

Lemma consn : forall (x : str) l, x :: l <> [].
Proof. discriminate. Qed.
Lemma upto_blocks : forall k t bs p, groups_upto k t bs p -> extract_nested_content_sequence_blocks t c_lb c_rb (Some k) = (bs, p).
Proof.
  intros k t bs p (G & L & N). destruct (c03_blocks c_lb c_rb t (Some k) delims_curly) as (bs' & p' & E & G' & L' & N'). rewrite E.
  destruct (Nat.le_ge_cases (length bs') (length bs)) as [H|H].
  - destruct (groups_same c_lb c_rb delims_curly t bs p G bs' p' G' H) as [-> ->]; [intros; apply N'; lia|reflexivity].
  - destruct (groups_same c_lb c_rb delims_curly t bs' p' G' bs p G H) as [-> ->]; [intros; apply N; lia|reflexivity].
Qed.
(** the blanks before the first group do not matter *)
Lemma upto_skip : forall k (ws r : str) bs p, blank ws -> bs <> [] -> groups_upto k (ws ++ c_lb :: r) bs p -> length ws <= p /\ groups_upto k (c_lb :: r) bs (p - length ws).
Proof.
  intros k ws r bs p B Nn (G & L & N). inversion G as [|? b n bs0 m G1 G2]; subst; [congruence|].
  assert (Nl : nlead (ws ++ c_lb :: r) = length ws).
  { revert B. clear. unfold blank. induction ws as [|x ws IH]; intros B; [reflexivity|]. cbn [forallb] in B. apply andb_true_iff in B as [Bx B]. cbn [List.app nlead List.length]. rewrite Bx. rewrite IH by exact B. reflexivity. }
  apply group_at_lstrip in G1; [|reflexivity]. unfold str in *. rewrite Nl in G1. destruct G1 as [Hn G1].
  assert (Sk : skipn (length ws) (ws ++ c_lb :: r) = c_lb :: r) by (rewrite skipn_app, skipn_all, Nat.sub_diag; reflexivity).
  rewrite Sk in G1. split; [lia|]. assert (Sn : forall q, length ws <= q -> skipn q (ws ++ c_lb :: r) = skipn (q - length ws) (c_lb :: r)).
  { intros q Hq. rewrite skipn_app, skipn_all2 by lia. reflexivity. }
  repeat split; [|exact L|].
  - replace (n + m - length ws) with ((n - length ws) + m) by lia. constructor; [exact G1|]. rewrite <- Sn by lia. exact G2.
  - intros Hl b0 n0. rewrite <- Sn by lia. apply N. exact Hl.
Qed.
Lemma first_group : forall k r bs p, groups_upto k r bs p -> bs <> [] -> exists ws r', r = ws ++ c_lb :: r' /\ blank ws.
Proof. intros k r bs p (G & _) Nn. inversion G as [|? b n bs0 m (ws & rest & -> & B & _) G2]; subst; [congruence|]. exists ws, (b ++ c_rb :: rest). auto. Qed.
Lemma braced_match : forall (n : string) (ws r : str), blank ws -> re_match_at (braced n) (lit n ++ ws ++ c_lb :: r) 0 = Some {| m_start := 0; m_end := S (length (lit n) + length ws); m_caps := [] |}.
Proof.
  intros n ws r B. apply fm_match. unfold braced. cbn [rseq].
  assert (E : skipn (length (lit n)) (lit n ++ ws ++ c_lb :: r) = ws ++ c_lb :: r) by (rewrite skipn_app, skipn_all, Nat.sub_diag; reflexivity).
  eapply fm_seq; [apply (fm_rstr (lit n) _ 0 [] (ws ++ c_lb :: r)); reflexivity|]. cbn [Nat.add]. eapply fm_seq; [eapply fm_star; [exact E|exact B|reflexivity]|].
  eapply fm_is_ch. exact (skipn_more _ _ _ _ E).
Qed.
Lemma at_group : forall (n : string) (ws r : str), skipn (length (lit n) + length ws) (lit n ++ ws ++ c_lb :: r) = c_lb :: r.
Proof. intros n ws r. rewrite <- skipn_add, skipn_app, skipn_all, Nat.sub_diag. cbn [List.app skipn]. rewrite skipn_app, skipn_all, Nat.sub_diag. reflexivity. Qed.
Lemma declared_skip : forall csname all names (t : str), (forall n, In n names -> startswith t (lit "\if" ++ n) = false) -> try_ifs csname all (declared_ifs names) t = try_ifs csname all default_ifs t.
Proof.
  induction names as [|n names IH]; intros t H; [reflexivity|]. cbn [declared_ifs fold_right]. unfold process_newif at 1. rewrite try_cons; [|apply no_match0; apply newif_none; cbn [skipn]; apply H; left; reflexivity].
  apply IH. intros m Im. apply H. right. exact Im.
Qed.
Lemma default_none : forall t : str, startswith t (lit "\if") = false -> startswith t (lit "\IfFileExists") = false ->
  Forall (fun d => re_match_at (if_re d) t 0 = None) (firstn 8 default_ifs).
Proof.
  intros t H1 H3. assert (P1 : forall s, startswith (skipn 0 t) (lit "\if" ++ s) = false) by (intros; apply sw_app; exact H1).
  unfold default_ifs. cbn [firstn]. repeat apply Forall_cons; cbn [if_re same]; [| | | | | | | |apply Forall_nil]; apply no_match0.
  - apply braced_none. exact (P1 (lit "thenelse")).
  - unfold ifx_pattern. cbn [rseq]. apply rm_seq_none, rstr_none. exact (P1 (lit "x")).
  - cbn [rseq]. apply rm_seq_none, rstr_none. exact H1.
  - unfold ifnum_pattern. cbn [rseq]. apply rm_seq_none, rstr_none. exact (P1 (lit "num")).
  - unfold ifdim_pattern. cbn [rseq]. apply rm_seq_none, rstr_none. exact (P1 (lit "dim")).
  - unfold ifcat_pattern. cbn [rseq]. apply rm_seq_none, rstr_none. exact (P1 (lit "cat")).
  - cbn [rseq]. apply rm_seq_none, rstr_none. exact (P1 (lit "case")).
  - apply braced_none. exact H3.
Qed.
Lemma prefix_dec : forall names (s r : str), (forall n q, In n names -> s <> n ++ q) -> (forall x u, r = x :: u -> ~ word_char x) -> Forall word names ->
  forall n, In n names -> startswith (lit "\if" ++ s ++ r) (lit "\if" ++ n) = false.
Proof.
  intros names s r H R W n I. rewrite sw_if. apply not_prefix; [|apply CommandProofs.word_end_head; exact R|intros q; apply H; exact I]. rewrite Forall_forall in W. apply (proj1 (W n I)).
Qed.
Theorem ifthenelse_ok : forall csname names c a b rest p, Forall word names -> (forall n q, In n names -> lit "thenelse" <> n ++ q) ->
  groups_upto 3 rest [c; a; b] p ->
  handle csname (declared_ifs names) (lit "\ifthenelse" ++ rest) = Ok (Some (mk_cond (lit "ifthenelse") c a b []), length (lit "\ifthenelse") + p).
Proof.
  intros csname names c a b rest p W H G. destruct (first_group _ _ _ _ G (consn _ _)) as (ws & r & -> & B). destruct (upto_skip _ _ _ _ _ B (consn _ _) G) as (Lp & G').
  unfold handle. rewrite declared_skip.
  2:{ apply (prefix_dec names (lit "thenelse") (ws ++ c_lb :: r)); [exact H| |exact W]. intros x u E Hx. destruct ws as [|y ws]; cbn [List.app] in E; injection E as <- _; [exact (lb_no Hx)|].
      unfold blank in B. cbn [forallb] in B. apply andb_true_iff in B as [By _]. apply CommandProofs.name_ch_spec in Hx. rewrite (CommandProofs.space_not_name _ By) in Hx. discriminate Hx. }
  unfold default_ifs. cbn [try_ifs same if_re if_name]. rewrite (braced_match "\ifthenelse" ws r B). cbv zeta.
  change (str_eqb (lit "ifthenelse") (lit "ifthenelse")) with true. cbv iota. unfold handle_ifthenelse. cbn [m_end]. rewrite Nat.sub_succ, Nat.sub_0_r. rewrite (at_group "\ifthenelse" ws r), (upto_blocks _ _ _ _ G'). do 2 f_equal. lia.
Qed.
Definition at_commands : list string := ["@ifclassloaded"; "@ifpackageloaded"; "@ifundefined"]%string.
Theorem atif_ok : forall csname names name c bs rest p, In name at_commands -> groups_upto 3 rest (c :: bs) p ->
  handle csname (declared_ifs names) (c_bs :: lit name ++ rest) = Ok (Some (mk_cond (lit name) c (nth 0 bs []) (nth 1 bs []) []), S (length (lit name)) + p).
Proof.
  intros csname names name c bs rest p I G. destruct (first_group _ _ _ _ G (consn _ _)) as (ws & r & -> & B). destruct (upto_skip _ _ _ _ _ B (consn _ _) G) as (Lp & G').
  pose proof (upto_blocks _ _ _ _ G') as X. unfold handle. unfold at_commands in I.
  assert (Y : forall (n : string) all, nth 1 (c :: bs) [] = nth 0 bs [] /\ nth 2 (c :: bs) [] = nth 1 bs [] /\
     handle_atif (lit n ++ ws ++ c_lb :: r) {| m_start := 0; m_end := S (length (lit n) + length ws); m_caps := [] |} all = Ok (Some (mk_cond all c (nth 0 bs []) (nth 1 bs []) []), length (lit n) + p)).
  { intros n all. split; [reflexivity|]. split; [reflexivity|]. unfold handle_atif. cbn [m_end]. rewrite Nat.sub_succ, Nat.sub_0_r. rewrite (at_group n ws r), X. cbn [nth]. do 2 f_equal. lia. }
  destruct I as [<-|[<-|[<-|[]]]].
  - change (c_bs :: lit "@ifclassloaded" ++ ws ++ c_lb :: r) with (lit "\@ifclassloaded" ++ ws ++ c_lb :: r). rewrite declared_skip by reflexivity.
    rewrite <- (firstn_skipn 8 default_ifs), try_skip by (apply default_none; reflexivity).
    unfold default_ifs. cbn [skipn try_ifs same if_re if_name]. rewrite (braced_match "\@ifclassloaded" ws r B). exact (proj2 (proj2 (Y "\@ifclassloaded"%string (lit "@ifclassloaded")))).
  - change (c_bs :: lit "@ifpackageloaded" ++ ws ++ c_lb :: r) with (lit "\@ifpackageloaded" ++ ws ++ c_lb :: r). rewrite declared_skip by reflexivity.
    rewrite <- (firstn_skipn 8 default_ifs), try_skip by (apply default_none; reflexivity).
    change (skipn 8 default_ifs) with (same "@ifclassloaded" (braced "\@ifclassloaded") :: skipn 9 default_ifs). rewrite try_cons by (apply no_match0, braced_none; reflexivity).
    unfold default_ifs. cbn [skipn try_ifs same if_re if_name]. rewrite (braced_match "\@ifpackageloaded" ws r B). exact (proj2 (proj2 (Y "\@ifpackageloaded"%string (lit "@ifpackageloaded")))).
  - change (c_bs :: lit "@ifundefined" ++ ws ++ c_lb :: r) with (lit "\@ifundefined" ++ ws ++ c_lb :: r). rewrite declared_skip by reflexivity.
    rewrite <- (firstn_skipn 8 default_ifs), try_skip by (apply default_none; reflexivity).
    change (skipn 8 default_ifs) with (same "@ifclassloaded" (braced "\@ifclassloaded") :: same "@ifpackageloaded" (braced "\@ifpackageloaded") :: skipn 10 default_ifs).
    rewrite try_cons by (apply no_match0, braced_none; reflexivity). rewrite try_cons by (apply no_match0, braced_none; reflexivity).
    unfold default_ifs. cbn [skipn try_ifs same if_re if_name]. rewrite (braced_match "\@ifundefined" ws r B). exact (proj2 (proj2 (Y "\@ifundefined"%string (lit "@ifundefined")))).
Qed.
Theorem ifstar_ok : forall csname names a bs rest p, groups_upto 2 rest (a :: bs) p ->
  handle csname (declared_ifs names) (lit "\@ifstar" ++ rest) =
    Ok (Some {| ct_type := lit "conditional-ifstar"; ct_cond := lit "@ifstar"; ct_if := a; ct_else := nth 0 bs []; ct_elsif := [] |}, length (lit "\@ifstar") + p).
Proof.
  intros csname names a bs rest p G. destruct (first_group _ _ _ _ G (consn _ _)) as (ws & r & -> & B). destruct (upto_skip _ _ _ _ _ B (consn _ _) G) as (Lp & G').
  pose proof (upto_blocks _ _ _ _ G') as X. unfold handle. rewrite declared_skip by reflexivity.
  rewrite <- (firstn_skipn 8 default_ifs), try_skip by (apply default_none; reflexivity).
  change (skipn 8 default_ifs) with (same "@ifclassloaded" (braced "\@ifclassloaded") :: same "@ifpackageloaded" (braced "\@ifpackageloaded") :: same "@ifundefined" (braced "\@ifundefined") :: skipn 11 default_ifs).
  do 3 (rewrite try_cons by (apply no_match0, braced_none; reflexivity)).
  unfold default_ifs. cbn [skipn try_ifs same if_re if_name]. rewrite (braced_match "\@ifstar" ws r B). cbv zeta.
  change (str_eqb (lit "@ifstar") (lit "ifthenelse")) with false. change (str_eqb (lit "@ifstar") (lit "@ifclassloaded") || str_eqb (lit "@ifstar") (lit "@ifpackageloaded") || str_eqb (lit "@ifstar") (lit "@ifundefined")) with false.
  change (str_eqb (lit "@ifstar") (lit "@ifstar")) with true. cbv iota. unfold handle_ifstar. cbn [m_end]. rewrite Nat.sub_succ, Nat.sub_0_r. rewrite (at_group "\@ifstar" ws r), X. cbn [nth]. do 2 f_equal. lia.
Qed.
