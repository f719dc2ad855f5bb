(** C107: pictures and library commands. *)
From Coq Require Import List NArith ZArith PeanoNat Lia Bool String.
From Verif Require CommandModel FormatProofs3.
From Verif Require Import PyStr Regex RegexLemmas RegexHead DelimSpec DelimProofs DelimFinal CommandSpec CommandProofs4 EnvModel EnvSpec EnvProofs TexUtilsModel Json BuilderModel TokensModel ParseModel ParseCore PackSpec PackProofs.
Import ListNotations. Notation length := List.length. Notation concat := List.concat. Open Scope list_scope.
Local Notation fm := RegexHead.first_match.
Lemma begin_marker : forall ws name r, blank ws -> first_marker (lit "\begin") name (begin_text ws name ++ r) 0 0 (length (begin_text ws name)).
Proof.
  intros ws name r B. split; [lia|]. split; [|intros; lia]. exists ws, r. split; [exact B|]. unfold begin_text. split; [cbn [skipn]; rewrite <- !app_assoc; reflexivity|]. rewrite !app_length. cbn [List.length]. lia.
Qed.
Lemma marker_first_fun : forall cmd name t i j i' j', first_marker cmd name t 0 i j -> first_marker cmd name t 0 i' j' -> i = i' /\ j = j'.
Proof.
  intros cmd name t i j i' j' (A1 & A2 & A3) (B1 & B2 & B3). assert (i = i').
  { destruct (Nat.lt_trichotomy i i') as [L|[L|L]]; [destruct (B3 i j); [lia|exact A2]|exact L|destruct (A3 i' j'); [lia|exact B2]]. }
  subst i'. split; [reflexivity|]. eapply marker_fun; eassumption.
Qed.
(** the environment that begins at the beginning of the text *)
Lemma block_closed : forall ws name r s e, blank ws -> let t := begin_text ws name ++ r in let j := length (begin_text ws name) in closed_at name t j s e ->
  exists i, find_matching_env_block t name 0 = Some (i, e, strip (slice j s t)).
Proof.
  intros ws name r s e B t j C. destruct (fmeb_spec t name 0) as [(i' & j' & s' & e' & F & C' & E)|(N & _)].
  - cbn [skipn] in *. destruct (marker_first_fun _ _ _ _ _ _ _ (begin_marker ws name r B) F) as (<- & <-). fold t j in C'. exists 0. rewrite E.
    destruct (closed_fun _ _ _ _ _ _ _ C C') as (<- & <-). reflexivity.
  - exfalso. cbn [skipn] in N. eapply N; [apply (begin_marker ws name r B)|exact C].
Qed.
Lemma block_open : forall ws name r, blank ws -> let t := begin_text ws name ++ r in (forall s e, ~ closed_at name t (length (begin_text ws name)) s e) -> find_matching_env_block t name 0 = None.
Proof.
  intros ws name r B t N. destruct (fmeb_spec t name 0) as [(i' & j' & s' & e' & F & C' & E)|(_ & E)]; [|exact E]. exfalso. cbn [skipn] in *.
  destruct (marker_first_fun _ _ _ _ _ _ _ (begin_marker ws name r B) F) as (<- & <-). exact (N _ _ C').
Qed.
(** * Pictures *)
Lemma lib_no : forall t, startswith t (lit "\use") = false -> re_match_at P_uselibrary t 0 = None.
Proof. intros t H. unfold P_uselibrary. cbn [rseq]. apply starts_no. exact H. Qed.
Lemma picture_match : forall ws name r, blank ws -> picture_name name -> exists m, re_match_at P_picture (begin_text ws name ++ r) 0 = Some m /\ CommandModel.grp (begin_text ws name ++ r) 1 m = name.
Proof.
  intros ws name r B P. set (t := begin_text ws name ++ r). assert (E : skipn 0 t = lit "\begin" ++ ws ++ [c_lb] ++ name ++ [c_rb] ++ r) by (unfold t, begin_text; cbn [skipn]; rewrite <- !app_assoc; reflexivity).
  set (i := 6 + length ws + 1). assert (Ei : skipn i t = name ++ [c_rb] ++ r).
  { do 3 apply skipn_more in E. unfold i. cbn [List.length] in E. change (length (lit "\begin")) with 6 in E. exact E. }
  assert (F : exists c, fm P_picture t 0 [] (i + length name + 1) ((1, (i, i + length name)) :: c)).
  { unfold P_picture. cbn [rseq]. eexists. eapply fm_seq; [apply (fm_rstr (lit "\begin") _ _ _ _ E)|]. apply skipn_more in E. eapply fm_seq; [apply (fm_star isspace _ _ _ ws _ E B); reflexivity|]. apply skipn_more in E.
    eapply fm_seq; [eapply fm_is_ch; exact E|]. replace (S (0 + length (lit "\begin") + length ws)) with i by (unfold i; change (length (lit "\begin")) with 6; lia).
    eapply fm_seq; [apply fm_grp|].
    2: { replace (i + length name + 1) with (S (i + length name)) by lia. eapply fm_is_ch. apply skipn_more in Ei. exact Ei. }
    cbn [ralt]. destruct P as [->|[->| ->]].
    - apply fm_alt_left. exact (fm_rstr (lit "tikzpicture") _ _ _ _ Ei).
    - apply fm_alt_right; [rewrite rm_rstr, Ei; reflexivity|]. apply fm_alt_left. exact (fm_rstr (lit "picture") _ _ _ _ Ei).
    - apply fm_alt_right; [rewrite rm_rstr, Ei; reflexivity|]. apply fm_alt_right; [rewrite rm_rstr, Ei; reflexivity|]. exact (fm_rstr (lit "pgfpicture") _ _ _ _ Ei). }
  destruct F as (c & F). eexists. split; [apply fm_match; exact F|]. unfold CommandModel.grp, m_group. cbn [m_caps cap_get Nat.eqb option_map]. unfold slice. rewrite Ei. replace (i + length name - i) with (length name) by lia. apply firstn_app_exact. reflexivity.
Qed.
Section Any.
Variable St : Type.
Variables (p : parser St) (st : St) (prev : option dict).
Definition diagram (name content : str) : tok_in := TDict [(k_type, VStr (lit "diagram")); (k_name, VStr name); (k_content, VStr content)].
Lemma picture_run : forall ws name r, blank ws -> picture_name name -> let t := begin_text ws name ++ r in
  h_run (tikz St) p st t prev = let '(e, content) := match find_matching_env_block t name 0 with Some (_, e, c) => (Z.of_nat e, c) | None => ((-1)%Z, []) end in ret (st, diagram name content, e).
Proof.
  intros ws name r B P t. cbn [tikz h_run]. rewrite lib_no by reflexivity. destruct (picture_match ws name r B P) as (m & E & G). fold t in E, G. rewrite E. cbv zeta. rewrite G. reflexivity.
Qed.
Lemma picture_token : forall ws name r s e, blank ws -> picture_name name -> let t := begin_text ws name ++ r in closed_at name t (length (begin_text ws name)) s e ->
  h_can (tikz St) st t = true /\ h_run (tikz St) p st t prev = ret (st, diagram name (strip (slice (length (begin_text ws name)) s t)), Z.of_nat e).
Proof.
  intros ws name r s e B P t C. split.
  - cbn [tikz h_can existsb]. destruct (picture_match ws name r B P) as (m & E & _). fold t in E. rewrite E. rewrite lib_no by reflexivity. reflexivity.
  - unfold t. rewrite (picture_run ws name r B P). destruct (block_closed ws name r s e B C) as (i & ->). reflexivity.
Qed.
Lemma picture_open : forall ws name r, blank ws -> picture_name name -> let t := begin_text ws name ++ r in (forall s e, ~ closed_at name t (length (begin_text ws name)) s e) ->
  h_can (tikz St) st t = true /\ h_run (tikz St) p st t prev = ret (st, diagram name [], (-1)%Z).
Proof.
  intros ws name r B P t C. split.
  - cbn [tikz h_can existsb]. destruct (picture_match ws name r B P) as (m & E & _). fold t in E. rewrite E. rewrite lib_no by reflexivity. reflexivity.
  - unfold t. rewrite (picture_run ws name r B P). rewrite (block_open ws name r B C). reflexivity.
Qed.
(** * Libraries *)
Lemma library_match : forall word g r, library_word word -> blank g -> exists c,
  (if startswith word (lit "\use") then re_match_at P_uselibrary (word ++ g ++ c_lb :: r) 0 else re_match_at P_pgfplotsset (word ++ g ++ c_lb :: r) 0) = Some {| m_start := 0; m_end := length word + length g + 1; m_caps := c |}.
Proof.
  intros word g r L B.
  assert (U : forall mid, (mid = lit "tikz" \/ mid = lit "pgf" \/ mid = lit "pgfplots") -> word = lit "\use" ++ mid ++ lit "library" -> exists c, re_match_at P_uselibrary (word ++ g ++ c_lb :: r) 0 = Some {| m_start := 0; m_end := length word + length g + 1; m_caps := c |}).
  { intros mid M E. exists []. apply fm_match. unfold P_uselibrary. cbn [rseq]. set (t := word ++ g ++ c_lb :: r). assert (Et : skipn 0 t = lit "\use" ++ mid ++ lit "library" ++ g ++ c_lb :: r) by (unfold t; rewrite E; cbn [skipn]; rewrite <- !app_assoc; reflexivity).
    eapply fm_seq; [apply (fm_rstr (lit "\use") _ _ _ _ Et)|]. apply skipn_more in Et. pose proof Et as E1. apply skipn_more in E1. pose proof E1 as E2. apply skipn_more in E2. cbn [ralt].
    replace (length word + length g + 1) with (0 + length (lit "\use") + length mid + length (lit "library") + length g + 1) by (rewrite E, !app_length; lia).
    destruct M as [->|[->| ->]].
    - eapply fm_seq; [apply fm_alt_left; apply (fm_rstr (lit "tikz") _ _ _ _ Et)|]. eapply fm_seq; [apply (fm_rstr (lit "library") _ _ _ _ E1)|]. exact (gap_fm _ _ _ _ _ E2 B).
    - eapply fm_seq; [apply fm_alt_right; [rewrite rm_rstr, Et; reflexivity|]; apply fm_alt_left; apply (fm_rstr (lit "pgf") _ _ _ _ Et)|]. eapply fm_seq; [apply (fm_rstr (lit "library") _ _ _ _ E1)|]. exact (gap_fm _ _ _ _ _ E2 B).
    - (* pgf is tried first and fails at library *)
      unfold first_match. assert (X : rm (RSeq (rstr (lit "library")) (RSeq (rstar rspace) (is_ch c_lb))) t (0 + length (lit "\use") + length (lit "pgf")) [] = []).
      { apply rm_seq_none. rewrite rm_rstr. change (lit "pgfplots" ++ lit "library" ++ g ++ c_lb :: r) with (lit "pgf" ++ lit "plotslibrary" ++ g ++ c_lb :: r) in Et. apply skipn_more in Et. rewrite Et. reflexivity. }
      assert (Y : fm (RSeq (rstr (lit "library")) (RSeq (rstar rspace) (is_ch c_lb))) t (0 + length (lit "\use") + length (lit "pgfplots")) [] (0 + length (lit "\use") + length (lit "pgfplots") + length (lit "library") + length g + 1) []).
      { eapply fm_seq; [apply (fm_rstr (lit "library") _ _ _ _ E1)|]. exact (gap_fm _ _ _ _ _ E2 B). }
      destruct Y as (l & Y). set (K := RSeq (rstr (lit "library")) (RSeq (rstar rspace) (is_ch c_lb))) in *. set (A := RAlt (rstr (lit "tikz")) (RAlt (rstr (lit "pgf")) (rstr (lit "pgfplots")))).
      assert (Z : rm A t (0 + length (lit "\use")) [] = [(0 + length (lit "\use") + length (lit "pgf"), []); (0 + length (lit "\use") + length (lit "pgfplots"), [])]).
      { assert (Z1 : rm (rstr (lit "tikz")) t (0 + length (lit "\use")) [] = []) by (rewrite rm_rstr, Et; reflexivity). assert (Z2 : rm (rstr (lit "pgf")) t (0 + length (lit "\use")) [] = [(0 + length (lit "\use") + length (lit "pgf"), [])]) by (rewrite rm_rstr, Et; reflexivity).
        assert (Z3 : rm (rstr (lit "pgfplots")) t (0 + length (lit "\use")) [] = [(0 + length (lit "\use") + length (lit "pgfplots"), [])]) by (rewrite rm_rstr, Et; reflexivity).
        change (rm A t (0 + length (lit "\use")) []) with (rm (rstr (lit "tikz")) t (0 + length (lit "\use")) [] ++ rm (rstr (lit "pgf")) t (0 + length (lit "\use")) [] ++ rm (rstr (lit "pgfplots")) t (0 + length (lit "\use")) []). rewrite Z1, Z2, Z3. reflexivity. }
      exists l. change (rm (RSeq A K) t (0 + length (lit "\use")) []) with (flat_map (fun q => rm K t (fst q) (snd q)) (rm A t (0 + length (lit "\use")) [])). rewrite Z. cbn [flat_map fst snd]. rewrite X, Y. rewrite app_nil_r. reflexivity. }
  destruct L as [->|[->|[->| ->]]].
  - apply (U (lit "tikz")); [auto|reflexivity].
  - apply (U (lit "pgf")); [auto|reflexivity].
  - apply (U (lit "pgfplots")); [auto|reflexivity].
  - exists []. apply fm_match. pose proof (head_fm "\pgfplotsset" (lit "\pgfplotsset" ++ g ++ c_lb :: r) 0 [] g r eq_refl B) as F. exact F.
Qed.
Lemma library_run : forall word g r, library_word word -> blank g ->
  h_can (tikz St) st (word ++ g ++ c_lb :: r) = true /\ h_run (tikz St) p st (word ++ g ++ c_lb :: r) prev = ret (st, TNone, Z.of_nat (length word + length g + snd (extract_nested_content (c_lb :: r) c_lb c_rb))).
Proof.
  intros word g r L B. destruct (library_match word g r L B) as (c & M). cbn [tikz h_can h_run existsb].
  assert (S : forall m, m_end m = length word + length g + 1 -> skip_group St st (word ++ g ++ c_lb :: r) m = ret (st, TNone, Z.of_nat (length word + length g + snd (extract_nested_content (c_lb :: r) c_lb c_rb)))).
  { intros m E. unfold skip_group. rewrite E. cbv zeta. replace (length word + length g + 1 - 1) with (length word + length g) by lia. rewrite app_assoc. rewrite skipn_app_exact by (rewrite app_length; reflexivity). reflexivity. }
  destruct (startswith word (lit "\use")) eqn:U.
  - rewrite M. split; [reflexivity|]. apply S. reflexivity.
  - destruct L as [->|[->|[->| ->]]]; try discriminate U. rewrite lib_no by reflexivity. assert (N : re_match_at P_picture (lit "\pgfplotsset" ++ g ++ c_lb :: r) 0 = None) by (unfold P_picture; cbn [rseq]; apply starts_no; reflexivity). rewrite N, M. split; [reflexivity|]. apply S. reflexivity.
Qed.
Lemma library_taken : forall word g body rest, library_word word -> blank g -> good_body body ->
  h_can (tikz St) st (word ++ g ++ [c_lb] ++ body ++ [c_rb] ++ rest) = true /\ h_run (tikz St) p st (word ++ g ++ [c_lb] ++ body ++ [c_rb] ++ rest) prev = ret (st, TNone, Z.of_nat (length (word ++ g ++ [c_lb] ++ body ++ [c_rb]))).
Proof.
  intros word g body rest L B G. destruct (library_run word g (body ++ [c_rb] ++ rest) L B) as (A1 & A2). split; [exact A1|]. change (word ++ g ++ [c_lb] ++ body ++ [c_rb] ++ rest) with (word ++ g ++ c_lb :: body ++ [c_rb] ++ rest). rewrite A2. rewrite FormatProofs3.group_end by exact G. cbn [snd]. rewrite !app_length. cbn [List.length]. f_equal. f_equal. lia.
Qed.
Lemma library_bounds : forall word g r, library_word word -> blank g -> exists n, h_run (tikz St) p st (word ++ g ++ c_lb :: r) prev = ret (st, TNone, Z.of_nat n) /\ length word <= n <= length (word ++ g ++ c_lb :: r).
Proof.
  intros word g r L B. destruct (library_run word g r L B) as (_ & A2). eexists. split; [exact A2|]. rewrite !app_length. destruct (c02_outcomes c_lb c_rb (c_lb :: r) delims_curly) as [->|(ct & n & -> & H)]; cbn [snd]; [cbn [List.length]; lia|]. lia.
Qed.
(** * overpic *)
Definition graphics (file : str) : tok_in := TDict [(k_type, VStr (lit "includegraphics")); (k_content, VStr file)].
Lemma overpic_match : forall ws r, blank ws -> exists m, re_match_at P_overpic (begin_text ws (lit "overpic") ++ r) 0 = Some m.
Proof.
  intros ws r B. eexists. apply fm_match. unfold P_overpic. cbn [rseq]. set (t := begin_text ws (lit "overpic") ++ r). assert (E : skipn 0 t = lit "\begin" ++ ws ++ lit "{overpic}" ++ r) by (unfold t, begin_text; cbn [skipn]; rewrite <- !app_assoc; reflexivity).
  eapply fm_seq; [apply (fm_rstr (lit "\begin") _ _ _ _ E)|]. apply skipn_more in E. eapply fm_seq; [apply (fm_star isspace _ _ _ ws _ E B); reflexivity|]. apply skipn_more in E. exact (fm_rstr (lit "{overpic}") _ _ _ _ E).
Qed.
Lemma options_read : forall content rest, behind_options content rest -> exists o, extract_args content 1 1 = (fst (extract_nested_content_sequence_blocks rest c_lb c_rb (Some 1)), o, snd (extract_nested_content_sequence_blocks rest c_lb c_rb (Some 1))).
Proof.
  intros content rest H. unfold extract_args. cbn [Nat.ltb Nat.leb]. destruct H as [N|b n G].
  - rewrite (blocks_max c_lk c_rk content [] 0 1 delims_square); [|constructor|cbn; lia|intros _; exact N]. exists []. destruct (extract_nested_content_sequence_blocks content c_lb c_rb (Some 1)) as (req, e). reflexivity.
  - rewrite (blocks_max c_lk c_rk content [b] (n + 0) 1 delims_square); [|econstructor; [exact G|constructor]|cbn; lia|cbn; lia]. rewrite Nat.add_0_r. pose proof (group_at_pos _ _ _ _ _ G) as Q. exists [b]. destruct n as [|n]; [lia|].
    destruct (extract_nested_content_sequence_blocks (skipn (S n) content) c_lb c_rb (Some 1)) as (req, e). reflexivity.
Qed.
Lemma file_read : forall content rest file m, behind_options content rest -> group_at c_lb c_rb rest file m -> exists o e, extract_args content 1 1 = ([file], o, e).
Proof.
  intros content rest file m H G. destruct (options_read _ _ H) as (o & ->). rewrite (blocks_max c_lb c_rb rest [file] (m + 0) 1 delims_curly); [eexists; eexists; reflexivity|econstructor; [exact G|constructor]|cbn; lia|cbn; lia].
Qed.
Lemma file_none : forall content rest, behind_options content rest -> (forall b n, ~ group_at c_lb c_rb rest b n) -> exists o e, extract_args content 1 1 = ([], o, e).
Proof.
  intros content rest H G. destruct (options_read _ _ H) as (o & ->). rewrite (blocks_max c_lb c_rb rest [] 0 1 delims_curly); [eexists; eexists; reflexivity|constructor|cbn; lia|intros _; exact G].
Qed.
Lemma overpic_token : forall ws r s e rest file m, blank ws -> let t := begin_text ws (lit "overpic") ++ r in let j := length (begin_text ws (lit "overpic")) in
  closed_at (lit "overpic") t j s e -> behind_options (strip (slice j s t)) rest -> group_at c_lb c_rb rest file m ->
  h_can (overpic St) st t = true /\ h_run (overpic St) p st t prev = ret (st, graphics file, Z.of_nat e).
Proof.
  intros ws r s e rest file m B t j C H G. split; [cbn [overpic h_can]; destruct (overpic_match ws r B) as (mm & E); unfold t; rewrite E; reflexivity|].
  cbn [overpic h_run]. destruct (block_closed ws (lit "overpic") r s e B C) as (i & E). fold t j in E. rewrite E. destruct (file_read _ _ _ _ H G) as (o & k & ->). reflexivity.
Qed.
Lemma overpic_none : forall ws r s e rest, blank ws -> let t := begin_text ws (lit "overpic") ++ r in let j := length (begin_text ws (lit "overpic")) in
  closed_at (lit "overpic") t j s e -> behind_options (strip (slice j s t)) rest -> (forall b n, ~ group_at c_lb c_rb rest b n) ->
  h_can (overpic St) st t = true /\ h_run (overpic St) p st t prev = ret (st, TNone, Z.of_nat e).
Proof.
  intros ws r s e rest B t j C H G. split; [cbn [overpic h_can]; destruct (overpic_match ws r B) as (mm & E); unfold t; rewrite E; reflexivity|].
  cbn [overpic h_run]. destruct (block_closed ws (lit "overpic") r s e B C) as (i & E). fold t j in E. rewrite E. destruct (file_none _ _ H G) as (o & k & ->). reflexivity.
Qed.
Lemma overpic_open : forall ws r, blank ws -> let t := begin_text ws (lit "overpic") ++ r in (forall s e, ~ closed_at (lit "overpic") t (length (begin_text ws (lit "overpic"))) s e) ->
  h_can (overpic St) st t = true /\ h_run (overpic St) p st t prev = ret (st, TNone, (-1)%Z).
Proof.
  intros ws r B t C. split; [cbn [overpic h_can]; destruct (overpic_match ws r B) as (mm & E); unfold t; rewrite E; reflexivity|].
  cbn [overpic h_run]. rewrite (block_open ws (lit "overpic") r B C : find_matching_env_block t (lit "overpic") 0 = None). reflexivity.
Qed.
End Any.
