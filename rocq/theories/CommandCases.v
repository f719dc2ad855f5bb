From Coq Require Import List NArith ZArith PeanoNat Lia Bool String.
From Verif Require Import PyStr Regex RegexLemmas RegexHead TexUtilsModel DelimSpec DelimProofs DelimFinal SubstModel SubstSpec SubstProofs ContentModel ContentSpec ContentProofs ContentProofs2 ContentProofs3 CommandModel CommandSpec CommandProofs CommandProofs2 CommandProofs3 CommandProofs4 CommandProofs5 CommandProofs6 CommandProofs7 CommandProofs8 TableProofs2.
Import ListNotations. Notation length := List.length. Notation concat := List.concat. Open Scope list_scope.

Definition empty : cstate := {| c_cmds := []; c_lets := [] |}.
Lemma word_check : forall n a x, n = a ++ [x] -> forallb name_ch n = true -> letter x = true -> word n.
Proof. intros n a x E H1 H2. split; [apply Forall_forall; intros y Hy; rewrite forallb_forall in H1; apply name_ch_spec, H1, Hy|]. exists a, x. split; [exact E|apply letter_spec; exact H2]. Qed.
Lemma closed_grp : forall body, extract_nested_content ([c_lb] ++ body ++ [c_rb]) c_lb c_rb = (Some body, 1 + length body + 1) -> good_body body.
Proof. intros body H. apply (proj1 (extract_nested_content_iff c_lb c_rb _ _ _ delims_curly)) in H as (ws & rest & E & Hw & Hb & Hc & L). split; assumption. Qed.

Lemma c54_refuted : exists body nargs pat, fst (handle_definition (lit "\newcommand{\x}[1][a" ++ [c_nl] ++ lit "b]{<#1>}")) = Some (TNew (lit "x") body nargs [] pat false).
Proof. do 3 eexists. vm_compute. reflexivity. Qed.
Lemma c54_bracket : fst (handle_definition (lit "\newcommand{\x}[1][{[a]}]{<#1>}")) = None.
Proof. vm_compute. reflexivity. Qed.
Definition d_foo : macro := {| mc_keyword := "\newcommand"; mc_star := true; mc_gap := []; mc_braced := true; mc_name := lit "foo"; mc_nargs := Some (lit " ", lit "2"); mc_defaults := [([], lit "x")]; mc_gap2 := []; mc_body := lit "a#1{b}#2" |}.
Lemma word_foo : word (lit "foo").
Proof. apply (word_check _ (lit "fo") 111%N); reflexivity. Qed.
Lemma word_bar : word (lit "bar").
Proof. apply (word_check _ (lit "ba") 114%N); reflexivity. Qed.
Lemma d_foo_ok : well_written d_foo /\ macro_text d_foo = lit "\newcommand*{\foo} [2][x]{a#1{b}#2}" /\ arity d_foo = 2 /\ default_values d_foo = [lit "x"].
Proof.
  split; [|split; [|split]; reflexivity]. split; [left; reflexivity|]. split; [reflexivity|]. split; [reflexivity|]. split; [exact word_foo|]. split.
  - apply closed_grp. reflexivity.
  - split; [split; [reflexivity|split; [discriminate|reflexivity]]|]. split; [|apply Nat.leb_le; reflexivity]. intros w v [E|[]]. injection E as <- <-. split; [reflexivity|]. split; intros [C|[]]; discriminate C.
Qed.
Lemma history_grows : forall isalpha isalnum ifs ew h st d rest, history isalpha isalnum ifs ew h st -> acceptable d ->
  exists st1, parser_define isalpha isalnum ifs ew st (macro_text d ++ rest) = Some (st1, length (macro_text d)) /\ history isalpha isalnum ifs ew (d :: h) st1.
Proof. intros isalpha isalnum ifs ew h st d rest H A. eexists. split; [apply define_ok; exact A|]. eapply h_define with (rest := rest); [exact H|exact A|]. apply define_ok. exact A. Qed.
Lemma c55_refuted : forall isalnum ifs ew, exists st, parser_define letter isalnum ifs ew empty (lit "\newcommand{\my@}{1}") = Some (st, 20) /\
  handle_command letter st (lit "\my@other") = Some (lit "1", 4).
Proof. intros. eexists. split; [vm_compute; reflexivity|]. vm_compute. reflexivity. Qed.
Lemma c56_refuted : forall isalnum ifs ew, exists st1 st2,
  parser_define letter isalnum ifs ew empty (lit "\let\foo\bar") = Some (st1, 12) /\
  parser_define letter isalnum ifs ew st1 (lit "\renewcommand{\foo}{x}") = Some (st2, 22) /\
  handle_command letter st2 (lit "\foo") = Some (lit "\bar", 4).
Proof. intros. do 2 eexists. split; [vm_compute; reflexivity|]. split; [vm_compute; reflexivity|]. vm_compute. reflexivity. Qed.
Lemma c56_self : forall isalnum ifs ew, exists st1 st2,
  parser_define letter isalnum ifs ew empty (lit "\newcommand{\foo}{a}") = Some (st1, 20) /\
  parser_define letter isalnum ifs ew st1 (lit "\renewcommand{\foo}{b\foo}") = Some (st2, 26) /\
  handle_command letter st2 (lit "\foo") = Some (lit "a", 4).
Proof. intros. do 2 eexists. split; [vm_compute; reflexivity|]. split; [vm_compute; reflexivity|]. vm_compute. reflexivity. Qed.
Lemma c57_break : forall isalnum ew, expand_commands letter isalnum ew {| c_cmds := table [(lit "x", lit "\mathbf{x}")]; c_lets := [] |} (lit "1\\x") false = Some (lit "1\\mathbf{x}").
Proof. intros. vm_compute. reflexivity. Qed.
Lemma c57_adjacent : forall isalnum ew, expand_commands letter isalnum ew {| c_cmds := table [(lit "b", lit "x"); (lit "a", lit "A")]; c_lets := [] |} (lit "\a\b") false = Some (lit "\ax").
Proof. intros. vm_compute. reflexivity. Qed.
Lemma c58_refuted : forall isalnum ifs ew, exists st1 st2 n,
  parser_define letter isalnum ifs ew empty (lit "\def\a{1}") = Some (st1, 9) /\
  parser_define letter isalnum ifs ew st1 (lit "\edef\a{\a,2}") = Some (st2, n) /\
  handle_command letter st2 (lit "\a") = Some (lit "1,2,2", 2).
Proof. intros. do 3 eexists. split; [vm_compute; reflexivity|]. split; [vm_compute; reflexivity|]. vm_compute. reflexivity. Qed.
Lemma c59_comma : exists pat, handle_definition (lit "\let\foo\bar,text more") = (Some (TLet (lit "foo") (lit "\bar,text") pat), 17).
Proof. eexists. vm_compute. reflexivity. Qed.
Lemma c60_refuted : forall isalnum ifs ew, exists st, parser_define letter isalnum ifs ew empty (lit "\def\foo#1{[#1]}") = Some (st, 16) /\
  handle_command letter st (lit "\foo{a{b{c}}}") = Some (lit "[{]", 5).
Proof. intros. eexists. split; [vm_compute; reflexivity|]. vm_compute. reflexivity. Qed.
Lemma c59_case : blank (lit " ") /\ word (lit "foo") /\ word (lit "bar") /\ let_stop (lit " baz") /\ let_text (lit " ") (lit "foo") true (lit "bar") = lit "\let \foo=\bar".
Proof. split; [reflexivity|]. split; [exact word_foo|]. split; [exact word_bar|]. split; [left; reflexivity|reflexivity]. Qed.

Lemma d_foo_acc : acceptable d_foo.
Proof.
  split; [exact (proj1 d_foo_ok)|]. split; [intros H; apply existsb_in in H; vm_compute in H; discriminate H|]. split; [|intros r H; discriminate H].
  intros U. apply (proj1 (uses_search (lit "foo") (lit "a#1{b}#2") word_foo)) in U; [exact U|reflexivity].
Qed.
Lemma groups_none : forall o c t, ~ (exists b n, group_at o c t b n) -> forall b n, ~ group_at o c t b n.
Proof. intros o c t H b n G. apply H. eauto. Qed.
Lemma c55_case : forall isalnum ifs ew, exists st, history letter isalnum ifs ew [d_foo] st /\
  call_args d_foo (lit "[q]{w{}}e") [lit "q"; lit "w{}"] 8 /\ handle_command letter st (lit "\foo[q]{w{}}e") = Some (lit "aq{b}w{}", 12) /\
  handle_command letter st (lit "\foo{w}e") = Some (lit "ax{b}w", 7) /\ handle_command letter st (lit "\fool") = None.
Proof.
  intros isalnum ifs ew. destruct (history_grows letter isalnum ifs ew [] empty d_foo [] (h_start _ _ _ _) d_foo_acc) as (st & D & H). exists st. split; [exact H|].
  assert (E : st = {| c_cmds := [(lit "foo", ent d_foo)]; c_lets := [] |}) by (rewrite define_ok in D by exact d_foo_acc; injection D as <-; reflexivity). subst st.
  split; [|split; [|split]; vm_compute; reflexivity].
  change (exists os p reqs q,
      groups_at c_lk c_rk (lit "[q]{w{}}e") os p /\ length os <= 1 /\ (length os < 1 -> forall b j, ~ group_at c_lk c_rk (skipn p (lit "[q]{w{}}e")) b j) /\
      groups_at c_lb c_rb (skipn p (lit "[q]{w{}}e")) reqs q /\ length reqs <= 1 /\ (length reqs < 1 -> forall b j, ~ group_at c_lb c_rb (skipn (p + q) (lit "[q]{w{}}e")) b j) /\
      [lit "q"; lit "w{}"] = os ++ skipn (length os) [lit "x"] ++ reqs ++ repeat [] (1 - length reqs) /\ 8 = p + q).
  exists [lit "q"], 3, [lit "w{}"], 5.
  assert (G1 : group_at c_lk c_rk (lit "[q]{w{}}e") (lit "q") 3) by (apply (extract_nested_content_iff c_lk c_rk _ _ _ delims_square); reflexivity).
  assert (G2 : group_at c_lb c_rb (lit "{w{}}e") (lit "w{}") 5) by (apply (extract_nested_content_iff c_lb c_rb _ _ _ delims_curly); reflexivity).
  split; [apply ga_cons with (n := 3) (m := 0); [exact G1|constructor]|]. split; [cbn; lia|]. split; [cbn; lia|].
  split; [apply ga_cons with (n := 5) (m := 0); [exact G2|constructor]|]. split; [cbn; lia|]. split; [cbn; lia|]. split; reflexivity.
Qed.

Definition ms_ab : list (str * str) := [(lit "a", lit "1"); (lit "b", lit "2")].
Lemma ms_ab_word : forall n b, In (n, b) ms_ab -> word n.
Proof. intros n b [E|[E|[]]]; injection E as <- <-; [apply (word_check _ [] 97%N)|apply (word_check _ [] 98%N)]; reflexivity. Qed.
Lemma rep_use : forall name body r out, word_end r -> replaces name body r out -> replaces name body ([c_bs] ++ name ++ r) (body ++ out).
Proof. intros. apply rp_use; assumption. Qed.
Lemma rep_skip1 : forall name body x s out, N.eqb x c_bs = false -> replaces name body s out -> replaces name body (x :: s) (x :: out).
Proof. intros name body x s out H R. apply rp_chr; [|exact R]. intros r [E _]. injection E as -> _. discriminate H. Qed.
Lemma ms_ab_ok : (forall n b, In (n, b) ms_ab -> word n) /\ replaces_all ms_ab (lit "x \a \b{} \ab") (lit "x 1 2{} \ab") /\ (forall n b, In (n, b) ms_ab -> ~ uses n (lit "x 1 2{} \ab")).
Proof.
  split; [exact ms_ab_word|]. split.
  - destruct (pass_plain letter letter (fun _ => false) ms_ab (lit "x \a \b{} \ab") ms_ab_word) as (out & R & E).
    assert (Q : out = lit "x 1 2{} \ab") by (rewrite <- E; vm_compute; reflexivity). rewrite <- Q. exact R.
  - intros n b H. apply (proj1 (uses_search n _ (ms_ab_word n b H))). destruct H as [E|[E|[]]]; injection E as <- <-; reflexivity.
Qed.

Lemma cget_in : forall es k e, NoDup (map fst es) -> In (k, e) es -> cget k es = Some e.
Proof.
  induction es as [|[k' e'] es IH]; intros k e N H; [destruct H|]. inversion N as [|? ? Nk N']; subst. cbn [cget]. destruct H as [E|H].
  - injection E as -> ->. rewrite str_eqb_refl. reflexivity.
  - destruct (str_eqb k k') eqn:E; [apply str_eqb_spec in E; subst k'; exfalso; apply Nk; apply in_map_iff; exists (k, e); split; [reflexivity|exact H]|]. apply IH; assumption.
Qed.
Lemma cget_some : forall es k e, cget k es = Some e -> In (k, e) es.
Proof. induction es as [|[k' e'] es IH]; intros k e H; [discriminate H|]. cbn [cget] in H. destruct (str_eqb k k') eqn:E; [apply str_eqb_spec in E; injection H as <-; subst; left; reflexivity|right; apply IH; exact H]. Qed.
Lemma latest_name : forall n h d, latest n h = Some d -> mc_name d = n /\ In d h.
Proof. induction h as [|d' h IH]; intros d H; [discriminate H|]. cbn [latest] in H. destruct (str_eqb (mc_name d') n) eqn:E; [injection H as <-; apply str_eqb_spec in E; split; [exact E|left; reflexivity]|]. destruct (IH d H). split; [assumption|right; assumption]. Qed.
Definition body_of (e : centry) : str := match ce_kind e with KNew (GPlain b) _ _ => b | _ => [] end.
Lemma table_reached : forall isalpha isalnum ifs ew h st, history isalpha isalnum ifs ew h st -> Forall (fun d => arity d = 0 /\ math_only d = false) h ->
  exists ms, st = {| c_cmds := table ms; c_lets := [] |} /\ (forall n b, In (n, b) ms -> word n) /\ NoDup (map fst ms) /\
    forall n b, In (n, b) ms <-> exists d, latest n h = Some d /\ mc_body d = b.
Proof.
  intros isalpha isalnum ifs ew h st H A. destruct (history_inv isalpha isalnum ifs ew h st H) as (L & Nd & P & G & F). destruct st as [es ls]. cbn [c_lets c_cmds] in *. subst ls.
  assert (X : forall k e, In (k, e) es -> e = plain_entry k (body_of e)).
  { intros k e Hin. pose proof (cget_in es k e Nd Hin) as C. rewrite G in C. destruct (latest k h) as [d|] eqn:El; [|discriminate C]. cbn [option_map] in C. injection C as <-. destruct (latest_name k h d El) as [<- Hd].
    rewrite Forall_forall in A, F. destruct (A d Hd) as [A0 A1]. destruct (F d Hd) as [W _]. assert (D0 : mc_defaults d = []). { destruct W as (_ & _ & _ & _ & _ & _ & _ & Hl). rewrite A0 in Hl. destruct (mc_defaults d); [reflexivity|cbn in Hl; lia]. }
    unfold ent, plain_entry, body_of, default_values. cbn [ce_kind]. rewrite A0, A1, D0. reflexivity. }
  exists (map (fun ke => (fst ke, body_of (snd ke))) es). split; [|split; [|split]].
  - f_equal. unfold table. rewrite map_map. rewrite <- (map_id es) at 1. apply map_ext_in. intros [k e] Hin. cbn [fst snd]. f_equal. apply X. exact Hin.
  - intros n b Hin. apply in_map_iff in Hin as ([k e] & E & Hin). cbn [fst snd] in E. injection E as <- _. apply (P k e Hin).
  - rewrite map_map. cbn [fst]. exact Nd.
  - intros n b. split.
    + intros Hin. apply in_map_iff in Hin as ([k e] & E & Hin). cbn [fst snd] in E. injection E as <- <-. pose proof (cget_in es k e Nd Hin) as C. rewrite G in C. destruct (latest k h) as [d|]; [|discriminate C]. cbn [option_map] in C. injection C as <-. exists d. split; reflexivity.
    + intros (d & El & <-). specialize (G n). rewrite El in G. cbn [option_map] in G. apply cget_some in G. apply in_map_iff. exists (n, ent d). split; [reflexivity|exact G].
Qed.

Lemma no_match_pass : forall isalpha isalnum ew es text, (forall k e, In (k, e) es -> re_search (ce_pat e) text = None) -> substitute_patterns isalpha isalnum ew es false text = text.
Proof.
  intros isalpha isalnum ew es text H. unfold substitute_patterns. induction es as [|[k e] es IH]; [reflexivity|]. cbn [fold_left snd].
  assert (S1 : forall p f, re_search p text = None -> subst_loop (S (length text)) p f text 0 = text) by (intros p f Q; cbn [subst_loop skipn]; rewrite Q; reflexivity).
  rewrite S1 by (apply (H k e); left; reflexivity). apply IH. intros k' e' Hin. apply (H k' e'). right. exact Hin.
Qed.
Lemma no_match_expand : forall isalpha isalnum ew st text, (forall k e, In (k, e) (c_cmds st ++ c_lets st) -> re_search (ce_pat e) text = None) -> expand_commands isalpha isalnum ew st text false = Some text.
Proof.
  intros isalpha isalnum ew st text H. unfold expand_commands. assert (D : exists k, max_depth = S k) by (exists 999; reflexivity). destruct D as (k & D). rewrite D.
  assert (L : forall es, (forall k e, In (k, e) es -> re_search (ce_pat e) text = None) -> expand_loop isalpha isalnum ew (S k) es false text = Some text).
  { intros es He. cbn [expand_loop]. rewrite no_match_pass by exact He. rewrite str_eqb_refl. reflexivity. }
  rewrite L; [apply L|]; intros n e Hin; apply (H n e); apply in_app_iff; [right; exact Hin|left; apply filter_In in Hin; apply Hin].
Qed.
Lemma c58_partial : forall isalpha isalnum ifs ew st name body pat n g,
  name <> [] -> ~ In name whitelist -> (forall d, strip body <> lit "\@ifstar" ++ d) -> (forall k e, In (k, e) (c_cmds st ++ c_lets st) -> re_search (ce_pat e) body = None) -> re_search pat body = None ->
  forall st1, register_command isalpha isalnum ifs ew st (TDef name body n pat g true) = Some st1 ->
  register_command isalpha isalnum ifs ew st1 (TDef name body n pat g true) = Some st1 /\ cget name (c_cmds st1) = Some {| ce_pat := pat; ce_math := false; ce_kind := KDef (GPlain body) g |}.
Proof.
  intros isalpha isalnum ifs ew st name body pat n g Hn Hw Hi Hu Hp st1 R.
  assert (K : forall st, (forall k e, In (k, e) (c_cmds st ++ c_lets st) -> re_search (ce_pat e) body = None) ->
    register_command isalpha isalnum ifs ew st (TDef name body n pat g true) = Some {| c_cmds := cset name {| ce_pat := pat; ce_math := false; ce_kind := KDef (GPlain body) g |} (c_cmds st); c_lets := c_lets st |}).
  { intros st0 H0. unfold register_command. replace (nilb name) with false by (destruct name; [congruence|reflexivity]).
    replace (whitelisted name) with false by (symmetry; apply not_true_iff_false; intros E; apply existsb_in in E; contradiction). cbn [orb].
    rewrite no_match_expand by exact H0. assert (Cn : conditionals ifs body pat = (GPlain body, pat)).
    { unfold conditionals. replace (startswith (strip body) (lit "\@ifstar")) with false; [reflexivity|]. symmetry. apply not_true_iff_false. intros E. apply startswith_spec in E as (r & E). apply (Hi r E). }
    destruct n as [|n]; [rewrite Cn|]; reflexivity. }
  rewrite (K st Hu) in R. injection R as <-. split.
  - rewrite K. { cbn [c_cmds c_lets]. rewrite cset_cset. reflexivity. } cbn [c_cmds c_lets]. intros k e Hin. apply in_app_iff in Hin as [Hin|Hin].
    + apply cset_in in Hin as [[-> ->]|Hin]; [exact Hp|]. apply (Hu k e). apply in_app_iff. left. exact Hin.
    + apply (Hu k e). apply in_app_iff. right. exact Hin.
  - cbn [c_cmds]. rewrite cget_cset, str_eqb_refl. reflexivity.
Qed.

Lemma any_rest : forall (t : str) i c, i <= length t -> first_match (rstar rany) t i c (length t) c.
Proof.
  intros t i c Hi. replace (length t) with (i + length (skipn i t)) by (rewrite skipn_length; lia). apply (fm_star _ t i c (skipn i t) []); [rewrite app_nil_r; reflexivity| |reflexivity]. apply forallb_forall. reflexivity.
Qed.
Lemma let_eq : forall (v : str), exists pat, handle_definition (lit "\let\foo =" ++ v) = (Some (TLet (lit "foo") (tl (strip (lit "=" ++ v))) pat), 10 + length v).
Proof.
  intros v. set (t := lit "\let\foo =" ++ v). eexists. unfold handle_definition. replace (re_match_at P_newcommand t 0) with (@None mobj) by reflexivity.
  assert (M : re_match_at P_let t 0 = Some {| m_start := 0; m_end := length t; m_caps := [(2, (9, length t)); (1, (5, 8))] |}).
  { apply fm_match. unfold P_let, rseq. assert (E0 : skipn 0 t = [c_bs] ++ lit "let" ++ [c_bs] ++ lit "foo" ++ lit " " ++ lit "=" ++ v) by reflexivity.
    eapply fm_seq; [apply (fm_is_ch c_bs t 0 [] _ E0)|]. apply skipn_more1 in E0.
    eapply fm_seq. { unfold ropt. apply fm_alt_right; [|apply fm_eps]. rewrite rm_rstr, E0. reflexivity. }
    eapply fm_seq; [apply (fm_rstr (lit "let") t 1 [] _ E0)|]. apply (skipn_more t 1 (lit "let")) in E0. change (1 + length (lit "let")) with 4 in *.
    eapply fm_seq; [apply (fm_star isspace t 4 [] [] _ E0); reflexivity|]. change (4 + length (@nil ch)) with 4.
    eapply fm_seq; [apply (fm_is_ch c_bs t 4 [] _ E0)|]. apply skipn_more1 in E0.
    eapply fm_seq. { apply fm_grp. apply (fm_plus _ t 5 [] (lit "foo") _ E0); [discriminate|reflexivity|reflexivity]. }
    apply (skipn_more t 5 (lit "foo")) in E0. change (5 + length (lit "foo")) with 8 in *.
    eapply fm_seq; [apply (fm_star isspace t 8 _ (lit " ") _ E0); reflexivity|]. apply (skipn_more t 8 (lit " ")) in E0. change (8 + length (lit " ")) with 9 in *.
    apply fm_grp. apply fm_alt_left. eapply fm_seq; [apply (fm_is_ch 61%N t 9 _ _ E0)|]. apply any_rest. unfold t. rewrite app_length. change (length (lit "\let\foo =")) with 10. lia. }
  rewrite M. unfold handle_let.
  assert (G1 : grp t 1 {| m_start := 0; m_end := length t; m_caps := [(2, (9, length t)); (1, (5, 8))] |} = lit "foo") by reflexivity.
  assert (G2 : grp t 2 {| m_start := 0; m_end := length t; m_caps := [(2, (9, length t)); (1, (5, 8))] |} = lit "=" ++ v).
  { unfold grp, m_group. cbn [m_caps cap_get Nat.eqb option_map]. replace (length t) with (length (lit "\let\foo ") + length (lit "=" ++ v)) by (unfold t; rewrite !app_length; reflexivity). change 9 with (length (lit "\let\foo ")). apply (slice_of t (lit "\let\foo ") (lit "=" ++ v) []). rewrite app_nil_r. reflexivity. }
  rewrite G1, G2.
  assert (X : exists q, strip (lit "=" ++ v) = 61%N :: q). { unfold strip. change (lit "=" ++ v) with (61%N :: v). rewrite lstrip_id by reflexivity. unfold rstrip. cbn [rev]. 
    assert (Y : forall s : str, exists s', lstrip (s ++ [61%N]) = s' ++ [61%N]). { induction s as [|x s IH]; [exists []; reflexivity|]. cbn [List.app lstrip]. destruct (isspace x); [exact IH|]. exists (x :: s). reflexivity. }
    destruct (Y (rev v)) as (s' & E'). match goal with |- exists q, rev (lstrip ?A) = _ => assert (HA : lstrip A = s' ++ [61%N]) by exact E'; rewrite HA; clear HA end. rewrite rev_app_distr. cbn [rev List.app]. eexists. reflexivity. }
  destruct X as (q & X). rewrite X. cbn [tl]. rewrite N.eqb_refl.
  replace (startswith (m_group0 t _) (lit "\futurelet")) with false; [|unfold m_group0, slice, t; reflexivity].
  f_equal.
Qed.
Lemma tl_strip : forall x (v : str), isspace x = false -> forall y w, v = y :: w -> isspace y = false -> tl (strip (x :: v)) = strip v.
Proof.
  intros x v Hx y w -> Hy. unfold strip. rewrite !lstrip_id by assumption. unfold rstrip. cbn [rev].
  assert (Y : forall s : str, exists s', lstrip (s ++ [y]) = s' ++ [y] /\ lstrip ((s ++ [y]) ++ [x]) = (s' ++ [y]) ++ [x]). { induction s as [|z s IH]; [exists []; cbn; rewrite Hy; split; reflexivity|]. cbn [List.app lstrip]. destruct (isspace z); [exact IH|]. exists (z :: s). split; reflexivity. }
  destruct (Y (rev w)) as (s' & -> & ->). rewrite !rev_app_distr. reflexivity.
Qed.
Lemma c59_refuted : forall rest, exists pat1 pat2,
  handle_definition (lit "\let\foo =\bar baz" ++ rest) = (Some (TLet (lit "foo") (strip (lit "\bar baz" ++ rest)) pat1), 18 + length rest) /\
  handle_definition (lit "\let\foo ={ baz" ++ rest) = (Some (TLet (lit "foo") (strip (lit "{ baz" ++ rest)) pat2), 15 + length rest).
Proof.
  intros rest. destruct (let_eq (lit "\bar baz" ++ rest)) as (p1 & E1). destruct (let_eq (lit "{ baz" ++ rest)) as (p2 & E2). exists p1, p2. split.
  - change (lit "\let\foo =\bar baz" ++ rest) with (lit "\let\foo =" ++ lit "\bar baz" ++ rest). rewrite E1. f_equal. do 2 f_equal. apply (tl_strip 61%N (lit "\bar baz" ++ rest) eq_refl c_bs (lit "bar baz" ++ rest)); reflexivity.
  - change (lit "\let\foo ={ baz" ++ rest) with (lit "\let\foo =" ++ lit "{ baz" ++ rest). rewrite E2. f_equal. do 2 f_equal. apply (tl_strip 61%N (lit "{ baz" ++ rest) eq_refl c_lb (lit " baz" ++ rest)); reflexivity.
Qed.

Definition two_args : list (str * str) := [([], lit "a{b}"); (lit " ", lit "c")].
Lemma shallow_ab : shallow (lit "a{b}").
Proof. apply sh_chr; [discriminate|discriminate|]. apply (sh_grp (lit "b") []); [intros [C|[]]; discriminate C|intros [C|[]]; discriminate C|constructor]. Qed.
Lemma c60_case : acceptable_def (lit "foo") (lit "[#1|#2]") 2 /\ (forall w a, In (w, a) two_args -> blank w /\ shallow a) /\ call_text two_args = lit "{a{b}} {c}" /\
  forall isalnum ifs ew, exists st, parser_define letter isalnum ifs ew empty (lit "\def\foo#1#2{[#1|#2]}") = Some (st, 21) /\ handle_command letter st (lit "\foo{a{b}} {c}d") = Some (lit "[a{b}|c]", 14).
Proof.
  split; [|split; [|split; [reflexivity|]]].
  - split; [exact word_foo|]. split; [apply closed_grp; reflexivity|]. split; [intros H; apply existsb_in in H; vm_compute in H; discriminate H|discriminate].
  - intros w a [E|[E|[]]]; injection E as <- <-; (split; [reflexivity|]); [exact shallow_ab|]. apply sh_chr; [discriminate|discriminate|constructor].
  - intros. eexists. split; [vm_compute; reflexivity|]. vm_compute. reflexivity.
Qed.
