(** Environment handler: progress, groups, sample cases, counterexamples. *)
From Coq Require Import List NArith PeanoNat Lia Bool String.
From Verif Require Import PyStr Regex RegexLemmas RegexHead TexUtilsModel DelimSpec DelimProofs DelimFinal KeyvalProofs2
  EnvModel EnvSpec EnvProofs SubstModel EnvHandlerModel EnvHandlerSpec EnvHandlerProofs EnvHandlerProofs2.
Import ListNotations.
Notation length := List.length.
Open Scope list_scope.

(** ASCII versions of \w and lower, for the samples *)
Definition aw (c : ch) : bool := in_range 48 57 c || in_range 65 90 c || in_range 97 122 c || N.eqb c 95.
Definition alower (s : str) : str := map (fun c => if in_range 65 90 c then (c + 32)%N else c) s.
Definition aal (c : ch) : bool := in_range 65 90 c || in_range 97 122 c.

(** * groups *)
Definition group_patterns (w : ch -> bool) (short : bool) : re * re :=
  if short then (RSeq (rstr (lit "\bgroup")) (RBound w), RSeq (rstr (lit "\egroup")) (RBound w))
  else (RSeq (rstr (lit "\begingroup")) (RBound w), RSeq (rstr (lit "\endgroup")) (RBound w)).
Definition group_word (short : bool) : str := if short then lit "\bgroup" else lit "\begingroup".
Definition is_group_token (t : env_token) (inner : str) : Prop :=
  et_type t = lit "group" /\ et_name t = lit "group" /\ et_numbered t = false /\ et_title t = None /\ et_args t = [] /\ et_content t = inner.

Lemma bound_head : forall w text n, xorb (prev_is w text n) (next_is w text n) = true -> rm (RBound w) text n [] = [(n, [])].
Proof. intros w text n H. cbn [rm]. rewrite H. reflexivity. Qed.

Lemma group_head : forall w short rest, w 112%N = true -> (match rest with x :: _ => w x | [] => false end) = false ->
  let text := group_word short ++ rest in
  re_match_at (BEGIN_GROUP_PATTERN w) text 0 = Some {| m_start := 0; m_end := length (group_word short); m_caps := [] |} /\
  re_match_at (fst (group_patterns w short)) text 0 = Some {| m_start := 0; m_end := length (group_word short); m_caps := [] |}.
Proof.
  intros w short rest Hp Hr text.
  assert (B : xorb (prev_is w text (length (group_word short))) (next_is w text (length (group_word short))) = true).
  { assert (P : prev_is w text (length (group_word short)) = true) by (unfold text; destruct short; cbn; exact Hp).
    assert (Q : next_is w text (length (group_word short)) = false).
    { unfold next_is. rewrite nth_error_skipn. unfold text. rewrite skipn_app_exact by reflexivity. destruct rest; [reflexivity|exact Hr]. }
    rewrite P, Q. reflexivity. }
  assert (E : text = group_word short ++ rest) by reflexivity.
  split; apply fm_match.
  - unfold BEGIN_GROUP_PATTERN, rseq. destruct short.
    + eapply fm_seq; [eapply (fm_is_ch c_bs text 0); exact E|]. eapply fm_seq; [apply fm_alt_right; [rewrite rm_rstr; reflexivity|eapply fm_rstr; reflexivity]|].
      eapply fm_seq; [eapply fm_rstr; reflexivity|]. exists []. apply bound_head. exact B.
    + eapply fm_seq; [eapply (fm_is_ch c_bs text 0); exact E|]. eapply fm_seq; [apply fm_alt_left; eapply fm_rstr; reflexivity|].
      eapply fm_seq; [eapply fm_rstr; reflexivity|]. exists []. apply bound_head. exact B.
  - unfold group_patterns. destruct short; cbn [fst]; (eapply fm_seq; [eapply fm_rstr; exact E|]); exists []; apply bound_head; exact B.
Qed.
Lemma search_at_zero : forall r t m, re_match_at r t 0 = Some m -> re_search_from r t 0 = Some m.
Proof. intros r t m H. unfold re_search_from. cbn [Nat.leb]. destruct (length t - 0); cbn [re_search_go]; rewrite H; reflexivity. Qed.

Lemma rstr_minlen : forall s, minlen (rstr s) = length s.
Proof. induction s as [|x s IH]; [reflexivity|]. cbn [rstr minlen List.length]. unfold is_ch. cbn [minlen]. rewrite IH. reflexivity. Qed.

Lemma group_handled : forall w lower isalpha st short rest, w 112%N = true -> (match rest with x :: _ => w x | [] => false end) = false ->
  let text := group_word short ++ rest in pair_match w text = None ->
  (exists t s e, pclosed_at (fst (group_patterns w short)) (snd (group_patterns w short)) text (length (group_word short)) s e /\
     handle w lower isalpha st text = (st, Out (Some t) e) /\ is_group_token t (slice (length (group_word short)) s text)) \/
  ((forall s e, ~ pclosed_at (fst (group_patterns w short)) (snd (group_patterns w short)) text (length (group_word short)) s e) /\
     handle w lower isalpha st text = (st, Out None 0)).
Proof.
  intros w lower isalpha st short rest Hp Hr text Np. destruct (group_head w short rest Hp Hr) as [Hg Hb]. fold text in Hg, Hb.
  assert (H1 : re_match_at NEW_ENVIRONMENT_PATTERN text 0 = None) by (unfold text; destruct short; reflexivity).
  assert (H2 : re_match_at BEGIN_PATTERN text 0 = None).
  { unfold text; destruct short; [reflexivity|]. unfold re_match_at, BEGIN_PATTERN. cbn [rm]. rewrite rm_rstr. reflexivity. }
  assert (Hh : handle w lower isalpha st text = (st, try_match_group w text)).
  { unfold handle, handle_env, try_match_env. rewrite H1, H2, Np. reflexivity. }
  rewrite Hh. unfold try_match_group. rewrite Hg.
  assert (Hs : (if contains (lit "bgroup") (m_group0 text {| m_start := 0; m_end := length (group_word short); m_caps := [] |}) then (lit "\bgroup", lit "\egroup") else (lit "\begingroup", lit "\endgroup"))
     = if short then (lit "\bgroup", lit "\egroup") else (lit "\begingroup", lit "\endgroup")).
  { unfold m_group0, slice. cbn [m_start m_end skipn]. unfold text. rewrite Nat.sub_0_r, firstn_app_exact by reflexivity. destruct short; reflexivity. }
  rewrite Hs.
  destruct (encp_spec (fst (group_patterns w short)) (snd (group_patterns w short)) text) as [(bm & s & t & S & C & X)|[N X]];
    try (destruct short; cbn; lia).
  - rewrite (search_at_zero _ _ _ Hb) in S. injection S as <-. cbn [m_start m_end] in X, C. left. destruct short; cbn [group_patterns fst snd] in X |- *; rewrite X; (eexists _, s, t; split; [exact C|]; split; [reflexivity|]; repeat split).
  - right. split; [intros s e C; exact (N _ s e (search_at_zero _ _ _ Hb) C)|]. destruct short; cbn [group_patterns fst snd] in X |- *; rewrite X; reflexivity.
Qed.

(** * the position *)
Lemma rfind_bound : forall p s k, rfind p s = Some k -> k + length p <= length s /\ skipn k s = p ++ skipn (k + length p) s.
Proof.
  intros p s. induction s as [|x s IH]; intros k H; cbn [rfind] in H.
  - destruct (startswith [] p) eqn:E; [|discriminate]. injection H as <-. apply startswith_iff in E as (r & E). destruct p; [|discriminate]. cbn. auto.
  - destruct (rfind p s) as [j|] eqn:F.
    + injection H as <-. destruct (IH j eq_refl) as [B S]. cbn [List.length skipn plus]. split; [lia|exact S].
    + destruct (startswith (x :: s) p) eqn:E; [|discriminate]. injection H as <-. apply startswith_iff in E as (r & E). rewrite E, app_length. cbn [skipn plus]. rewrite skipn_app_exact by reflexivity. split; [lia|reflexivity].
Qed.
Lemma pair_try_bound : forall w text n e, pair_try w text n = Some e -> 0 < e <= length text.
Proof.
  intros w text n. induction n as [|m IH]; intros e H; [discriminate|]. unfold pair_try in H; fold pair_try in H. cbv zeta in H.
  match type of H with match ?X with _ => _ end = _ => destruct X as [k|] eqn:E; [|exact (IH e H)] end.
  injection H as <-. destruct (xorb _ _); [|discriminate]. apply rfind_bound in E as [B _]. rewrite skipn_length in B.
  rewrite app_length in B. change (length (lit "\end")) with 4 in B. lia.
Qed.
Lemma pair_match_bound : forall w text e, pair_match w text = Some e -> 0 < e <= length text.
Proof. intros w text e H. unfold pair_match in H. destruct text as [|x r]; [discriminate|]. destruct (N.eqb x c_bs); [|discriminate]. exact (pair_try_bound _ _ _ _ H). Qed.
Lemma match_bound : forall r t m, 0 < minlen r -> re_match_at r t 0 = Some m -> 0 < m_end m <= length t.
Proof.
  intros r t m L H. destruct (re_match_at_some _ _ _ _ (Nat.le_0_l _) H) as (_ & R & K). pose proof (minlen_ok _ _ _ _ R) as B. lia.
Qed.

Lemma fmeb_bound : forall text name s e c, find_matching_env_block text name 0 = Some (s, e, c) -> 0 < e <= length text.
Proof.
  intros text name s e c H. destruct (fmeb_spec text name 0) as [(i & j & s' & e' & F & C & X)|[_ X]]; rewrite X in H; [|discriminate].
  injection H as <- <- <-. cbn [skipn plus] in *. apply closed_iff in C.
  apply closed_bounds in C; [|apply env_minlen; cbn; lia|apply env_minlen; cbn; lia]. lia.
Qed.
Lemma encp_bound : forall b e text s t c, 0 < minlen b -> 0 < minlen e -> extract_nested_content_pattern text b e = Some (Some (s, t, c)) -> 0 < t <= length text.
Proof.
  intros b e text s t c Hb He H. destruct (encp_spec b e text Hb He) as [(bm & s' & t' & S & C & X)|[_ X]]; rewrite X in H; [|discriminate].
  injection H as <- <- <-. pose proof (closed_bounds _ _ _ Hb He _ _ _ C). lia.
Qed.
Lemma group_out : forall w text t p, try_match_group w text = Out t p -> p <= length text /\ (p = 0 -> t = None).
Proof.
  intros w text t p H. unfold try_match_group in H. destruct (re_match_at (BEGIN_GROUP_PATTERN w) text 0) as [m|]; [|injection H as <- <-; split; [lia|reflexivity]].
  destruct (if contains _ _ then _ else _) as [b e] eqn:Eb.
  assert (Lb : 0 < length b /\ 0 < length e) by (destruct (contains _ _); injection Eb as <- <-; cbn; lia).
  destruct (extract_nested_content_pattern text (RSeq (rstr b) (RBound w)) (RSeq (rstr e) (RBound w))) as [[[[s t'] c]|]|] eqn:X; injection H as <- <-; try (split; [lia|reflexivity]).
  apply encp_bound in X; [split; [lia|intros ->; lia]| |]; cbn [minlen]; rewrite rstr_minlen; lia.
Qed.
Lemma env_out : forall w text name p c, try_match_env w text = Found name p c -> 0 < p <= length text.
Proof.
  intros w text name p c H. unfold try_match_env in H. destruct (re_match_at BEGIN_PATTERN text 0) as [m|] eqn:M.
  - destruct (find_matching_env_block text _ 0) as [[[s e] i]|] eqn:F; injection H as <- <- <-.
    + exact (fmeb_bound _ _ _ _ _ F).
    + apply match_bound in M; [exact M|]. cbn. lia.
  - destruct (pair_match w text) as [e0|] eqn:P; [|discriminate]. apply pair_match_bound in P. destruct (startswith _ _); [discriminate|].
    match type of H with (let '(_, _) := ?X in _) = _ => assert (B : 0 < fst X <= length text) by
      (match goal with |- context [extract_nested_content_pattern text ?b ?e] => destruct (extract_nested_content_pattern text b e) as [[[[s t'] c']|]|] eqn:Q end; cbn [fst]; try exact P;
       apply encp_bound in Q; [exact Q|cbn; lia|cbn; lia]); destruct X as [e inner]; cbn [fst] in B end.
    destruct (str_eqb _ _); [destruct (re_match_at _ inner 0)|]; injection H as <- <- <-; exact B.
Qed.
Lemma position : forall w lower isalpha st text st' t p, handle w lower isalpha st text = (st', Out t p) ->
  p <= length text /\ (p = 0 -> t = None /\ st' = st).
Proof.
  intros w lower isalpha st text st' t p H. unfold handle in H. destruct (re_match_at NEW_ENVIRONMENT_PATTERN text 0) as [m|] eqn:M.
  - destruct (handle_newenvironment st text m) as [s0 e] eqn:Hn. injection H as <- <- <-. apply match_bound in M; [|cbn; lia]. unfold handle_newenvironment in Hn.
    destruct (c03_blocks c_lk c_rk (skipn (m_end m) text) None delims_square) as (b1 & p1 & E1 & G1 & _). rewrite E1 in Hn.
    destruct (c03_blocks c_lb c_rb (skipn (m_end m + p1) text) (Some 2) delims_curly) as (b2 & p2 & E2 & G2 & _). rewrite E2 in Hn.
    destruct (c03_render _ _ _ _ _ G1) as (_ & _ & _ & _ & B1 & _). destruct (c03_render _ _ _ _ _ G2) as (_ & _ & _ & _ & B2 & _). rewrite skipn_length in B1, B2.
    assert (R : e <= length text /\ 0 < e) by (destruct b2 as [|x [|y [|z b2]]]; injection Hn as _ <-; lia). split; [apply R|intros ->; lia].
  - injection H as <- H. unfold handle_env in H. destruct (try_match_env w text) as [|name e inner|] eqn:E; [|apply env_out in E; destruct (str_eqb name _); injection H as <- <-; (split; [lia|intros ->; lia])|discriminate].
    apply group_out in H. split; [apply H|]. intros Z. split; [apply H; exact Z|reflexivity].
Qed.

(** * samples and counterexamples *)
Definition hd0 (st : env_state) (s : string) := handle aw alower aal st (lit s).
Definition mk (ty nm : string) (num : bool) (ti : option string) (args : list string) (ct : string) : env_token :=
  {| et_type := lit ty; et_name := lit nm; et_numbered := num; et_title := option_map lit ti; et_args := map lit args; et_content := lit ct |}.
Lemma sample_theorem : hd0 env_clear "\begin{theorem}[T] x \begin {theorem}y\end{theorem} \end{theorem} z" =
  (env_clear, Out (Some (mk "math_env" "theorem" true (Some "T"%string) [] " x \begin {theorem}y\end{theorem}")) 65).
Proof. vm_compute. reflexivity. Qed.
Lemma sample_minipage : hd0 env_clear "\begin{minipage}[t]{3cm} x\end{minipage}" = (env_clear, Out (Some (mk "group" "minipage" false None ["3cm"%string] " x")) 40).
Proof. vm_compute. reflexivity. Qed.
Lemma sample_pair : hd0 env_clear "\list{a}{b}\item x\endlist y" = (env_clear, Out (Some (mk "list" "list" false None ["a"%string; "b"%string] "\item x")) 26).
Proof. vm_compute. reflexivity. Qed.
(** text in brackets at the beginning of any environment is dropped *)
Lemma bracket_lost : hd0 env_clear "\begin{quote}[1] says so\end{quote}" = (env_clear, Out (Some (mk "quote" "quote" false None [] " says so")) 35).
Proof. vm_compute. reflexivity. Qed.
(** a theorem with an own title is no theorem *)
Lemma title_unnumbered : handle aw alower aal (process_newtheorem env_clear (lit "thm") (lit "Main Result")) (lit "\begin{thm}x\end{thm}") =
  (process_newtheorem env_clear (lit "thm") (lit "Main Result"), Out (Some (mk "environment" "Main Result" false None [] "x")) 21).
Proof. vm_compute. reflexivity. Qed.
(** \center ... \endcenter with a longer command name inside loses its text *)
Lemma pair_lost : hd0 env_clear "\center\centering x\endcenter y" = (env_clear, Out (Some (mk "group" "center" false None [] "")) 29).
Proof. vm_compute. reflexivity. Qed.
(** blanks inside the braces: the next environment of that name is taken and the text between is lost *)
Lemma blank_name_lost : hd0 env_clear "\begin{ a }x\end{ a } text \begin{a}z\end{a}" = (env_clear, Out (Some (mk "environment" "a" false None [] "z")) 44).
Proof. vm_compute. reflexivity. Qed.
(** an environment pair whose name starts with begin raises *)
Lemma begin_raises : hd0 env_clear "\beginx y\endbeginx" = (env_clear, Raises).
Proof. vm_compute. reflexivity. Qed.

Definition src_foo : env_source := {| sc_cmd := lit "new"; sc_star := false; sc_ws := []; sc_name := lit "foo"; sc_opts := lit "[2][d]"; sc_bodies := lit "{<#1|#2>} {</>}" |}.
Definition def_foo : env_def := {| ed_begin := lit "<#1|#2>"; ed_end := lit "</>"; ed_num := 2; ed_opts := [lit "d"] |}.
Lemma closed_group_s : forall o c b t n, delims_ok o c -> extract_nested_content t o c = (Some b, n) -> group_at o c t b n.
Proof. intros o c b t n H E. apply extract_nested_content_iff; assumption. Qed.
Lemma src_foo_means : source_means src_foo (lit " tail") def_foo.
Proof.
  split; [left; reflexivity|]. split; [reflexivity|]. split; [vm_compute; intuition discriminate|]. exists [lit "2"; lit "d"]. split; [|split; [|split; reflexivity]].
  - apply (ga_cons _ _ _ _ 3 _ 3); [apply closed_group_s; [exact delims_square|reflexivity]|]. apply (ga_cons _ _ _ _ 3 _ 0); [apply closed_group_s; [exact delims_square|reflexivity]|]. apply ga_nil.
  - apply (ga_cons _ _ _ _ 9 _ 6); [apply closed_group_s; [exact delims_curly|reflexivity]|]. apply (ga_cons _ _ _ _ 6 _ 0); [apply closed_group_s; [exact delims_curly|reflexivity]|]. apply ga_nil.
Qed.
Definition st_foo : env_state := fst (handle aw alower aal env_clear (env_source_text src_foo ++ lit " tail")).
Lemma sample_foo : hd0 st_foo "\begin{foo}[x]{y}z\end{foo}" = (st_foo, Out (Some (mk "environment" "foo" false None [] ("<x|y>" ++ String (Ascii.ascii_of_nat 10) ("z" ++ String (Ascii.ascii_of_nat 10) "</>")))) 27).
Proof. vm_compute. reflexivity. Qed.
Lemma sample_foo_default : hd0 st_foo "\begin{foo}{y}z\end{foo}" = (st_foo, Out (Some (mk "environment" "foo" false None [] ("<d|y>" ++ String (Ascii.ascii_of_nat 10) ("z" ++ String (Ascii.ascii_of_nat 10) "</>")))) 24).
Proof. vm_compute. reflexivity. Qed.
(** a blank before an argument: the argument is empty and stays in the text *)
Lemma foo_blank : hd0 st_foo "\begin{foo}[x] {y}z\end{foo}" = (st_foo, Out (Some (mk "environment" "foo" false None [] ("<x|>" ++ String (Ascii.ascii_of_nat 10) (" {y}z" ++ String (Ascii.ascii_of_nat 10) "</>")))) 28).
Proof. vm_compute. reflexivity. Qed.
(** \provideenvironment replaces a definition *)
Lemma provide_overrides : exists d, dget (lit "foo") (es_envs (fst (hd0 st_foo "\provideenvironment{foo}{a}{b}"))) = Some d /\ dget (lit "foo") (es_envs st_foo) = Some def_foo /\ d <> def_foo.
Proof. eexists. vm_compute. split; [reflexivity|]. split; [reflexivity|]. discriminate. Qed.
