(** Proofs about the environment handler: user-defined environments, groups,
    counterexamples. *)
From Coq Require Import List NArith PeanoNat Lia Bool String.
From Verif Require Import PyStr Regex RegexLemmas RegexHead TexUtilsModel DelimSpec DelimProofs DelimFinal KeyvalProofs2
  EnvModel EnvSpec EnvProofs SubstModel CommandProofs3 CommandProofs7 StyProofs EnvHandlerModel EnvHandlerSpec EnvHandlerProofs.
Import ListNotations.
Notation length := List.length.
Open Scope list_scope.

Lemma extract_now : forall o c r, delims_ok o c ->
  (exists v t, r = v ++ c :: t /\ balanced o c (marks v) /\ closes_after v /\
     exists e, extract_nested_content (o :: r) o c = (Some v, e) /\ skipn e (o :: r) = t) \/
  ((forall v k, ~ group_at o c (o :: r) v k) /\ extract_nested_content (o :: r) o c = (None, 0)).
Proof.
  intros o c r Hd. destruct (c02_outcomes o c (o :: r) Hd) as [F|(ct & n & F & _)].
  - right. split; [apply c02_fail; [exact Hd|exact F]|exact F].
  - left. destruct (c01_group o c (o :: r) ct n Hd F) as (ws & rest & E & W & B & C & _ & S).
    destruct ws as [|x ws]; [|exfalso; injection E as E0 _; subst x; unfold blank in W; cbn [forallb] in W; destruct Hd as (_ & Hs & _); rewrite Hs in W; discriminate].
    injection E as ->. exists ct, rest. split; [reflexivity|]. split; [exact B|]. split; [exact C|]. exists n. split; [exact F|exact S].
Qed.
Lemma starts_one : forall x t, startswith t [x] = true <-> exists r, t = x :: r.
Proof. intros x t. rewrite startswith_iff. split; intros (r & ->); exists r; reflexivity. Qed.
Lemma starts_one_not : forall x t, startswith t [x] = false -> forall r, t <> x :: r.
Proof. intros x t H r ->. assert (startswith (x :: r) [x] = true) by (apply starts_one; exists r; reflexivity). congruence. Qed.

Lemma take_opts_read : forall ds t, exists args rest, take_opts ds t = (args, rest) /\ opt_args_read ds t args rest.
Proof.
  induction ds as [|d ds IH]; intros t; cbn [take_opts]; [exists [], t; split; [reflexivity|constructor]|].
  destruct (startswith t [c_lk]) eqn:E.
  - apply starts_one in E as (r & ->). destruct (extract_now c_lk c_rk r delims_square) as [(v & u & -> & B & C & e & X & Sk)|[N X]]; rewrite X.
    + rewrite Sk. destruct (IH u) as (args & rest & -> & H). exists (Some v :: args), rest. split; [reflexivity|]. constructor; assumption.
    + cbn [skipn]. destruct (IH (c_lk :: r)) as (args & rest & -> & H). exists (None :: args), rest. split; [reflexivity|]. constructor; assumption.
  - destruct (IH t) as (args & rest & -> & H). exists (Some d :: args), rest. split; [reflexivity|]. constructor; [apply starts_one_not; exact E|exact H].
Qed.
Lemma take_reqs_read : forall n t, exists args rest, take_reqs n t = (args, rest) /\ req_args_read n t args rest.
Proof.
  induction n as [|n IH]; intros t; cbn [take_reqs]; [exists [], t; split; [reflexivity|constructor]|].
  destruct (startswith t [c_lb]) eqn:E.
  - apply starts_one in E as (r & ->). destruct (extract_now c_lb c_rb r delims_curly) as [(v & u & -> & B & C & e & X & Sk)|[N X]]; rewrite X.
    + rewrite Sk. destruct (IH u) as (args & rest & -> & H). exists (Some v :: args), rest. split; [reflexivity|]. constructor; assumption.
    + cbn [skipn]. destruct (IH (c_lb :: r)) as (args & rest & -> & H). exists (None :: args), rest. split; [reflexivity|]. constructor; assumption.
  - destruct (IH t) as (args & rest & -> & H). exists (Some [] :: args), rest. split; [reflexivity|]. constructor; [apply starts_one_not; exact E|exact H].
Qed.
(** the reading is unique *)
Lemma opt_read_fun : forall ds t a1 r1, opt_args_read ds t a1 r1 -> forall a2 r2, opt_args_read ds t a2 r2 -> a1 = a2 /\ r1 = r2.
Proof.
  assert (G : forall v t, balanced c_lk c_rk (marks v) -> closes_after v -> group_at c_lk c_rk (c_lk :: v ++ c_rk :: t) v (length v + 2)).
  { intros v t B C. exists [], t. split; [reflexivity|]. split; [reflexivity|]. split; [exact B|]. split; [exact C|]. cbn. lia. }
  intros ds t a1 r1 H. induction H as [t|d ds v t args rest B C H IH|d ds t args rest N H IH|d ds r args rest N H IH]; intros a2 r2 H2; inversion H2; subst; clear H2;
    try (exfalso; match goal with K : forall r, _ <> _ :: r |- _ => now eapply K end);
    try (exfalso; match goal with K : forall v k, ~ group_at _ _ _ _ _ |- _ => now eapply K, G end);
    try match goal with K : opt_args_read _ _ _ _ |- _ => destruct (IH _ _ K) as [-> ->] end; auto.
  match goal with B2 : balanced _ _ (marks ?v2), E : ?v2 ++ c_rk :: ?t2 = v ++ c_rk :: t |- _ =>
    destruct (group_at_fun c_lk c_rk _ _ _ _ _ delims_square (G v t B C) (eq_ind _ (fun q => group_at c_lk c_rk (c_lk :: q) v2 (length v2 + 2)) (G v2 t2 B2 ltac:(assumption)) _ E)) as [<- _];
    apply app_inv_head in E; injection E as ->
  end.
  match goal with K : opt_args_read _ _ _ _ |- _ => destruct (IH _ _ K) as [-> ->] end; auto.
Qed.
Lemma req_read_fun : forall n t a1 r1, req_args_read n t a1 r1 -> forall a2 r2, req_args_read n t a2 r2 -> a1 = a2 /\ r1 = r2.
Proof.
  assert (G : forall v t, balanced c_lb c_rb (marks v) -> closes_after v -> group_at c_lb c_rb (c_lb :: v ++ c_rb :: t) v (length v + 2)).
  { intros v t B C. exists [], t. split; [reflexivity|]. split; [reflexivity|]. split; [exact B|]. split; [exact C|]. cbn. lia. }
  intros n t a1 r1 H. induction H as [t|n v t args rest B C H IH|n t args rest N H IH|n r args rest N H IH]; intros a2 r2 H2; inversion H2; subst; clear H2;
    try (exfalso; match goal with K : forall r, _ <> _ :: r |- _ => now eapply K end);
    try (exfalso; match goal with K : forall v k, ~ group_at _ _ _ _ _ |- _ => now eapply K, G end);
    try match goal with K : req_args_read _ _ _ _ |- _ => destruct (IH _ _ K) as [-> ->] end; auto.
  match goal with B2 : balanced _ _ (marks ?v2), E : ?v2 ++ c_rb :: ?t2 = v ++ c_rb :: t |- _ =>
    destruct (group_at_fun c_lb c_rb _ _ _ _ _ delims_curly (G v t B C) (eq_ind _ (fun q => group_at c_lb c_rb (c_lb :: q) v2 (length v2 + 2)) (G v2 t2 B2 ltac:(assumption)) _ E)) as [<- _];
    apply app_inv_head in E; injection E as ->
  end.
  match goal with K : req_args_read _ _ _ _ |- _ => destruct (IH _ _ K) as [-> ->] end; auto.
Qed.

Lemma user_env : forall w lower isalpha st text ws name rest j s e d,
  text = lit "\begin" ++ ws ++ [c_lb] ++ name ++ [c_rb] ++ rest -> blank ws -> ~ In c_rb name -> strip name = name -> name <> lit "comment" ->
  j = 6 + length ws + length name + 2 -> closed_at name text j s e -> newest name (es_envs st) d ->
  exists oargs body1 rargs body2,
    opt_args_read (ed_opts d) (strip (slice j s text)) oargs body1 /\
    req_args_read (ed_num d - length (ed_opts d)) body1 rargs body2 /\
    exists t, handle w lower isalpha st text = (st, Out (Some t) e) /\ et_name t = name /\ kind_is (lower name) (et_type t) /\
      et_numbered t = false /\ et_title t = None /\ et_args t = [] /\
      et_content t = substitute_args isalpha (ed_begin d) (oargs ++ rargs) false ++ [c_nl] ++ body2 ++ [c_nl] ++
        substitute_args isalpha (ed_end d) (oargs ++ rargs) false.
Proof.
  intros w lower isalpha st text ws name rest j s e d E W N S Nc Hj C D.
  rewrite (env_found w lower isalpha st text ws name rest j s e E W N S Nc Hj C). unfold handle_environment. rewrite (newest_dget _ _ _ _ D). unfold expand_env.
  destruct (take_opts_read (ed_opts d) (strip (slice j s text))) as (oargs & b1 & -> & H1).
  destruct (take_reqs_read (ed_num d - length (ed_opts d)) b1) as (rargs & b2 & -> & H2).
  exists oargs, b1, rargs, b2. split; [exact H1|]. split; [exact H2|]. eexists. split; [reflexivity|]. cbn [et_name et_type et_numbered et_title et_args et_content].
  repeat split. apply kind_get.
Qed.
Lemma regular_env : forall w lower isalpha st text ws name rest j s e,
  text = lit "\begin" ++ ws ++ [c_lb] ++ name ++ [c_rb] ++ rest -> blank ws -> ~ In c_rb name -> strip name = name -> name <> lit "comment" ->
  j = 6 + length ws + length name + 2 -> closed_at name text j s e -> unknown name (es_envs st) ->
  exists t, handle w lower isalpha st text = (st, Out (Some t) e) /\ describes lower st name (strip (slice j s text)) t.
Proof.
  intros w lower isalpha st text ws name rest j s e E W N S Nc Hj C D.
  rewrite (env_found w lower isalpha st text ws name rest j s e E W N S Nc Hj C). unfold handle_environment. rewrite (unknown_dget _ _ _ D).
  eexists. split; [reflexivity|]. apply base_describes.
Qed.
Lemma regular_unclosed : forall w lower isalpha st text ws name rest j,
  text = lit "\begin" ++ ws ++ [c_lb] ++ name ++ [c_rb] ++ rest -> blank ws -> ~ In c_rb name -> strip name = name -> name <> lit "comment" ->
  j = 6 + length ws + length name + 2 -> (forall s e, ~ closed_at name text j s e) -> unknown name (es_envs st) ->
  exists t, handle w lower isalpha st text = (st, Out (Some t) j) /\ describes lower st name [] t /\ et_content t = [] /\ skipn j text = rest.
Proof.
  intros w lower isalpha st text ws name rest j E W N S Nc Hj C D.
  rewrite (env_unclosed w lower isalpha st text ws name rest j E W N S Nc Hj C). unfold handle_environment. rewrite (unknown_dget _ _ _ D).
  eexists. split; [reflexivity|]. pose proof (base_describes lower st name []) as B. split; [exact B|]. split.
  - destruct B as (? & ? & r & ? & ? & p & _ & _ & _ & _ & _ & R & _ & _ & _ & _ & _ & ->). destruct R as [(o & k & _ & -> & _)|(_ & -> & _)]; rewrite ?skipn_nil; reflexivity.
  - rewrite E, Hj. replace (6 + length ws + length name + 2) with (length (lit "\begin" ++ ws ++ [c_lb] ++ name ++ [c_rb])) by (rewrite !app_length; cbn; lia).
    transitivity (skipn (length (lit "\begin" ++ ws ++ [c_lb] ++ name ++ [c_rb])) ((lit "\begin" ++ ws ++ [c_lb] ++ name ++ [c_rb]) ++ rest)); [rewrite <- !app_assoc; reflexivity|apply skipn_app_exact; reflexivity].
Qed.

(** * definitions *)
Lemma newenv_match : forall s rest, In (sc_cmd s) (map lit ["new"; "renew"; "provide"]%string) -> blank (sc_ws s) -> ~ In c_rb (sc_name s) ->
  let head := c_bs :: sc_cmd s ++ lit "environment" ++ (if sc_star s then [42%N] else []) ++ sc_ws s ++ [c_lb] in
  re_match_at NEW_ENVIRONMENT_PATTERN (head ++ sc_name s ++ [c_rb] ++ rest) 0 =
    Some {| m_start := 0; m_end := length head + length (sc_name s) + 1; m_caps := [(1, (length head, length head + length (sc_name s)))] |}.
Proof.
  intros s rest Hc W N head. destruct s as [cmd star ws name opts bodies]. cbn [sc_cmd sc_star sc_ws sc_name] in *. subst head.
  set (tl1 := ws ++ [c_lb] ++ name ++ [c_rb] ++ rest).
  set (text := (c_bs :: cmd ++ lit "environment" ++ (if star then [42%N] else []) ++ ws ++ [c_lb]) ++ name ++ [c_rb] ++ rest).
  assert (E : text = c_bs :: cmd ++ lit "environment" ++ (if star then [42%N] else []) ++ tl1).
  { unfold text, tl1. cbn [List.app]. rewrite <- !app_assoc. reflexivity. }
  apply fm_match. unfold NEW_ENVIRONMENT_PATTERN, NAME_BRACE.
  eapply fm_seq; [eapply (fm_is_ch c_bs text 0); exact E|].
  assert (E1 : skipn 1 text = cmd ++ lit "environment" ++ (if star then [42%N] else []) ++ tl1) by (rewrite E; reflexivity).
  eapply (fm_seq _ _ _ _ _ (1 + length cmd)).
  { destruct Hc as [<-|[<-|[<-|[]]]].
    - apply fm_alt_left. eapply fm_rstr. exact E1.
    - apply fm_alt_right; [rewrite rm_rstr, E1; reflexivity|]. apply fm_alt_left. eapply fm_rstr. exact E1.
    - apply fm_alt_right; [rewrite rm_rstr, E1; reflexivity|]. apply fm_alt_right; [rewrite rm_rstr, E1; reflexivity|]. eapply fm_rstr. exact E1. }
  assert (E2 : skipn (1 + length cmd) text = lit "environment" ++ (if star then [42%N] else []) ++ tl1) by (apply skipn_more; exact E1).
  eapply fm_seq; [eapply fm_rstr; exact E2|].
  assert (E3 : skipn (1 + length cmd + length (lit "environment")) text = (if star then [42%N] else []) ++ tl1) by (apply skipn_more; exact E2).
  eapply (fm_seq _ _ _ _ _ (1 + length cmd + length (lit "environment") + (if star then 1 else 0))).
  { unfold ropt. destruct star.
    - apply fm_alt_left. rewrite Nat.add_1_r. eapply fm_is_ch. exact E3.
    - apply fm_alt_right; [|rewrite Nat.add_0_r; apply fm_eps]. apply rm_chr_none. cbn [List.app] in E3. rewrite E3. unfold tl1.
      destruct ws as [|x ws]; [reflexivity|]. cbn [List.app]. unfold blank in W. cbn [forallb] in W. apply andb_prop in W as [Wx _].
      destruct (N.eqb 42 x) eqn:Q; [apply N.eqb_eq in Q; subst x; discriminate Wx|reflexivity]. }
  assert (E4 : skipn (1 + length cmd + length (lit "environment") + (if star then 1 else 0)) text = tl1).
  { replace (if star then 1 else 0) with (length (if star then [42%N] else [])) by (destruct star; reflexivity). apply skipn_more. exact E3. }
  eapply fm_seq; [eapply (fm_star isspace _ _ _ ws); [exact E4|exact W|reflexivity]|].
  assert (E5 : skipn (1 + length cmd + length (lit "environment") + (if star then 1 else 0) + length ws) text = [c_lb] ++ name ++ [c_rb] ++ rest) by (apply skipn_more; exact E4).
  eapply fm_seq; [eapply fm_is_ch; exact E5|].
  set (k := S (1 + length cmd + length (lit "environment") + (if star then 1 else 0) + length ws)) in *.
  assert (E6 : skipn k text = name ++ c_rb :: rest) by (eapply skipn_more1; exact E5).
  assert (K : length (c_bs :: cmd ++ lit "environment" ++ (if star then [42%N] else []) ++ ws ++ [c_lb]) = k).
  { unfold k. cbn [List.length]. rewrite !app_length. destruct star; cbn [List.length]; lia. }
  rewrite K. match goal with |- first_match _ _ _ _ ?e _ => replace e with (S (k + length name)) by lia end.
  refine (fm_lazy_until 1 (fun x => negb (in_str [c_rb] x)) name c_rb text rest _ [] E6 _ N).
  apply forallb_forall. intros x I. cbn. destruct (N.eqb x c_rb) eqn:Q; [apply N.eqb_eq in Q; subst; contradiction|reflexivity].
Qed.

Lemma groups_exclusive : forall t b n, group_at c_lb c_rb t b n -> forall b' n', ~ group_at c_lk c_rk t b' n'.
Proof.
  intros t b n (ws & r & -> & W & _) b' n' (ws' & r' & E & W' & _). revert ws' E W'. induction ws as [|x ws IH]; intros ws' E W'.
  - destruct ws' as [|y ws']; [discriminate E|]. injection E as <- _. unfold blank in W'. cbn in W'. discriminate.
  - unfold blank in W. cbn [forallb] in W. apply andb_prop in W as [Wx W]. destruct ws' as [|y ws'].
    + injection E as -> _. discriminate Wx.
    + injection E as -> E. unfold blank in W'. cbn [forallb] in W'. apply andb_prop in W' as [_ W']. exact (IH W ws' E W').
Qed.

Lemma groups_at_None : forall o c t bs p, delims_ok o c -> groups_at o c t bs p -> (forall b n, ~ group_at o c (skipn p t) b n) ->
  extract_nested_content_sequence_blocks t o c None = (bs, p).
Proof.
  intros o c t bs p Hd H N. destruct (c03_blocks o c t None Hd) as (bs' & p' & E & G & S). rewrite E. clear E.
  revert bs' p' G S. induction H as [t|t b n bs m G0 Hr IH]; intros bs' p' G S.
  - inversion G as [|? b' n' bs0 m' G' Hr']; subst; [reflexivity|]. exfalso. exact (N _ _ G').
  - inversion G as [|? b' n' bs0 m' G' Hr']; subst; [exfalso; exact (S _ _ G0)|].
    destruct (group_at_fun o c t b n b' n' Hd G0 G') as [<- <-].
    assert (X : (bs0, m') = (bs, m)). { apply (IH ltac:(intros b1 n1; rewrite skipn_add; apply N) bs0 m' Hr'). intros b1 n1. rewrite skipn_add. apply S. }
    injection X as -> ->. reflexivity.
Qed.

Lemma define_env : forall w lower isalpha st s rest d, source_means s rest d ->
  handle w lower isalpha st (env_source_text s ++ rest) =
    ({| es_theorems := es_theorems st; es_floats := es_floats st; es_envs := (sc_name s, d) :: es_envs st |}, Out None (length (env_source_text s))).
Proof.
  intros w lower isalpha st s rest d (Hc & W & N & blocks & G1 & G2 & M).
  set (head := c_bs :: sc_cmd s ++ lit "environment" ++ (if sc_star s then [42%N] else []) ++ sc_ws s ++ [c_lb]).
  assert (Et : env_source_text s ++ rest = head ++ sc_name s ++ [c_rb] ++ (sc_opts s ++ sc_bodies s ++ rest)).
  { unfold env_source_text, head. repeat (rewrite <- app_assoc || rewrite <- app_comm_cons). reflexivity. }
  assert (El : length (env_source_text s) = length head + length (sc_name s) + 1 + length (sc_opts s) + length (sc_bodies s)).
  { unfold env_source_text, head. repeat (rewrite app_length || cbn [List.length]). lia. }
  unfold handle. rewrite Et.
  pose proof (newenv_match s (sc_opts s ++ sc_bodies s ++ rest) Hc W N) as Mt. fold head in Mt. cbv zeta in Mt. rewrite Mt. clear Mt.
  unfold handle_newenvironment. cbn [m_end].
  assert (Hn : m_group (head ++ sc_name s ++ [c_rb] ++ sc_opts s ++ sc_bodies s ++ rest) 1
     {| m_start := 0; m_end := length head + length (sc_name s) + 1; m_caps := [(1, (length head, length head + length (sc_name s)))] |} = Some (sc_name s)).
  { unfold m_group. cbn [cap_get m_caps Nat.eqb option_map]. unfold slice. replace (length head + length (sc_name s) - length head) with (length (sc_name s)) by lia.
    rewrite skipn_app_exact, firstn_app_exact by reflexivity. reflexivity. }
  rewrite Hn.
  assert (S1 : skipn (length head + length (sc_name s) + 1) (head ++ sc_name s ++ [c_rb] ++ sc_opts s ++ sc_bodies s ++ rest) = sc_opts s ++ sc_bodies s ++ rest).
  { replace (length head + length (sc_name s) + 1) with (length (head ++ sc_name s ++ [c_rb])) by (rewrite !app_length; cbn; lia).
    transitivity (skipn (length (head ++ sc_name s ++ [c_rb])) ((head ++ sc_name s ++ [c_rb]) ++ sc_opts s ++ sc_bodies s ++ rest)); [rewrite <- !app_assoc; reflexivity|apply skipn_app_exact; reflexivity]. }
  rewrite S1.
  assert (S2 : skipn (length (sc_opts s)) (sc_opts s ++ sc_bodies s ++ rest) = sc_bodies s ++ rest) by (apply skipn_app_exact; reflexivity).
  assert (Nx : forall b n, ~ group_at c_lk c_rk (skipn (length (sc_opts s)) (sc_opts s ++ sc_bodies s ++ rest)) b n).
  { rewrite S2. inversion G2; subst. eapply groups_exclusive. eassumption. }
  rewrite (groups_at_None _ _ _ _ _ delims_square G1 Nx).
  rewrite <- (skipn_add _ (length (sc_opts s)) (length head + length (sc_name s) + 1)), S1, S2.
  pose proof (blocks_exact c_lb c_rb _ [ed_begin d; ed_end d] _ delims_curly G2) as Bx. cbn [List.length] in Bx. rewrite Bx.
  f_equal.
  - f_equal. f_equal. f_equal. destruct d as [b e num opts]. cbn [ed_num ed_opts] in M. f_equal; destruct blocks as [|nb ds].
    + symmetry; apply M.
    + destruct M as [-> _]. reflexivity.
    + symmetry; apply M.
    + symmetry. apply M.
  - f_equal. rewrite El. reflexivity.
Qed.
