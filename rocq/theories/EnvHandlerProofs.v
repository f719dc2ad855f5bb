(** Proofs about the environment handler: regular environments. *)
From Coq Require Import List NArith PeanoNat Lia Bool String.
From Verif Require Import PyStr Regex RegexLemmas RegexHead TexUtilsModel DelimSpec DelimProofs DelimFinal KeyvalProofs2
  EnvModel EnvSpec EnvProofs CommandProofs3 StyProofs EnvHandlerModel EnvHandlerSpec.
Import ListNotations.
Notation length := List.length.
Open Scope list_scope.

Lemma dget_some : forall A k (d : list (str * A)) v, dget k d = Some v -> newest k d v /\ In (k, v) d.
Proof.
  intros A k d v. induction d as [|[k' v'] d IH]; cbn [dget]; [discriminate|]. destruct (str_eqb k k') eqn:E.
  - apply str_eqb_spec in E as <-. intros [= <-]. split; [constructor|left; reflexivity].
  - intros H. destruct (IH H) as [N I]. split; [constructor; [intros <-; rewrite str_eqb_refl in E; discriminate|exact N]|right; exact I].
Qed.
Lemma dget_none : forall A k (d : list (str * A)), dget k d = None -> unknown k d.
Proof.
  intros A k d. induction d as [|[k' v'] d IH]; cbn [dget]; intros H v; [intros []|]. destruct (str_eqb k k') eqn:E; [discriminate|].
  intros [[= <- <-]|I]; [rewrite str_eqb_refl in E; discriminate|exact (IH H v I)].
Qed.
Lemma newest_dget : forall A k (d : list (str * A)) v, newest k d v -> dget k d = Some v.
Proof.
  intros A k d v H. induction H as [v l|k' v' l v N H IH]; cbn [dget]; [rewrite str_eqb_refl; reflexivity|].
  destruct (str_eqb k k') eqn:E; [apply str_eqb_spec in E; congruence|exact IH].
Qed.
Lemma unknown_dget : forall A k (d : list (str * A)), unknown k d -> dget k d = None.
Proof. intros A k d U. destruct (dget k d) eqn:E; [|reflexivity]. apply dget_some in E as [_ I]. exfalso. exact (U _ I). Qed.
Lemma renamed_get : forall tab name, renamed tab name (match dget name tab with Some t => t | None => name end).
Proof.
  intros tab name. destruct (dget name tab) eqn:E; [left; apply dget_some in E; tauto|right; split; [apply dget_none; exact E|reflexivity]].
Qed.

Lemma kind_get : forall low, kind_is low (match dget low ENV_TYPES with Some t => t | None => lit "environment" end).
Proof.
  intros low. destruct (dget low ENV_TYPES) as [v|] eqn:E.
  - left. apply dget_some in E as [_ I].
    assert (C : forallb (fun kv => existsb (fun kn => str_eqb (fst kn) (snd kv) && existsb (str_eqb (fst kv)) (snd kn)) kinds) ENV_TYPES = true) by (vm_compute; reflexivity).
    rewrite forallb_forall in C. specialize (C _ I). cbn [fst snd] in C. apply existsb_exists in C as ([k' ns] & K & B). cbn [fst snd] in B.
    apply andb_prop in B as [B1 B2]. apply str_eqb_spec in B1 as ->. apply mem_spec in B2. exists ns. auto.
  - right. split; [reflexivity|]. intros k' ns K I. apply dget_none in E.
    assert (C : forallb (fun kn => forallb (fun nm => existsb (fun kv => str_eqb nm (fst kv)) ENV_TYPES) (snd kn)) kinds = true) by (vm_compute; reflexivity).
    rewrite forallb_forall in C. specialize (C _ K). cbn [snd] in C. rewrite forallb_forall in C. specialize (C _ I). apply existsb_exists in C as ([a b] & J & B).
    apply str_eqb_spec in B. cbn [fst] in B. subst a. exact (E _ J).
Qed.

Lemma replace_filter : forall x s, replace [x] [] s = filter (fun y => negb (N.eqb y x)) s.
Proof.
  intros x s. unfold replace. induction s as [|y s IH]; [reflexivity|]. cbn [replace_go startswith filter List.length List.app Nat.sub].
  rewrite (N.eqb_sym x y). destruct (N.eqb y x) eqn:E; cbn [andb negb]; rewrite IH; reflexivity.
Qed.
Lemma contains_one : forall x s, contains [x] s = true <-> In x s.
Proof.
  intros x s. unfold contains. induction s as [|y s IH]; cbn [find_sub startswith]; [split; [discriminate|intros []]|].
  rewrite (N.eqb_sym x y), ?andb_true_r. destruct (N.eqb y x) eqn:E.
  - apply N.eqb_eq in E. split; [intros _; left; exact E|reflexivity].
  - destruct (find_sub [x] s); cbn [option_map].
    + split; [intros _; right; apply IH; reflexivity|reflexivity].
    + split; [discriminate|]. intros [<-|I]; [rewrite N.eqb_refl in E; discriminate|]. apply IH in I. discriminate.
Qed.
Lemma startswith_iff : forall s p, startswith s p = true <-> exists r, s = p ++ r.
Proof.
  intros s p. revert s. induction p as [|x p IH]; intros s; cbn [startswith].
  - destruct s; split; intros _; try reflexivity; eexists; reflexivity.
  - destruct s as [|y s]; [split; [discriminate|intros (r & H); discriminate]|]. rewrite andb_true_iff, N.eqb_eq, IH. split.
    + intros [-> (r & ->)]. exists r. reflexivity.
    + intros (r & [= -> ->]). split; [reflexivity|exists r; reflexivity].
Qed.

Definition blank_opts : forall t (o c : ch), delims_ok o c -> (forall b n, ~ group_at o c t b n) -> forall k,
  extract_nested_content_sequence_blocks t o c k = ([], 0).
Proof.
  intros t o c Hd H k. destruct (c03_blocks o c t k Hd) as (bs & p & E & G & _). inversion G; subst; [exact E|]. exfalso. eapply H. eassumption.
Qed.

Lemma brace_table : forall key, brace_args key (match dget key ENV_ARGS with Some (r, _) => r | None => 0 end).
Proof.
  intros key. destruct (dget key ENV_ARGS) as [[r o]|] eqn:E.
  - apply dget_some in E as [_ I]. unfold ENV_ARGS in I. cbn [In] in I.
    repeat (destruct I as [[= <- <- <-]|I]; [first [left; vm_compute; tauto|right; split; [reflexivity|]; vm_compute; intuition discriminate]|]). destruct I.
  - right. split; [reflexivity|]. apply dget_none in E. intros I.
    assert (C : forallb (fun nm => existsb (fun kv => str_eqb nm (fst kv)) ENV_ARGS) (map lit ["thebibliography"; "minipage"; "list"; "adjustwidth"; "spacing"; "multicols"; "subfigure";
    "wrapfigure"; "adjustbox"; "CJK"]%string) = true) by (vm_compute; reflexivity).
    rewrite forallb_forall in C. specialize (C _ I). apply existsb_exists in C as ([a b] & J & B). apply str_eqb_spec in B. cbn [fst] in B. subst a. exact (E _ J).
Qed.
Lemma opt_le1 : forall key r o, dget key ENV_ARGS = Some (r, o) -> o <= 1.
Proof.
  intros key r o E. apply dget_some in E as [_ I]. unfold ENV_ARGS in I. cbn [In] in I. repeat (destruct I as [[= <- <- <-]|I]; [lia|]). destruct I.
Qed.

(** the brace arguments that are read: no bracket argument is in the way *)
Lemma extract_args_req : forall text req opt, opt = 0 \/ (forall b n, ~ group_at c_lk c_rk text b n) ->
  exists rs p, extract_args text req opt = (rs, [], p) /\ groups_at c_lb c_rb text rs p /\ length rs <= req /\
    (length rs < req -> forall ct n, ~ group_at c_lb c_rb (skipn p text) ct n).
Proof.
  intros text req opt H.
  assert (Eo : forall k, (if Nat.ltb 0 opt then let '(os, e) := extract_nested_content_sequence_blocks text c_lk c_rk (Some k) in (os, e, if Nat.ltb 0 e then skipn e text else text)
     else ([], 0, text)) = ([], 0, text)).
  { intros k. destruct H as [->|H]; [reflexivity|]. destruct (Nat.ltb 0 opt); [|reflexivity]. rewrite (blank_opts text _ _ delims_square H). reflexivity. }
  unfold extract_args. rewrite Eo. destruct (Nat.ltb 0 req) eqn:R.
  - destruct (c03_blocks c_lb c_rb text (Some req) delims_curly) as (bs & p & E & G & L & S). rewrite E. exists bs, p. auto.
  - exists [], 0. split; [reflexivity|]. split; [constructor|]. split; [cbn; lia|]. apply Nat.ltb_ge in R. intros K. cbn in K. lia.
Qed.

Lemma mem_spec' : forall x l, mem_str x l = true <-> In x l.
Proof. exact mem_spec. Qed.

Lemma base_describes : forall lower st name body, describes lower st name body (base_environment lower st name body).
Proof.
  intros lower st name body. unfold base_environment, describes.
  set (base := replace [42%N] [] name). set (key := match dget base (es_theorems st) with Some t => t | None => base end).
  set (shown := match dget key (es_floats st) with Some t => t | None => key end).
  set (ty := get_env_type lower key).
  assert (Hty : kind_is (lower key) ty) by apply kind_get.
  destruct (extract_nested_content body c_lk c_rk) as [title endp] eqn:Ex.
  set (found := Nat.ltb 0 endp). set (rest := if found then skipn endp body else body).
  set (tt := match title with Some x => if negb (nilb x) && str_eqb ty (lit "math_env") then Some x else None | None => None end).
  assert (Hb : (exists opt k, group_at c_lk c_rk body opt k /\ found = true /\ rest = skipn k body /\
        tt = (if str_eqb ty (lit "math_env") && negb (str_eqb opt []) then Some opt else None)) \/
     ((forall opt k, ~ group_at c_lk c_rk body opt k) /\ found = false /\ rest = body /\ tt = None)).
  { destruct (c02_outcomes c_lk c_rk body delims_square) as [F|(ct & n & F & Hn)]; rewrite F in Ex; injection Ex as <- <-.
    - right. split; [apply c02_fail; [exact delims_square|exact F]|]. split; [reflexivity|]. split; [reflexivity|]. reflexivity.
    - left. exists ct, n. split; [apply extract_nested_content_iff; [exact delims_square|exact F]|].
      assert (F1 : found = true) by (apply Nat.ltb_lt; lia). split; [exact F1|]. unfold rest. rewrite F1. split; [reflexivity|].
      unfold tt. destruct ct; cbn [nilb negb str_eqb andb]; rewrite ?andb_true_r, ?andb_false_r; reflexivity. }
  assert (Ha : exists n rs p, brace_args key n /\ groups_at c_lb c_rb rest rs p /\ length rs <= n /\
    (length rs < n -> forall ct k, ~ group_at c_lb c_rb (skipn p rest) ct k) /\
    (match dget key ENV_ARGS with
    | Some (req, opt) => let opt := if Nat.ltb 0 opt && found then opt - 1 else opt in
        let '(rs, _, e) := extract_args rest req opt in (rs, skipn e rest)
    | None => ([], rest) end) = (rs, skipn p rest)).
  { pose proof (brace_table key) as B. destruct (dget key ENV_ARGS) as [[req opt]|] eqn:D.
    - apply opt_le1 in D.
      assert (Ho : (if Nat.ltb 0 opt && found then opt - 1 else opt) = 0 \/ (forall b n, ~ group_at c_lk c_rk rest b n)).
      { destruct Hb as [(o & k & _ & F & _)|(N & F & R & _)]; [left; rewrite F; destruct opt as [|[|o2]]; [reflexivity|reflexivity|lia]|right; rewrite R; exact N]. }
      destruct (extract_args_req rest req _ Ho) as (rs & p & E & G & L & S). exists req, rs, p. cbv zeta. rewrite E. auto.
    - exists 0, [], 0. split; [exact B|]. split; [constructor|]. split; [cbn; lia|]. split; [cbn; lia|reflexivity]. }
  destruct Ha as (n & rs & p & B & G & L & S & E). cbv zeta in E. rewrite E.
  exists base, key, rest, n, rs, p. cbn [et_name et_type et_numbered et_title et_args et_content].
  split; [apply replace_filter|]. split; [apply renamed_get|]. split; [apply renamed_get|]. split; [exact Hty|].
  split; [|split; [|repeat split; auto]].
  - destruct (str_eqb ty (lit "math_env")) eqn:Em.
    + apply str_eqb_spec in Em. destruct (contains [42%N] name) eqn:Es; cbn [negb andb].
      * split.
        -- rewrite andb_true_iff, mem_spec'. intros [I _]. rewrite Em in I. vm_compute in I. intuition discriminate.
        -- apply contains_one in Es. intros [(_ & N & _)|([T|[T|T]] & _)]; [contradiction| | |]; rewrite Em in T; discriminate T.
      * rewrite mem_spec'. split.
        -- intros I. left. split; [exact Em|]. split; [intros St; apply (proj2 (contains_one 42%N name)) in St; pose proof (eq_trans (eq_sym Es) St) as X; discriminate X|exact I].
        -- intros [(_ & _ & I)|([T|[T|T]] & _)]; [exact I| | |]; rewrite Em in T; discriminate T.
    + cbn [andb]. rewrite andb_true_iff, mem_spec', negb_true_iff. split.
      * intros [I Nb]. right. split; [destruct I as [I|[I|[I|[]]]]; auto|]. intros r Hr. rewrite Hr in Nb.
        assert (startswith (lit "sub" ++ r) (lit "sub") = true) by (apply startswith_iff; exists r; reflexivity). congruence.
      * intros [(T & _)|(T & Nb)]; [rewrite T, str_eqb_refl in Em; discriminate|]. split; [cbn [In]; destruct T as [T|[T|T]]; auto|].
        destruct (startswith key (lit "sub")) eqn:Sw; [|reflexivity]. apply startswith_iff in Sw as (r & Hr). exfalso. exact (Nb r Hr).
  - destruct Hb as [(o & k & G1 & F & R & T)|(N & F & R & T)]; [left; exists o, k; auto|right; auto].
Qed.

(** * finding the environment *)
Lemma begin_match : forall text ws raw rest, text = lit "\begin" ++ ws ++ [c_lb] ++ raw ++ [c_rb] ++ rest -> blank ws -> ~ In c_rb raw ->
  re_match_at BEGIN_PATTERN text 0 = Some {| m_start := 0; m_end := 6 + length ws + length raw + 2;
    m_caps := [(1, (7 + length ws, 7 + length ws + length raw))] |}.
Proof.
  intros text ws raw rest E W N. apply fm_match. unfold BEGIN_PATTERN, NAME_BRACE.
  eapply fm_seq; [apply (fm_rstr (lit "\begin") text 0 [] (ws ++ [c_lb] ++ raw ++ [c_rb] ++ rest)); exact E|].
  assert (E1 : skipn 6 text = ws ++ [c_lb] ++ raw ++ [c_rb] ++ rest) by (rewrite E; reflexivity).
  eapply fm_seq; [apply (fm_star isspace text (0 + length (lit "\begin")) [] ws ([c_lb] ++ raw ++ [c_rb] ++ rest)); [exact E1|exact W|reflexivity]|].
  assert (E2 : skipn (6 + length ws) text = [c_lb] ++ raw ++ [c_rb] ++ rest) by (apply skipn_more; exact E1).
  eapply fm_seq; [eapply fm_is_ch; exact E2|].
  assert (E3 : skipn (S (6 + length ws)) text = raw ++ c_rb :: rest) by (eapply skipn_more1; exact E2).
  match goal with |- first_match _ _ _ _ ?e _ => replace e with (S (S (6 + length ws) + length raw)) by lia end.
  match goal with |- first_match _ _ _ _ _ ?c => change c with [(1, (S (6 + length ws), S (6 + length ws) + length raw))] end.
  refine (fm_lazy_until 1 (fun x => negb (in_str [c_rb] x)) raw c_rb text rest _ [] E3 _ N).
  apply forallb_forall. intros x I. cbn. destruct (N.eqb x c_rb) eqn:Q; [apply N.eqb_eq in Q; subst; contradiction|reflexivity].
Qed.

Lemma no_newenv : forall t, re_match_at NEW_ENVIRONMENT_PATTERN (lit "\begin" ++ t) 0 = None.
Proof. intros t. unfold re_match_at, NEW_ENVIRONMENT_PATTERN. cbn. reflexivity. Qed.

Lemma marker_zero : forall name text j, marker_at (lit "\begin") name text 0 j -> first_marker (lit "\begin") name text 0 0 j.
Proof. intros name text j H. split; [lia|]. split; [exact H|]. intros; lia. Qed.

Lemma match_group1 : forall w text ws name rest, text = lit "\begin" ++ ws ++ [c_lb] ++ name ++ [c_rb] ++ rest -> blank ws -> ~ In c_rb name -> strip name = name ->
  try_match_env w text = match find_matching_env_block text name 0 with
    | Some (_, e, inner) => Found name e inner
    | None => Found name (6 + length ws + length name + 2) []
    end.
Proof.
  intros w text ws name rest E W N S. unfold try_match_env. rewrite (begin_match text ws name rest E W N).
  unfold m_group. cbn [cap_get m_caps Nat.eqb option_map].
  assert (G : slice (7 + length ws) (7 + length ws + length name) text = name).
  { unfold slice. replace (7 + length ws + length name - (7 + length ws)) with (length name) by lia.
    replace (7 + length ws) with (length (lit "\begin" ++ ws ++ [c_lb])) by (rewrite !app_length; cbn; lia).
    assert (E' : text = (lit "\begin" ++ ws ++ [c_lb]) ++ name ++ [c_rb] ++ rest) by (rewrite E, <- !app_assoc; reflexivity).
    rewrite E', skipn_app_exact, firstn_app_exact by reflexivity. reflexivity. }
  rewrite G, S. reflexivity.
Qed.

Lemma env_found : forall w lower isalpha st text ws name rest j s e,
  text = lit "\begin" ++ ws ++ [c_lb] ++ name ++ [c_rb] ++ rest -> blank ws -> ~ In c_rb name -> strip name = name -> name <> lit "comment" ->
  j = 6 + length ws + length name + 2 -> closed_at name text j s e ->
  handle w lower isalpha st text = (st, Out (Some (handle_environment lower isalpha st name (strip (slice j s text)))) e).
Proof.
  intros w lower isalpha st text ws name rest j s e E W N S Nc Hj C.
  unfold handle. rewrite E at 1. rewrite no_newenv. unfold handle_env. rewrite (match_group1 w text ws name rest E W N S).
  assert (M : marker_at (lit "\begin") name text 0 j).
  { exists ws, rest. split; [exact W|]. split; [exact E|]. rewrite Hj. reflexivity. }
  destruct (fmeb_spec text name 0) as [(i & j' & s' & e' & F & C' & ->)|[No _]].
  - cbn [skipn] in F, C'. destruct (marker_zero _ _ _ M) as (_ & _ & Lm). destruct F as (_ & F & Lf).
    assert (i = 0) as ->. { destruct i; [reflexivity|]. exfalso. exact (Lf 0 j ltac:(lia) M). }
    assert (j' = j) as -> by (eapply marker_fun; eassumption). destruct (closed_fun _ _ _ _ _ _ _ C C') as [<- <-].
    cbn [skipn plus]. destruct (str_eqb name (lit "comment")) eqn:Q; [apply str_eqb_spec in Q; contradiction|reflexivity].
  - exfalso. exact (No 0 j s e (marker_zero _ _ _ M) C).
Qed.
Lemma env_comment : forall w lower isalpha st text ws rest j s e,
  text = lit "\begin" ++ ws ++ [c_lb] ++ lit "comment" ++ [c_rb] ++ rest -> blank ws ->
  j = 6 + length ws + 7 + 2 -> closed_at (lit "comment") text j s e ->
  handle w lower isalpha st text = (st, Out None e).
Proof.
  intros w lower isalpha st text ws rest j s e E W Hj C.
  assert (N : ~ In c_rb (lit "comment")) by (vm_compute; intuition discriminate).
  unfold handle. rewrite E at 1. rewrite no_newenv. unfold handle_env. rewrite (match_group1 w text ws (lit "comment") rest E W N eq_refl).
  assert (M : marker_at (lit "\begin") (lit "comment") text 0 j).
  { exists ws, rest. split; [exact W|]. split; [exact E|]. rewrite Hj. reflexivity. }
  destruct (fmeb_spec text (lit "comment") 0) as [(i & j' & s' & e' & F & C' & ->)|[No _]].
  - cbn [skipn] in F, C'. destruct (marker_zero _ _ _ M) as (_ & _ & Lm). destruct F as (_ & F & Lf).
    assert (i = 0) as ->. { destruct i; [reflexivity|]. exfalso. exact (Lf 0 j ltac:(lia) M). }
    assert (j' = j) as -> by (eapply marker_fun; eassumption). destruct (closed_fun _ _ _ _ _ _ _ C C') as [<- <-].
    cbn [skipn plus]. rewrite str_eqb_refl. reflexivity.
  - exfalso. exact (No 0 j s e (marker_zero _ _ _ M) C).
Qed.
(** not closed: only the \begin is consumed *)
Lemma env_unclosed : forall w lower isalpha st text ws name rest j,
  text = lit "\begin" ++ ws ++ [c_lb] ++ name ++ [c_rb] ++ rest -> blank ws -> ~ In c_rb name -> strip name = name -> name <> lit "comment" ->
  j = 6 + length ws + length name + 2 -> (forall s e, ~ closed_at name text j s e) ->
  handle w lower isalpha st text = (st, Out (Some (handle_environment lower isalpha st name [])) j).
Proof.
  intros w lower isalpha st text ws name rest j E W N S Nc Hj C.
  unfold handle. rewrite E at 1. rewrite no_newenv. unfold handle_env. rewrite (match_group1 w text ws name rest E W N S).
  assert (M : marker_at (lit "\begin") name text 0 j).
  { exists ws, rest. split; [exact W|]. split; [exact E|]. rewrite Hj. reflexivity. }
  destruct (fmeb_spec text name 0) as [(i & j' & s' & e' & F & C' & _)|[No ->]].
  - cbn [skipn] in F, C'. destruct F as (_ & F & Lf).
    assert (i = 0) as ->. { destruct i; [reflexivity|]. exfalso. exact (Lf 0 j ltac:(lia) M). }
    assert (j' = j) as -> by (eapply marker_fun; eassumption). exfalso. exact (C _ _ C').
  - destruct (str_eqb name (lit "comment")) eqn:Q; [apply str_eqb_spec in Q; contradiction|]. rewrite Hj. reflexivity.
Qed.
