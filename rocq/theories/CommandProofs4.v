From Coq Require Import List NArith ZArith PeanoNat Lia Bool String.
From Verif Require Import PyStr Regex RegexLemmas RegexHead TexUtilsModel DelimSpec DelimProofs DelimFinal SubstModel SubstSpec SubstProofs EtoolProofs KeyvalProofs2 ContentModel ContentSpec ContentProofs ContentProofs2 ContentProofs3 ContentProofs4 CommandModel CommandSpec CommandProofs CommandProofs2 CommandProofs3.
Import ListNotations. Notation length := List.length. Notation concat := List.concat. Open Scope list_scope.

(** * Dictionaries *)
Fixpoint cget (k : str) (d : cdict) : option centry := match d with [] => None | (k', v) :: r => if str_eqb k k' then Some v else cget k r end.
Lemma cset_keys : forall k v d x, In x (map fst (cset k v d)) <-> x = k \/ In x (map fst d).
Proof.
  intros k v d x. induction d as [|[k' v'] d IH]; cbn [cset map fst In]; [intuition|]. destruct (str_eqb k k') eqn:E; cbn [map fst In].
  - apply str_eqb_spec in E. subst k'. intuition.
  - rewrite IH. intuition.
Qed.
Lemma cset_nodup : forall k v d, NoDup (map fst d) -> NoDup (map fst (cset k v d)).
Proof.
  intros k v d H. induction d as [|[k' v'] d IH]; cbn [cset map fst] in *; [constructor; [intros []|constructor]|]. inversion H as [|? ? N H']; subst.
  destruct (str_eqb k k') eqn:E; cbn [map fst].
  - apply str_eqb_spec in E. subst k'. constructor; assumption.
  - constructor; [|apply IH, H']. intros X. apply cset_keys in X as [->|X]; [rewrite str_eqb_refl in E; discriminate|contradiction].
Qed.
Lemma cget_cset : forall k v d x, cget x (cset k v d) = if str_eqb x k then Some v else cget x d.
Proof.
  intros k v d x. induction d as [|[k' v'] d IH]; cbn [cset cget]; [reflexivity|]. destruct (str_eqb k k') eqn:E; cbn [cget].
  - apply str_eqb_spec in E. subst k'. destruct (str_eqb x k); reflexivity.
  - rewrite IH. destruct (str_eqb x k') eqn:E1; [|reflexivity]. apply str_eqb_spec in E1. subst k'. destruct (str_eqb x k) eqn:E2; [|reflexivity]. apply str_eqb_spec in E2. subst. rewrite str_eqb_refl in E. discriminate E.
Qed.
Lemma cset_cset : forall k v w d, cset k v (cset k w d) = cset k v d.
Proof.
  intros k v w d. induction d as [|[k' v'] d IH]; cbn [cset]; [rewrite str_eqb_refl; reflexivity|]. destruct (str_eqb k k') eqn:E; cbn [cset]; [rewrite str_eqb_refl; reflexivity|]. rewrite E, IH. reflexivity.
Qed.
Lemma cset_in : forall k v d k' v', In (k', v') (cset k v d) -> (k' = k /\ v' = v) \/ In (k', v') d.
Proof.
  intros k v d k' v'. induction d as [|[k2 v2] d IH]; cbn [cset]; [intros [H|[]]; injection H as <- <-; auto|]. destruct (str_eqb k k2) eqn:E.
  - intros [H|H]; [injection H as <- <-; auto|right; right; exact H].
  - intros [H|H]; [right; left; exact H|]. destruct (IH H) as [?|?]; [auto|right; right; assumption].
Qed.

(** * Registration *)
Definition ent (d : macro) : centry := {| ce_pat := usage_pattern (mc_name d); ce_math := math_only d; ce_kind := KNew (GPlain (mc_body d)) (arity d) (default_values d) |}.
(** definitions the parser accepts: the name is not protected, the body does not
    use the macro itself and does not start with \@ifstar *)
Definition acceptable (d : macro) : Prop :=
  well_written d /\ ~ In (mc_name d) whitelist /\ ~ uses (mc_name d) (mc_body d) /\ (forall r, strip (mc_body d) <> lit "\@ifstar" ++ r).
Lemma existsb_in : forall n l, existsb (str_eqb n) l = true <-> In n l.
Proof. intros n l. rewrite existsb_exists. split; [intros (x & H & E); apply str_eqb_spec in E; subst; exact H|]. intros H. exists n. split; [exact H|apply str_eqb_refl]. Qed.

Section Reg.
Variables (isalpha isalnum : ch -> bool) (ifs : str -> option (str * str)) (ew : str -> bool).
Lemma register_ok : forall st d, acceptable d ->
  register_command isalpha isalnum ifs ew st (TNew (mc_name d) (mc_body d) (arity d) (default_values d) (usage_pattern (mc_name d)) (math_only d)) =
  Some {| c_cmds := cset (mc_name d) (ent d) (c_cmds st); c_lets := c_lets st |}.
Proof.
  intros st d (W & Hw & Hu & Hi). pose proof (proj1 (proj2 (proj2 (proj2 W)))) as Wn. unfold register_command.
  replace (nilb (mc_name d)) with false by (symmetry; apply word_nonempty in Wn; destruct (mc_name d); [congruence|reflexivity]).
  replace (whitelisted (mc_name d)) with false by (symmetry; apply not_true_iff_false; intros E; apply existsb_in in E; contradiction).
  apply (uses_search _ _ Wn) in Hu. rewrite Hu, andb_false_r. cbn [orb]. unfold conditionals.
  replace (startswith (strip (mc_body d)) (lit "\@ifstar")) with false; [reflexivity|]. symmetry. apply not_true_iff_false. intros E. apply startswith_spec in E as (r & E). apply (Hi r E).
Qed.
Lemma define_ok : forall st d rest, acceptable d ->
  parser_define isalpha isalnum ifs ew st (macro_text d ++ rest) = Some ({| c_cmds := cset (mc_name d) (ent d) (c_cmds st); c_lets := c_lets st |}, length (macro_text d)).
Proof.
  intros st d rest A. unfold parser_define. rewrite (newcommand_definition d rest (proj1 A)), !register_ok by exact A. cbn [c_cmds c_lets]. rewrite cset_cset. reflexivity.
Qed.

(** ** Histories of definitions, newest first *)
Inductive history : list macro -> cstate -> Prop :=
| h_start : history [] {| c_cmds := []; c_lets := [] |}
| h_define : forall h st d rest st' n, history h st -> acceptable d ->
    parser_define isalpha isalnum ifs ew st (macro_text d ++ rest) = Some (st', n) -> history (d :: h) st'.
Lemma history_inv : forall h st, history h st ->
  c_lets st = [] /\ NoDup (map fst (c_cmds st)) /\
  (forall k e, In (k, e) (c_cmds st) -> word k /\ ce_pat e = usage_pattern k) /\
  (forall k, cget k (c_cmds st) = option_map ent (latest k h)) /\
  Forall acceptable h.
Proof.
  intros h st H. induction H as [|h st d rest st' n H IH A P].
  - cbn. repeat split; try constructor; contradiction.
  - rewrite define_ok in P by exact A. injection P as <- <-. cbn [c_cmds c_lets]. destruct IH as (L & N & Pk & G & F).
    split; [exact L|]. split; [apply cset_nodup, N|]. split; [|split; [|constructor; assumption]].
    + intros k e Hin. apply cset_in in Hin as [[-> ->]|Hin]; [|apply Pk, Hin]. split; [apply (proj1 (proj2 (proj2 (proj2 (proj1 A)))))|reflexivity].
    + intros k. rewrite cget_cset. cbn [latest]. destruct (str_eqb k (mc_name d)) eqn:E.
      * apply str_eqb_spec in E. subst k. rewrite str_eqb_refl. reflexivity.
      * destruct (str_eqb (mc_name d) k) eqn:E2; [apply str_eqb_spec in E2; subst k; rewrite str_eqb_refl in E; discriminate|apply G].
Qed.

(** ** Dispatch *)
Lemma handle_word : forall es name r, NoDup (map fst es) -> (forall k e, In (k, e) es -> word k /\ ce_pat e = usage_pattern k) -> word name -> word_end r ->
  let t := [c_bs] ++ name ++ r in
  let m := {| m_start := 0; m_end := S (length name); m_caps := [] |} in
  handle_go isalpha es t =
    match cget name es with
    | Some e => if ce_math e then None
                else let '(out, pos) := run_handler isalpha (ce_kind e) t m false in
                     if str_eqb ([c_bs] ++ name) out then Some ([], S (length name)) else Some (out, pos)
    | None => None
    end.
Proof.
  intros es name r N P W Hr t m. induction es as [|[k e] es IH]; [reflexivity|]. cbn [handle_go cget].
  inversion N as [|? ? Nk N']; subst. destruct (P k e (or_introl eq_refl)) as [Wk Pk]. specialize (IH N' (fun a b H => P a b (or_intror H))).
  assert (U : use_at name (skipn 0 t) r) by (split; [reflexivity|exact Hr]).
  destruct (str_eqb name k) eqn:E.
  - apply str_eqb_spec in E. subst k. destruct (ce_math e).
    + rewrite IH. replace (cget name es) with (@None centry); [reflexivity|]. symmetry. clear -Nk. induction es as [|[k' v] es IH]; [reflexivity|]. cbn [cget]. destruct (str_eqb name k') eqn:E; [apply str_eqb_spec in E; subst; exfalso; apply Nk; left; reflexivity|]. apply IH. intros H. apply Nk. right. exact H.
    + rewrite Pk. destruct (usage_at name t 0 W ltac:(lia)) as [Y _]. rewrite (Y r U). cbn [Nat.add]. fold m.
      assert (G0 : m_group0 t m = [c_bs] ++ name) by (apply (group0_at t ([c_bs] ++ name) r []); reflexivity). rewrite G0. reflexivity.
  - assert (M : re_match_at (ce_pat e) t 0 = None).
    { rewrite Pk. apply (usage_at k t 0 Wk); [lia|]. intros r' U'. destruct (use_at_fun name k _ _ _ W Wk U U') as [-> _]. rewrite str_eqb_refl in E. discriminate E. }
    destruct (ce_math e); [exact IH|]. rewrite M. exact IH.
Qed.

(** ** Arguments *)
Lemma blocks_max : forall o c t bs p k, delims_ok o c -> groups_at o c t bs p -> length bs <= k -> (length bs < k -> forall b n, ~ group_at o c (skipn p t) b n) ->
  extract_nested_content_sequence_blocks t o c (Some k) = (bs, p).
Proof.
  intros o c t bs p k Hd H Hl Hs. destruct (c03_blocks o c t (Some k) Hd) as (bs' & p' & E & G & L & S). rewrite E.
  destruct (Nat.le_ge_cases (length bs') (length bs)) as [Q|Q].
  - destruct (groups_same o c Hd t bs p H bs' p' G Q) as [-> ->]; [intros; apply S; lia|reflexivity].
  - destruct (groups_same o c Hd t bs' p' G bs p H Q) as [-> ->]; [intros; apply Hs; lia|reflexivity].
Qed.
Lemma overwrite_app : forall os ds, length os <= length ds -> overwrite os ds = os ++ skipn (length os) ds.
Proof. induction os as [|x os IH]; intros [|y ds] H; cbn in *; try lia; try reflexivity. rewrite IH by lia. reflexivity. Qed.
Lemma subst_ok : forall body args, args <> [] -> (forall ps, reads_as body ps -> no_zero ps) -> substituted isalpha body args (substitute_args isalpha body (map Some args) false).
Proof.
  intros body args Ha Hz. destruct (reads_exists body) as (ps & R). exists ps. split; [exact R|]. destruct (substitute_args_spec isalpha body (map Some args) false ps R (Hz ps R)) as [A B].
  destruct (params ps) as [|h l] eqn:Ep; [left; split; [reflexivity|apply A; reflexivity]|]. right.
  assert (M : exists m, min_hashes_of ps m).
  { clear -Ep. assert (I : forall ps, params ps <> [] -> exists m, min_hashes_of ps m).
    { induction ps0 as [|p ps0 IH]; intros H; [contradiction|]. destruct (params ps0) eqn:E.
      - destruct p as [x| |h0 d0]; cbn [params] in H; try contradiction. exists h0. split; [exists d0; left; reflexivity|]. intros h' d' [Q|Q]; [injection Q as -> _; lia|].
        exfalso. clear -E Q. induction ps0 as [|p ps0 IH]; [destruct Q|]. destruct Q as [->|Q]; [discriminate E|]. destruct p; cbn [params] in E; try (apply IH; assumption). discriminate E.
      - destruct IH as (m & (d0 & I0) & Hm); [discriminate|]. destruct p as [x| |h0 d1].
        + exists m. split; [exists d0; right; exact I0|]. intros h' d' [Q|Q]; [discriminate Q|eauto].
        + exists m. split; [exists d0; right; exact I0|]. intros h' d' [Q|Q]; [discriminate Q|eauto].
        + destruct (Nat.le_ge_cases h0 m).
          * exists h0. split; [exists d1; left; reflexivity|]. intros h' d' [Q|Q]; [injection Q as -> _; lia|]. specialize (Hm h' d' Q). lia.
          * exists m. split; [exists d0; right; exact I0|]. intros h' d' [Q|Q]; [injection Q as <- _; lia|eauto]. }
    apply I. rewrite Ep. discriminate. }
  destruct M as (m & M). exists m. split; [exact M|apply B; exact M].
Qed.
Lemma run_call : forall d name r args n, mc_name d = name -> call_args d r args n -> length (mc_defaults d) <= arity d -> (forall ps, reads_as (mc_body d) ps -> no_zero ps) ->
  exists out, run_handler isalpha (ce_kind (ent d)) ([c_bs] ++ name ++ r) {| m_start := 0; m_end := S (length name); m_caps := [] |} false = (out, S (length name) + n) /\
    (arity d = 0 -> out = mc_body d) /\ (arity d <> 0 -> length args = arity d /\ substituted isalpha (mc_body d) args out).
Proof.
  intros d name r args n En C Hl Hz. unfold call_args in C. cbn [ce_kind ent run_handler get_definition]. destruct (arity d) as [|k] eqn:Ek.
  - destruct C as [-> ->]. exists (mc_body d). cbn [m_end]. rewrite Nat.add_0_r. split; [reflexivity|]. split; [reflexivity|congruence].
  - destruct C as (os & p & reqs & q & G1 & L1 & S1 & G2 & L2 & S2 & Ea & En2). cbn [m_end].
    assert (Et : skipn (S (length name)) ([c_bs] ++ name ++ r) = r) by (cbn [skipn List.app]; rewrite skipn_app, skipn_all, Nat.sub_diag; reflexivity).
    assert (Ld : length (default_values d) = length (mc_defaults d)) by (unfold default_values; apply map_length).
    set (A := substitute_args isalpha (mc_body d) (map Some args) false). exists A.
    assert (O : match length (default_values d) with 0 => (default_values d, S (length name)) | S _ => let '(blocks, e) := extract_nested_content_sequence_blocks (skipn (S (length name)) ([c_bs] ++ name ++ r)) c_lk c_rk (Some (length (default_values d))) in (overwrite blocks (default_values d), e + S (length name)) end = (os ++ skipn (length os) (default_values d), p + S (length name))).
    { rewrite Et. destruct (length (default_values d)) as [|k'] eqn:E0.
      - rewrite <- Ld in L1. destruct os as [|? ?]; [|cbn in L1; lia]. inversion G1; subst. reflexivity.
      - rewrite (blocks_max c_lk c_rk r os p (S k') delims_square G1) by (rewrite ?Ld; try exact L1; intros; apply S1; lia).
        rewrite overwrite_app by lia. reflexivity. }
    change (match length (default_values d) with 0 => _ | S _ => _ end) with (match length (default_values d) with 0 => (default_values d, S (length name)) | S _ => let '(blocks, e) := extract_nested_content_sequence_blocks (skipn (S (length name)) ([c_bs] ++ name ++ r)) c_lk c_rk (Some (length (default_values d))) in (overwrite blocks (default_values d), e + S (length name)) end).
    rewrite O. clear O. cbv beta iota.
    assert (Ep : skipn (p + S (length name)) ([c_bs] ++ name ++ r) = skipn p r) by (rewrite Nat.add_comm, <- skipn_add, Et; reflexivity).
    set (dv := os ++ skipn (length os) (default_values d)) in *. assert (Ldv : length dv = length (mc_defaults d)) by (unfold dv; rewrite app_length, skipn_length; lia).
    assert (R : match S k - length (default_values d) with 0 => (dv, p + S (length name)) | S _ => let '(blocks, e2) := extract_nested_content_sequence_blocks (skipn (p + S (length name)) ([c_bs] ++ name ++ r)) c_lb c_rb (Some (S k - length (default_values d))) in (dv ++ blocks, e2 + (p + S (length name))) end = (dv ++ reqs, q + (p + S (length name)))).
    { rewrite Ep, Ld. destruct (S k - length (mc_defaults d)) as [|k'] eqn:E0.
      - destruct reqs as [|? ?]; [|cbn in L2; lia]. inversion G2; subst. rewrite app_nil_r. reflexivity.
      - rewrite (blocks_max c_lb c_rb (skipn p r) reqs q (S k') delims_curly G2 L2); [reflexivity|]. intros X b j. rewrite skipn_add. apply S2. exact X. }
    change (match S k - length (default_values d) with 0 => _ | S _ => _ end) with (match S k - length (default_values d) with 0 => (dv, p + S (length name)) | S _ => let '(blocks, e2) := extract_nested_content_sequence_blocks (skipn (p + S (length name)) ([c_bs] ++ name ++ r)) c_lb c_rb (Some (S k - length (default_values d))) in (dv ++ blocks, e2 + (p + S (length name))) end).
    rewrite R. clear R. cbv beta iota.
    assert (La : length args = S k) by (rewrite Ea, !app_length, repeat_length, skipn_length; lia).
    split.
    + f_equal; [|lia]. unfold A. do 2 f_equal. rewrite Ea. unfold dv. rewrite <- !app_assoc. do 3 f_equal. f_equal. rewrite !app_length, skipn_length. lia.
    + split; [discriminate|]. intros _. split; [exact La|]. apply subst_ok; [intros ->; discriminate La|exact Hz].
Qed.

Theorem macro_call : forall h st name r, history h st -> word name -> word_end r ->
  match latest name h with
  | None => handle_command isalpha st ([c_bs] ++ name ++ r) = None
  | Some d =>
      if math_only d then handle_command isalpha st ([c_bs] ++ name ++ r) = None
      else forall args n, call_args d r args n -> (forall ps, reads_as (mc_body d) ps -> no_zero ps) ->
        exists out, (arity d = 0 -> out = mc_body d) /\ (arity d <> 0 -> length args = arity d /\ substituted isalpha (mc_body d) args out) /\
          (out <> [c_bs] ++ name -> handle_command isalpha st ([c_bs] ++ name ++ r) = Some (out, S (length name) + n)) /\
          (out = [c_bs] ++ name -> handle_command isalpha st ([c_bs] ++ name ++ r) = Some ([], S (length name)))
  end.
Proof.
  intros h st name r H W Hr. destruct (history_inv h st H) as (L & N & P & G & F). unfold handle_command, all_commands. rewrite L. cbn [fold_left].
  pose proof (handle_word (c_cmds st) name r N P W Hr) as HW. cbv zeta in HW. rewrite HW, G. destruct (latest name h) as [d|] eqn:El; [|reflexivity]. cbn [option_map].
  change (ce_math (ent d)) with (math_only d). destruct (math_only d); [reflexivity|]. intros args n C Hz.
  assert (D : mc_name d = name /\ In d h). { clear -El. induction h as [|d' h IH]; [discriminate El|]. cbn [latest] in El. destruct (str_eqb (mc_name d') name) eqn:E; [injection El as <-; apply str_eqb_spec in E; split; [exact E|left; reflexivity]|]. destruct (IH El) as [? ?]. split; [assumption|right; assumption]. }
  destruct D as [En Hin]. rewrite Forall_forall in F. specialize (F d Hin). destruct F as [(_ & _ & _ & _ & _ & _ & _ & Hlen) _].
  destruct (run_call d name r args n En C Hlen Hz) as (out & R & R0 & R1). exists out. split; [exact R0|]. split; [exact R1|]. rewrite R.
  destruct (str_eqb ([c_bs] ++ name) out) eqn:E.
  - apply str_eqb_spec in E. split; [congruence|reflexivity].
  - split; [reflexivity|]. intros ->. rewrite str_eqb_refl in E. discriminate E.
Qed.
End Reg.
