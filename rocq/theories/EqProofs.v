(** Equations: which text is the equation. *)
From Coq Require Import List NArith PeanoNat Lia Bool String Permutation.
From Verif Require Import PyStr Regex RegexLemmas RegexLocal RegexHead TexUtilsModel DelimSpec DelimProofs DelimProofs2 DelimFinal KeyvalProofs2
  EnvModel EnvProofs EnvHandlerModel EnvHandlerProofs EqModel EqSpec.
Import ListNotations.
Notation length := List.length.
Notation concat := List.concat.
Open Scope list_scope.

(** * lazy runs *)
Lemma lazy_go : forall p t fuel i c, length t - i < fuel ->
  star_run (rm (RChr p) t) false fuel i c = map (fun k => (i + k, c)) (seq 0 (S (runlen p (skipn i t)))).
Proof.
  intros p t fuel. induction fuel as [|f IH]; intros i c H; [lia|]. cbn [star_run rm].
  unfold next_is. rewrite nth_error_skipn. destruct (skipn i t) as [|x r] eqn:E.
  - cbn. rewrite Nat.add_0_r. reflexivity.
  - cbn [runlen]. destruct (p x) eqn:P; [|cbn; rewrite Nat.add_0_r; reflexivity].
    cbn [flat_map fst snd]. replace (Nat.ltb i (S i)) with true by (symmetry; apply Nat.ltb_lt; lia). rewrite app_nil_r.
    assert (L : i < length t) by (eapply skipn_cons_lt; exact E). rewrite IH by lia. rewrite (skipn_more1 _ _ _ _ E).
    change (seq 0 (S (S (runlen p r)))) with (0 :: seq 1 (S (runlen p r))). rewrite <- (seq_shift (S (runlen p r)) 0). cbn [map]. rewrite map_map, Nat.add_0_r. f_equal.
    apply map_ext. intros k. f_equal. lia.
Qed.
Lemma rm_lazy_chr : forall p t i c, rm (rlazy (RChr p)) t i c = map (fun k => (i + k, c)) (seq 0 (S (runlen p (skipn i t)))).
Proof. intros p t i c. cbn [rm rlazy]. apply lazy_go. lia. Qed.

Lemma flat_map_nil : forall A B (f : A -> list B) l, (forall x, In x l -> f x = []) -> flat_map f l = [].
Proof. intros A B f l H. induction l as [|x l IH]; [reflexivity|]. cbn [flat_map]. rewrite (H x) by (left; reflexivity). apply IH. intros y Hy. apply H. right. exact Hy. Qed.
(** the lazy group stops at the first place where the rest matches *)
Lemma fm_lazy_first : forall n p r (v : str) (t : str) i c j c2 rest, skipn i t = v ++ rest -> forallb p v = true ->
  (forall k c', k < length v -> rm r t (i + k) c' = []) ->
  first_match r t (i + length v) ((n, (i, i + length v)) :: c) j c2 ->
  first_match (RSeq (RGrp n (rlazy (RChr p))) r) t i c j c2.
Proof.
  intros n p r v t i c j c2 rest E Hp Hn (l & Hf). unfold first_match. cbn [rm].
  change (star_run (fun (i0 : nat) (c0 : caps) => if next_is p t i0 then [(S i0, c0)] else []) false (S (length t - i)) i c) with (rm (rlazy (RChr p)) t i c).
  rewrite rm_lazy_chr. rewrite map_map, flat_map_map. cbn [fst snd].
  assert (L : length v <= runlen p (skipn i t)).
  { rewrite E. clear -Hp. induction v as [|x v IH]; [cbn; lia|]. cbn [forallb] in Hp. apply andb_prop in Hp as [P Hp]. cbn [List.app runlen List.length]. rewrite P. specialize (IH Hp). lia. }
  replace (S (runlen p (skipn i t))) with (length v + S (runlen p (skipn i t) - length v)) by lia. rewrite seq_app, flat_map_app.
  assert (Z : flat_map (fun x => rm r t (i + x) ((n, (i, i + x)) :: c)) (seq 0 (length v)) = []).
  { apply flat_map_nil. intros k Hk. apply in_seq in Hk. apply Hn. lia. }
  rewrite Z. cbn [List.app seq flat_map plus]. rewrite Hf. eexists. reflexivity.
Qed.

Lemma rm_none_rel : forall r t i c, i <= length t -> (forall j, ~ rel r t i j) -> rm r t i c = [].
Proof.
  intros r t i c L H. destruct (rm r t i c) as [|[j c'] l] eqn:E; [reflexivity|]. exfalso. apply (H j).
  apply (rm_sound r t i c j c' L). rewrite E. left. reflexivity.
Qed.
Lemma match_none_rel : forall r t, (forall j, ~ rel r t 0 j) -> re_match_at r t 0 = None.
Proof. intros r t H. unfold re_match_at. rewrite (rm_none_rel r t 0 [] ltac:(lia) H). reflexivity. Qed.

Definition mark_re (cmd name : str) : re :=
  RSeq (rstr cmd) (RSeq (rstar rspace) (RSeq (is_ch c_lb) (RSeq (rstr name) (RSeq (ropt (is_ch 42%N)) (is_ch c_rb))))).
Lemma fm_mark : forall cmd name t i c ws st rest, blank ws -> skipn i t = env_mark cmd ws name st ++ rest ->
  first_match (mark_re cmd name) t i c (i + length (env_mark cmd ws name st)) c.
Proof.
  intros cmd name t i c ws st rest W E. unfold env_mark in E. rewrite <- !app_assoc in E. unfold mark_re.
  eapply fm_seq; [eapply fm_rstr; exact E|]. apply skipn_more in E.
  eapply fm_seq; [eapply (fm_star isspace _ _ _ ws); [exact E|exact W|reflexivity]|]. apply skipn_more in E.
  eapply fm_seq; [eapply fm_is_ch; exact E|]. apply skipn_more1 in E.
  eapply fm_seq; [eapply fm_rstr; exact E|]. apply skipn_more in E.
  set (i4 := S (i + length cmd + length ws) + length name) in *.
  eapply (fm_seq _ _ _ _ _ (i4 + length (star_text st))).
  { unfold ropt. destruct st; cbn [star_text List.length].
    - apply fm_alt_left. rewrite Nat.add_1_r. eapply fm_is_ch. exact E.
    - apply fm_alt_right; [apply rm_chr_none; cbn [star_text List.app] in E; rewrite E; reflexivity|rewrite Nat.add_0_r; apply fm_eps]. }
  apply skipn_more in E.
  replace (i + length (env_mark cmd ws name st)) with (S (i4 + length (star_text st))) by (unfold env_mark, i4; rewrite !app_length; cbn [List.length]; lia).
  eapply fm_is_ch. exact E.
Qed.
Lemma rel_mark : forall cmd name t i j, rel (mark_re cmd name) t i j -> exists ws st r, blank ws /\ skipn i t = env_mark cmd ws name st ++ r /\ j = i + length (env_mark cmd ws name st).
Proof.
  intros cmd name t i j H. unfold mark_re in H.
  apply rel_rseq2 in H as (j1 & H1 & H). apply rel_rstr in H1 as (-> & r1 & E1). pose proof (skipn_more _ _ _ _ E1) as F1.
  apply rel_rseq2 in H as (j2 & H2 & H). apply rel_star_chr in H2 as (ws & r2 & E2 & W & ->). pose proof (skipn_more _ _ _ _ E2) as F2. rewrite F1 in E2. subst r1.
  apply rel_rseq2 in H as (j3 & H3 & H). apply rel_is_ch in H3 as (-> & r3 & E3). pose proof (skipn_more1 _ _ _ _ E3) as F3. rewrite F2 in E3. subst r2.
  apply rel_rseq2 in H as (j4 & H4 & H). apply rel_rstr in H4 as (-> & r4 & E4). pose proof (skipn_more _ _ _ _ E4) as F4. rewrite F3 in E4. subst r3.
  apply rel_rseq2 in H as (j5 & H5 & H). unfold ropt in H5. apply rel_alt2 in H5 as [H5|H5].
  - apply rel_is_ch in H5 as (-> & r5 & E5). pose proof (skipn_more1 _ _ _ _ E5) as F5. rewrite F4 in E5. subst r4.
    apply rel_is_ch in H as (-> & r6 & E6). rewrite F5 in E6. subst r5. exists ws, true, r6. split; [exact W|]. unfold env_mark, star_text.
    split; [rewrite E1, <- !app_assoc; reflexivity|rewrite !app_length; cbn [List.length]; lia].
  - apply (f_equal (fun x => x)) in F4. assert (Ej : j5 = S (i + length cmd + length ws) + length name) by (inversion H5; reflexivity). rewrite Ej in H. apply rel_is_ch in H as (-> & r6 & E6). rewrite F4 in E6. subst r4. exists ws, false, r6. split; [exact W|]. unfold env_mark, star_text.
    split; [rewrite E1, <- !app_assoc; reflexivity|rewrite !app_length; cbn [List.length]; lia].
Qed.

(** * at most one environment pattern matches *)
Definition plain_name (n : str) : Prop := ~ In 42%N n /\ ~ In c_rb n.
Lemma blank_cut : forall ws1 ws2 (r1 r2 : str), blank ws1 -> blank ws2 -> ws1 ++ c_lb :: r1 = ws2 ++ c_lb :: r2 -> ws1 = ws2 /\ r1 = r2.
Proof.
  unfold blank. induction ws1 as [|x ws1 IH]; intros [|y ws2] r1 r2 W1 W2 E; cbn [List.app forallb] in *.
  - injection E as ->. auto.
  - injection E as E0 _. apply andb_prop in W2 as [W _]. rewrite <- E0 in W. discriminate W.
  - injection E as E0 _. apply andb_prop in W1 as [W _]. rewrite E0 in W. discriminate W.
  - injection E as -> E. apply andb_prop in W1 as [_ W1]. apply andb_prop in W2 as [_ W2]. destruct (IH ws2 r1 r2 W1 W2 E) as [-> ->]. auto.
Qed.
Lemma name_cut : forall n1 n2 s1 s2 (r1 r2 : str), plain_name n1 -> plain_name n2 -> n1 ++ star_text s1 ++ c_rb :: r1 = n2 ++ star_text s2 ++ c_rb :: r2 -> n1 = n2 /\ s1 = s2 /\ r1 = r2.
Proof.
  induction n1 as [|x n1 IH]; intros [|y n2] s1 s2 r1 r2 [A1 B1] [A2 B2] E; cbn [List.app] in E.
  - destruct s1, s2; cbn in E; try discriminate E; injection E as E; auto.
  - exfalso. destruct s1; cbn in E; injection E as E1 _; subst y; [apply A2|apply B2]; left; reflexivity.
  - exfalso. destruct s2; cbn in E; injection E as E1 _; subst x; [apply A1|apply B1]; left; reflexivity.
  - injection E as -> E. destruct (IH n2 s1 s2 r1 r2) as (-> & -> & ->); auto.
    + split; intros I; [apply A1|apply B1]; right; exact I.
    + split; intros I; [apply A2|apply B2]; right; exact I.
Qed.
Lemma head_unique : forall n1 n2 t j1 j2, plain_name n1 -> plain_name n2 -> rel (eq_pattern (KEnv n1)) t 0 j1 -> rel (eq_pattern (KEnv n2)) t 0 j2 -> n1 = n2.
Proof.
  intros n1 n2 t j1 j2 P1 P2 H1 H2. cbn [eq_pattern] in H1, H2. apply rel_rseq2 in H1 as (k1 & H1 & _). apply rel_rseq2 in H2 as (k2 & H2 & _).
  apply rel_mark in H1 as (w1 & s1 & r1 & W1 & E1 & _). apply rel_mark in H2 as (w2 & s2 & r2 & W2 & E2 & _). cbn [skipn] in E1, E2. rewrite E1 in E2.
  unfold env_mark in E2. rewrite <- !app_assoc in E2. apply app_inv_head in E2. cbn [List.app] in E2. apply blank_cut in E2 as [_ E2]; try assumption.
  apply name_cut in E2 as (-> & _); auto.
Qed.

Lemma eq_match_env : forall order t n m, Forall plain_name order -> In n order -> re_match_at (eq_pattern (KEnv n)) t 0 = Some m ->
  forall raw, eq_match (map KEnv order ++ raw) t = Some (KEnv n, m).
Proof.
  intros order t n m F I M raw. induction order as [|x order IH]; [destruct I|]. cbn [map List.app eq_match].
  inversion F as [|? ? Px F']; subst. destruct (re_match_at (eq_pattern (KEnv x)) t 0) as [m'|] eqn:E.
  - assert (x = n) as ->.
    { destruct (re_match_at_some _ _ _ _ (Nat.le_0_l _) E) as (_ & R1 & _). destruct (re_match_at_some _ _ _ _ (Nat.le_0_l _) M) as (_ & R2 & _).
      eapply head_unique; [exact Px| |exact R1|exact R2]. rewrite Forall_forall in F. apply F. exact I. }
    rewrite E in M. injection M as ->. reflexivity.
  - destruct I as [->|I]; [congruence|]. apply IH; assumption.
Qed.
Lemma eq_match_noenv : forall order t raw, (forall n, In n order -> re_match_at (eq_pattern (KEnv n)) t 0 = None) -> eq_match (map KEnv order ++ raw) t = eq_match raw t.
Proof.
  intros order t raw H. induction order as [|x order IH]; [reflexivity|]. cbn [map List.app eq_match]. rewrite (H x) by (left; reflexivity). apply IH. intros n I. apply H. right. exact I.
Qed.
Lemma eq_match_order : forall o1 o2 t, Forall plain_name o1 -> Permutation o1 o2 -> eq_match (eq_kinds o1) t = eq_match (eq_kinds o2) t.
Proof.
  intros o1 o2 t F P. unfold eq_kinds.
  destruct (existsb (fun n => match re_match_at (eq_pattern (KEnv n)) t 0 with Some _ => true | None => false end) o1) eqn:E.
  - apply existsb_exists in E as (n & I & M). destruct (re_match_at (eq_pattern (KEnv n)) t 0) as [m|] eqn:R; [|discriminate].
    rewrite (eq_match_env o1 t n m F I R). symmetry. apply eq_match_env; [|eapply Permutation_in; [exact P|exact I]|exact R].
    apply Forall_forall. intros x Hx. rewrite Forall_forall in F. apply F. eapply Permutation_in; [apply Permutation_sym; exact P|exact Hx].
  - assert (N : forall n, In n o1 -> re_match_at (eq_pattern (KEnv n)) t 0 = None).
    { intros n I. destruct (re_match_at (eq_pattern (KEnv n)) t 0) eqn:R; [|reflexivity]. exfalso. rewrite <- not_true_iff_false in E. apply E. apply existsb_exists. exists n. rewrite R. auto. }
    rewrite !eq_match_noenv; [reflexivity| |exact N]. intros n I. apply N. eapply Permutation_in; [apply Permutation_sym; exact P|exact I].
Qed.
Lemma names_plain : Forall plain_name EQUATION_ENV.
Proof. repeat constructor; vm_compute; intuition discriminate. Qed.

(** * the extent *)
Lemma slice_mid : forall (a b c : str) i, i = length a -> slice i (i + length b) (a ++ b ++ c) = b.
Proof. intros a b c i ->. unfold slice. rewrite skipn_app_exact by reflexivity. rewrite Nat.add_comm, Nat.add_sub, firstn_app_exact by reflexivity. reflexivity. Qed.
Lemma any_all : forall s : str, forallb (fun _ => true) s = true.
Proof. induction s; [reflexivity|exact IHs]. Qed.
Lemma skipn_mid : forall (a b : str) i, i = length a -> skipn i (a ++ b) = b.
Proof. intros a b i ->. apply skipn_app_exact. reflexivity. Qed.

Lemma delim_match : forall d1 d2 p body rest, forallb p body = true -> first_in (prefix d2) body (d2 ++ rest) ->
  re_match_at (RSeq (rstr d1) (RSeq (RGrp 1 (rlazy (RChr p))) (rstr d2))) (d1 ++ body ++ d2 ++ rest) 0 =
    Some {| m_start := 0; m_end := length d1 + length body + length d2; m_caps := [(1, (length d1, length d1 + length body))] |}.
Proof.
  intros d1 d2 p body rest Hp Hf. set (t := d1 ++ body ++ d2 ++ rest). apply fm_match.
  eapply fm_seq; [apply (fm_rstr d1 t 0 [] (body ++ d2 ++ rest)); reflexivity|]. cbn [plus].
  assert (E : skipn (length d1) t = body ++ d2 ++ rest) by (apply skipn_mid; reflexivity).
  eapply fm_lazy_first; [exact E|exact Hp| |].
  - intros k c' Hk. rewrite rm_rstr. destruct (startswith (skipn (length d1 + k) t) d2) eqn:S; [|reflexivity]. exfalso. apply (Hf k Hk).
    apply startswith_iff in S. rewrite <- skipn_add, E in S. exact S.
  - eapply fm_rstr. apply skipn_more. exact E.
Qed.

Lemma no_env_match : forall n t, (forall r, t <> lit "\begin" ++ r) -> re_match_at (eq_pattern (KEnv n)) t 0 = None.
Proof.
  intros n t H. apply match_none_rel. intros j R. cbn [eq_pattern] in R. apply rel_rseq2 in R as (k & R & _). apply rel_mark in R as (ws & st & r & _ & E & _).
  cbn [skipn] in E. unfold env_mark in E. rewrite <- app_assoc in E. exact (H _ E).
Qed.

Lemma source_match : forall order k text body e nb, Forall plain_name order -> eq_source order k text body e nb ->
  exists i, eq_match (eq_kinds order) text = Some (k, {| m_start := 0; m_end := e; m_caps := [(1, (i, i + length body))] |}) /\
    slice i (i + length body) text = body /\ e <= length text /\
    (forall n, k = KEnv n -> exists a st, firstn e text = c_bs :: a ++ star_text st ++ [c_rb] /\ nb = negb st /\ (forall b, a <> b ++ [42%N])).
Proof.
  intros order k text body e nb F S. destruct S as [name ws1 st1 body ws2 st2 rest I W1 W2 Hf|body rest Hf|body rest Hb Hn|body rest Hf|body rest Hn Hf].
  - set (h := env_mark (lit "\begin") ws1 name st1). set (u := env_mark (lit "\end") ws2 name st2). fold u in Hf.
    set (t := h ++ body ++ u ++ rest). exists (length h).
    assert (E : skipn (length h) t = body ++ u ++ rest) by (apply skipn_mid; reflexivity).
    assert (M : re_match_at (eq_pattern (KEnv name)) t 0 = Some {| m_start := 0; m_end := length (h ++ body ++ u); m_caps := [(1, (length h, length h + length body))] |}).
    { apply fm_match. cbn [eq_pattern]. eapply fm_seq; [apply (fm_mark (lit "\begin") name t 0 [] ws1 st1 (body ++ u ++ rest)); [exact W1|reflexivity]|]. fold h. cbn [plus].
      eapply fm_lazy_first; [exact E|apply any_all| |].
      - intros q c' Hq. apply rm_none_rel; [unfold t; rewrite !app_length; lia|]. intros j R. apply rel_mark in R as (ws & st & r & W & Er & _).
        apply (Hf q Hq). exists ws, st, r. split; [exact W|]. rewrite <- skipn_add, E in Er. exact Er.
      - replace (length (h ++ body ++ u)) with (length h + length body + length u) by (rewrite !app_length; lia). eapply fm_mark; [exact W2|]. apply skipn_more. exact E. }
    split; [apply eq_match_env; assumption|]. split; [apply slice_mid; reflexivity|]. split; [unfold t; rewrite !app_length; lia|].
    intros n _. exists (lit "begin" ++ ws1 ++ [c_lb] ++ name ++ star_text st1 ++ [c_rb] ++ body ++ lit "\end" ++ ws2 ++ [c_lb] ++ name), st2. split; [|split; [reflexivity|]].
    + replace t with ((h ++ body ++ u) ++ rest) by (unfold t; rewrite <- !app_assoc; reflexivity). rewrite firstn_app_exact by reflexivity. unfold h, u, env_mark. rewrite <- !app_assoc. reflexivity.
    + intros b Hb. rewrite Forall_forall in F. destruct (F _ I) as [Fs _].
      destruct name as [|x nm] using rev_ind.
      * rewrite app_nil_r in Hb. rewrite !app_assoc in Hb. apply app_inj_tail in Hb as [_ Hb]. discriminate Hb.
      * clear IHnm. rewrite !app_assoc in Hb. apply app_inj_tail in Hb as [_ ->]. apply Fs. apply in_app_iff. right. left. reflexivity.
  - exists 2. unfold eq_kinds. rewrite eq_match_noenv by (intros n _; apply no_env_match; intros r; discriminate).
    cbn [eq_match RAW_KINDS eq_pattern]. unfold rany. rewrite (delim_match (lit "$$") (lit "$$") (fun _ => true) body rest (any_all body) Hf).
    split; [f_equal; f_equal; f_equal; change (length (lit "$$")) with 2; lia|]. split; [apply (slice_mid (lit "$$")); reflexivity|]. split; [rewrite !app_length; cbn; lia|discriminate].
  - exists 1. unfold eq_kinds. rewrite eq_match_noenv by (intros n _; apply no_env_match; intros r; discriminate).
    assert (N1 : re_match_at (eq_pattern KDisplayDollar) (lit "$" ++ body ++ lit "$" ++ rest) 0 = None).
    { apply match_none_rel. intros j R. cbn [eq_pattern] in R. apply rel_rseq2 in R as (q & R & _). apply rel_rstr in R as (_ & r & E). cbn [skipn] in E.
      destruct body as [|x body]; [congruence|]. cbn in E. injection E as -> _. apply Hn. left. reflexivity. }
    assert (M : re_match_at (eq_pattern KInlineDollar) (lit "$" ++ body ++ lit "$" ++ rest) 0 = Some {| m_start := 0; m_end := length body + 2; m_caps := [(1, (1, 1 + length body))] |}).
    { apply fm_match. cbn [eq_pattern]. set (t := lit "$" ++ body ++ lit "$" ++ rest).
      eapply fm_seq; [apply (fm_rstr (lit "$") t 0 [] (body ++ lit "$" ++ rest)); reflexivity|].
      assert (E : skipn 1 t = body ++ lit "$" ++ rest) by reflexivity.
      eapply fm_seq; [apply fm_grp; eapply (fm_star _ _ _ _ body); [exact E| |reflexivity]|].
      - apply forallb_forall. intros x Hx. destruct (N.eqb x c_dollar) eqn:Q; [apply N.eqb_eq in Q; subst; contradiction|reflexivity].
      - change (0 + length (lit "$")) with 1. replace (length body + 2) with (1 + length body + length (lit "$")) by (cbn; lia). eapply fm_rstr. apply skipn_more. exact E. }
    cbn [eq_match RAW_KINDS]. rewrite N1, M. split; [reflexivity|]. split; [apply (slice_mid (lit "$")); reflexivity|]. split; [rewrite !app_length; cbn; lia|discriminate].
  - exists 2. unfold eq_kinds. rewrite eq_match_noenv by (intros n _; apply no_env_match; intros r; discriminate).
    assert (N1 : re_match_at (eq_pattern KDisplayDollar) (lit "\[" ++ body ++ lit "\]" ++ rest) 0 = None) by reflexivity.
    assert (N2 : re_match_at (eq_pattern KInlineDollar) (lit "\[" ++ body ++ lit "\]" ++ rest) 0 = None) by reflexivity.
    cbn [eq_match RAW_KINDS]. rewrite N1, N2. cbn [eq_pattern]. unfold rany. rewrite (delim_match (lit "\[") (lit "\]") (fun _ => true) body rest (any_all body) Hf).
    split; [f_equal; f_equal; f_equal; change (length (lit "\[")) with 2; change (length (lit "\]")) with 2; lia|]. split; [apply (slice_mid (lit "\[")); reflexivity|]. split; [rewrite !app_length; cbn; lia|discriminate].
  - exists 2. unfold eq_kinds. rewrite eq_match_noenv by (intros n _; apply no_env_match; intros r; discriminate).
    assert (N1 : re_match_at (eq_pattern KDisplayDollar) (lit "\(" ++ body ++ lit "\)" ++ rest) 0 = None) by reflexivity.
    assert (N2 : re_match_at (eq_pattern KInlineDollar) (lit "\(" ++ body ++ lit "\)" ++ rest) 0 = None) by reflexivity.
    assert (N3 : re_match_at (eq_pattern KDisplayBracket) (lit "\(" ++ body ++ lit "\)" ++ rest) 0 = None) by reflexivity.
    cbn [eq_match RAW_KINDS]. rewrite N1, N2, N3. cbn [eq_pattern]. unfold rdot.
    rewrite (delim_match (lit "\(") (lit "\)") (fun x => negb (N.eqb x c_nl)) body rest).
    + split; [f_equal; f_equal; f_equal; change (length (lit "\(")) with 2; change (length (lit "\)")) with 2; lia|]. split; [apply (slice_mid (lit "\(")); reflexivity|]. split; [rewrite !app_length; cbn; lia|discriminate].
    + apply forallb_forall. intros x Hx. destruct (N.eqb x c_nl) eqn:Q; [apply N.eqb_eq in Q; subst; contradiction|reflexivity].
    + exact Hf.
Qed.
