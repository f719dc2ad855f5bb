(** List items: skipping environments, the handler. *)
From Coq Require Import List NArith PeanoNat Compare_dec Lia Bool String.
From Verif Require Import PyStr Regex RegexLemmas RegexLocal RegexHead TexUtilsModel DelimSpec DelimProofs DelimFinal KeyvalProofs2
  EnvModel EnvSpec EnvProofs EnvHandlerModel EnvHandlerProofs EnvHandlerCases EqModel EqSpec EqProofs EqProofs3 ItemModel ItemSpec ItemProofs.
Import ListNotations.
Notation length := List.length.
Open Scope list_scope.

Section Item.
Variable w : ch -> bool.
Hypothesis Wm : w 109%N = true.
Hypothesis Wp : w 112%N = true.

(** * openings *)
Lemma pair_same : forall t n, pair_name_try w t n = None -> pair_try w t n = None.
Proof.
  intros t n. induction n as [|n IH]; [reflexivity|]. cbn [pair_name_try pair_try]. destruct (if xorb _ _ then _ else _); [discriminate|exact IH].
Qed.
Lemma no_pair_match : forall s, plain_ends w s -> pair_match w s = None.
Proof.
  intros [|x s] P; [reflexivity|]. cbn [pair_match]. destruct (N.eqb x c_bs) eqn:E; [|reflexivity]. apply N.eqb_eq in E. subst x.
  apply pair_same. apply no_pair_try; [exact P|lia].
Qed.
Lemma plain_skip : forall n s, plain_ends w s -> plain_ends w (skipn n s).
Proof. induction n as [|n IH]; intros [|x s] P; try exact P. cbn [skipn]. apply IH. eapply plain_ends_tl. exact P. Qed.

Lemma begin_some : forall s, begin_here s -> exists m, re_match_at BEGIN_PATTERN s 0 = Some m.
Proof. intros s (ws & name & r & W & N & E). eexists. eapply begin_match; eassumption. Qed.
Lemma begin_read : forall s j, rel BEGIN_PATTERN s 0 j -> begin_here s.
Proof.
  intros s j R. unfold BEGIN_PATTERN, NAME_BRACE in R.
  apply rel_rseq2 in R as (k1 & R1 & R). apply rel_rstr in R1 as (-> & r1 & E1). cbn [skipn] in E1.
  apply rel_rseq2 in R as (k2 & R2 & R). apply rel_star_chr in R2 as (ws & r2 & E2 & W & ->).
  apply rel_rseq2 in R as (k3 & R3 & R). apply rel_is_ch in R3 as (-> & r3 & E3).
  apply rel_rseq2 in R as (k4 & R4 & R5). apply rel_grp1 in R4. apply rel_star_chr in R4 as (name & r4 & E4 & N & ->). apply rel_is_ch in R5 as (_ & r5 & E5).
  exists ws, name, r5. 
  assert (E2' : r1 = ws ++ r2) by (rewrite <- E2, E1; reflexivity).
  assert (X3 : r2 = c_lb :: r3) by (rewrite <- E3; symmetry; apply skipn_more; exact E2).
  assert (X4 : r3 = name ++ r4) by (rewrite <- E4; symmetry; eapply skipn_more1; exact E3).
  assert (X5 : r4 = c_rb :: r5) by (rewrite <- E5; symmetry; apply skipn_more; exact E4).
  split; [exact W|]. split; [|rewrite E1, E2', X3, X4, X5; reflexivity].
  intros I. rewrite forallb_forall in N. specialize (N _ I). discriminate N.
Qed.
Lemma begin_none : forall s, ~ begin_here s -> re_match_at BEGIN_PATTERN s 0 = None.
Proof. intros s H. apply match_none_rel. intros j R. apply H. eapply begin_read. exact R. Qed.
Lemma begin_dec : forall s, {begin_here s} + {~ begin_here s}.
Proof.
  intros s. destruct (re_match_at BEGIN_PATTERN s 0) as [m|] eqn:M.
  - left. destruct (re_match_at_some _ _ _ _ (Nat.le_0_l _) M) as (_ & R & _). eapply begin_read. exact R.
  - right. intros H. apply begin_some in H as (m & H). congruence.
Qed.
Lemma group_some : forall t i, group_here w (skipn i t) -> exists m, re_match_at (BEGIN_GROUP_PATTERN w) t i = Some m /\ m_start m = i.
Proof.
  intros t i (short & r & E & B).
  assert (Z : exists j, first_match (BEGIN_GROUP_PATTERN w) t i [] j []).
  { assert (F : forall k, skipn k t = r -> (exists k', k = S k' /\ skipn k' t = 112%N :: r) -> first_match (RBound w) t k [] k []).
    { intros k Ek (k' & -> & Ek'). exists []. cbn [rm prev_is]. unfold next_is. rewrite !nth_error_skipn, Ek, Ek', Wp. destruct r; [reflexivity|]. cbn [starts_with] in B. rewrite B. reflexivity. }
    unfold BEGIN_GROUP_PATTERN, rseq. destruct short; cbn [group_word] in E.
    - exists (i + 7). eapply fm_seq; [eapply fm_is_ch; exact E|]. apply skipn_more1 in E.
      eapply fm_seq; [apply fm_alt_right; [rewrite rm_rstr, E; reflexivity|eapply (fm_rstr (lit "b")); exact E]|]. apply (skipn_more _ _ (lit "b")) in E.
      eapply fm_seq; [eapply (fm_rstr (lit "group")); exact E|]. replace (i + 7) with (S i + length (lit "b") + length (lit "group")) by (cbn; lia). apply F.
      + apply (skipn_more _ _ (lit "group")). exact E.
      + exists (S i + 1 + 4). split; [cbn; lia|]. change (length (lit "b")) with 1 in E. rewrite <- skipn_add, E. reflexivity.
    - exists (i + 11). eapply fm_seq; [eapply fm_is_ch; exact E|]. apply skipn_more1 in E.
      eapply fm_seq; [apply fm_alt_left; eapply (fm_rstr (lit "begin")); exact E|]. apply (skipn_more _ _ (lit "begin")) in E.
      eapply fm_seq; [eapply (fm_rstr (lit "group")); exact E|]. replace (i + 11) with (S i + length (lit "begin") + length (lit "group")) by (cbn; lia). apply F.
      + apply (skipn_more _ _ (lit "group")). exact E.
      + exists (S i + 5 + 4). split; [cbn; lia|]. change (length (lit "begin")) with 5 in E. rewrite <- skipn_add, E. reflexivity. }
  destruct Z as (j & F). eexists. split; [apply fm_match; exact F|reflexivity].
Qed.
Lemma bound_inv : forall t i j, rel (RBound w) t i j -> xorb (prev_is w t i) (next_is w t i) = true.
Proof. intros t i j R. inversion R. assumption. Qed.
Lemma group_read : forall t i j, rel (BEGIN_GROUP_PATTERN w) t i j -> group_here w (skipn i t).
Proof.
  intros t i j R. unfold BEGIN_GROUP_PATTERN, rseq in R.
  apply rel_rseq2 in R as (k1 & R1 & R). apply rel_is_ch in R1 as (-> & r1 & E1). apply rel_rseq2 in R as (k2 & R2 & R). apply rel_rseq2 in R as (k3 & R3 & R4).
  apply rel_rstr in R3 as (-> & r3 & E3). apply bound_inv in R4. cbn [length lit] in R4.
  assert (P : prev_is w t (k2 + length (lit "group")) = true).
  { change (length (lit "group")) with 5. rewrite Nat.add_comm. cbn [plus prev_is]. rewrite nth_error_skipn. replace (S (S (S (S k2)))) with (k2 + 4) by lia. rewrite <- skipn_add, E3. exact Wp. }
  assert (Q : next_is w t (k2 + length (lit "group")) = starts_with w r3).
  { unfold next_is. rewrite nth_error_skipn. rewrite (skipn_more _ _ _ _ E3). destruct r3; reflexivity. }
  change (xorb (prev_is w t (k2 + length (lit "group"))) (next_is w t (k2 + length (lit "group"))) = true) in R4. rewrite P, Q in R4.
  assert (B : starts_with w r3 = false) by (destruct (starts_with w r3); [discriminate R4|reflexivity]).
  assert (X1 : skipn (S i) t = r1) by (eapply skipn_more1; exact E1).
  apply rel_alt2 in R2 as [R2|R2]; apply rel_rstr in R2 as (-> & r2 & E2); pose proof (skipn_more _ _ _ _ E2) as X2; rewrite X2 in E3; subst r2; rewrite X1 in E2; subst r1.
  - exists false, r3. split; [exact E1|exact B].
  - exists true, r3. split; [exact E1|exact B].
Qed.
Lemma group_none : forall t i, i <= length t -> ~ group_here w (skipn i t) -> re_match_at (BEGIN_GROUP_PATTERN w) t i = None.
Proof. intros t i L H. apply (re_match_at_none _ _ _ L). intros j R. apply H. eapply group_read. exact R. Qed.
Lemma group_dec : forall s, {group_here w s} + {~ group_here w s}.
Proof.
  intros s. destruct (re_match_at (BEGIN_GROUP_PATTERN w) s 0) as [m|] eqn:M.
  - left. destruct (re_match_at_some _ _ _ _ (Nat.le_0_l _) M) as (_ & R & _). apply group_read in R. exact R.
  - right. intros H. destruct (group_some s 0 H) as (m & H' & _). congruence.
Qed.
Lemma group_lt : forall t i, group_here w (skipn i t) -> i < length t.
Proof. intros t i (short & r & E & _). destruct short; eapply skipn_cons_lt; exact E. Qed.

Lemma env_search_some : forall s t, plain_ends w t -> begin_here (skipn s t) -> (forall i, i < s -> ~ begin_here (skipn i t)) -> env_search w t = Some s.
Proof.
  induction s as [|s IH]; intros t P H N.
  - apply begin_some in H as (m & M). cbn [skipn] in M. destruct t; cbn [env_search]; rewrite M; reflexivity.
  - pose proof (N 0 ltac:(lia)) as N0. cbn [skipn] in N0. destruct t as [|x t]; [cbn [skipn] in H; exfalso; exact (N0 H)|].
    cbn [env_search]. rewrite (begin_none _ N0), (no_pair_match _ P). rewrite (IH t); [reflexivity|eapply plain_ends_tl; exact P|exact H|].
    intros i Hi. apply (N (S i)). lia.
Qed.
Lemma env_search_none : forall t, plain_ends w t -> (forall i, ~ begin_here (skipn i t)) -> env_search w t = None.
Proof.
  induction t as [|x t IH]; intros P N.
  - cbn [env_search]. pose proof (N 0) as N0. cbn [skipn] in N0. rewrite (begin_none _ N0). reflexivity.
  - pose proof (N 0) as N0. cbn [skipn] in N0. cbn [env_search]. rewrite (begin_none _ N0), (no_pair_match _ P). rewrite IH; [reflexivity|eapply plain_ends_tl; exact P|]. intros i. apply (N (S i)).
Qed.
Lemma group_search_some : forall t p, group_here w (skipn p t) -> (forall i, i < p -> ~ group_here w (skipn i t)) -> exists m, re_search (BEGIN_GROUP_PATTERN w) t = Some m /\ m_start m = p.
Proof.
  intros t p H N. destruct (group_some t p H) as (m & M & S). exists m. split; [|exact S]. apply group_lt in H. unfold re_search. eapply search_first; [| | |exact M]; [lia|lia|].
  intros k _ Hk. apply group_none; [lia|]. apply N. exact Hk.
Qed.
Lemma group_search_none : forall t, (forall i, ~ group_here w (skipn i t)) -> re_search (BEGIN_GROUP_PATTERN w) t = None.
Proof. intros t H. apply search_no. intros k Hk. apply group_none; [lia|]. apply H. Qed.
Lemma least : forall (P : str -> Prop), (forall s, {P s} + {~ P s}) -> ~ P [] -> forall t, (exists p, P (skipn p t) /\ forall i, i < p -> ~ P (skipn i t)) \/ (forall i, ~ P (skipn i t)).
Proof.
  intros P D P0 t. induction t as [|x t IH].
  - right. intros [|i]; exact P0.
  - destruct (D (x :: t)) as [H|H]; [left; exists 0; split; [exact H|intros; lia]|].
    destruct IH as [(p & Q & M)|N]; [left; exists (S p); split; [exact Q|]; intros [|i] Hi; [exact H|apply M; lia]|right; intros [|i]; [exact H|apply N]].
Qed.
Lemma begin_nil : ~ begin_here []. Proof. intros (ws & name & r & _ & _ & E). discriminate E. Qed.
Lemma group_nil : ~ group_here w []. Proof. intros (short & r & E & _). destruct short; discriminate E. Qed.

Lemma search_any_some : forall t s, plain_ends w t -> opens_here w (skipn s t) -> (forall i, i < s -> ~ opens_here w (skipn i t)) -> search_any w t = Some s.
Proof.
  intros t s P O N. unfold search_any.
  destruct (least begin_here begin_dec begin_nil t) as [(a & A & Na)|Na]; destruct (least (group_here w) group_dec group_nil t) as [(b & B & Nb)|Nb].
  - rewrite (env_search_some a t P A Na). destruct (group_search_some t b B Nb) as (m & -> & ->). f_equal.
    assert (La : s <= a) by (destruct (le_lt_dec s a); [assumption|]; exfalso; apply (N a); [assumption|left; exact A]).
    assert (Lb : s <= b) by (destruct (le_lt_dec s b); [assumption|]; exfalso; apply (N b); [assumption|right; exact B]).
    destruct O as [O|O].
    + assert (a <= s) by (destruct (le_lt_dec a s); [assumption|]; exfalso; exact (Na s l O)). destruct (Nat.ltb a b) eqn:Q; [lia|]. apply Nat.ltb_ge in Q. lia.
    + assert (b <= s) by (destruct (le_lt_dec b s); [assumption|]; exfalso; exact (Nb s l O)). destruct (Nat.ltb a b) eqn:Q; [apply Nat.ltb_lt in Q; lia|lia].
  - rewrite (env_search_some a t P A Na), (group_search_none t Nb). f_equal.
    destruct O as [O|O]; [|exfalso; exact (Nb s O)].
    destruct (lt_eq_lt_dec a s) as [[H|H]|H]; [exfalso; apply (N a H); left; exact A|exact H|exfalso; exact (Na s H O)].
  - rewrite (env_search_none t P Na). destruct (group_search_some t b B Nb) as (m & -> & ->). f_equal.
    destruct O as [O|O]; [exfalso; exact (Na s O)|].
    destruct (lt_eq_lt_dec b s) as [[H|H]|H]; [exfalso; apply (N b H); right; exact B|exact H|exfalso; exact (Nb s H O)].
  - exfalso. destruct O as [O|O]; [exact (Na s O)|exact (Nb s O)].
Qed.
Lemma search_any_none : forall t, plain_ends w t -> (forall i, ~ opens_here w (skipn i t)) -> search_any w t = None.
Proof.
  intros t P N. unfold search_any. rewrite env_search_none, group_search_none; [reflexivity| |exact P|]; intros i H; apply (N i); [right|left]; exact H.
Qed.
Lemma opens_dec : forall s, {opens_here w s} + {~ opens_here w s}.
Proof.
  intros s. destruct (begin_dec s) as [H|H]; [left; left; exact H|]. destruct (group_dec s) as [G|G]; [left; right; exact G|]. right. intros [C|C]; contradiction.
Qed.
Lemma opens_nil : ~ opens_here w []. Proof. intros [H|H]; [exact (begin_nil H)|exact (group_nil H)]. Qed.

(** * blocks *)
Lemma try_env : forall s name e c, try_match_env w s = Found name e c -> try_handle w s = TryOut true e /\ 0 < e <= length s.
Proof. intros s name e c H. split; [unfold try_handle; rewrite H; reflexivity|eapply env_out; exact H]. Qed.
Lemma block_try : forall s n, plain_ends w s -> block w s n -> try_handle w s = TryOut true n /\ 0 < n <= length s.
Proof.
  intros s n P B. destruct B as [ws name r a b W N S E C|ws name r W N S E C|short r a b E Bd C].
  - assert (M : marker_at (lit "\begin") name s 0 (6 + length ws + length name + 2)).
    { exists ws, r. split; [exact W|]. split; [exact E|]. reflexivity. }
    pose proof (match_group1 w s ws name r E W N S) as X.
    destruct (fmeb_spec s name 0) as [(i & j' & s' & e' & F & C' & Y)|[No _]].
    + rewrite Y in X. cbn [skipn] in F, C'. destruct F as (_ & F & Lf).
      assert (i = 0) as ->. { destruct i; [reflexivity|]. exfalso. exact (Lf 0 _ ltac:(lia) M). }
      assert (j' = 6 + length ws + length name + 2) as -> by (eapply marker_fun; eassumption). destruct (closed_fun _ _ _ _ _ _ _ C C') as [<- <-].
      eapply try_env. exact X.
    + exfalso. exact (No 0 _ _ _ (marker_zero _ _ _ M) C).
  - assert (M : marker_at (lit "\begin") name s 0 (6 + length ws + length name + 2)).
    { exists ws, r. split; [exact W|]. split; [exact E|]. reflexivity. }
    pose proof (match_group1 w s ws name r E W N S) as X.
    destruct (fmeb_spec s name 0) as [(i & j' & s' & e' & F & C' & Y)|[_ Y]].
    + cbn [skipn] in F, C'. destruct F as (_ & F & Lf).
      assert (i = 0) as ->. { destruct i; [reflexivity|]. exfalso. exact (Lf 0 _ ltac:(lia) M). }
      assert (j' = 6 + length ws + length name + 2) as -> by (eapply marker_fun; eassumption). exfalso. exact (C _ _ C').
    + rewrite Y in X. eapply try_env. exact X.
  - subst s. assert (Bd' : (match r with x :: _ => w x | [] => false end) = false) by exact Bd.
    destruct (group_handled w (fun s => s) (fun _ => false) env_clear short r Wp Bd' (no_pair_match _ P)) as [(t & s & e & C' & H & _)|[No _]].
    + destruct (pclosed_fun _ _ _ _ _ _ _ _ C C') as [<- <-].
      assert (H1 : re_match_at NEW_ENVIRONMENT_PATTERN (group_word short ++ r) 0 = None) by (destruct short; reflexivity).
      assert (H2 : re_match_at BEGIN_PATTERN (group_word short ++ r) 0 = None).
      { destruct short; [reflexivity|]. unfold re_match_at, BEGIN_PATTERN. cbn [rm]. rewrite rm_rstr. reflexivity. }
      assert (T : try_match_env w (group_word short ++ r) = NoEnv) by (unfold try_match_env; rewrite H2, (no_pair_match _ P); reflexivity).
      unfold handle, handle_env in H. rewrite H1, T in H. injection H as H.
      split; [unfold try_handle; rewrite T, H; reflexivity|]. apply group_out in H as [L Z]. split; [|exact L]. destruct b; [specialize (Z eq_refl); discriminate|lia].
    + exfalso. exact (No _ _ C).
Qed.

Lemma skipn_past : forall (t : str) i, length t <= i -> skipn i t = [].
Proof. intros t i L. apply skipn_all2. exact L. Qed.

(** * the end of the item *)
Lemma find_item : forall text pos e, plain_ends w text -> item_ends w text pos e -> forall fuel ep, length text - pos < fuel ->
  find_skipping w (ITEM_PATTERN w) fuel text pos ep = FPos (Some e) \/
  (e = length text /\ ep = None /\ find_skipping w (ITEM_PATTERN w) fuel text pos ep = FPos None /\ forall i, pos <= i -> ~ item_here w (skipn i text)).
Proof.
  intros text pos e P D. induction D as [pos p L H N|pos s n e L O B N D IH|pos N]; intros [|fuel] ep Hf; try lia; cbn [find_skipping].
  - assert (S1 : skipn (p - pos) (skipn pos text) = skipn p text) by (rewrite skipn_add; f_equal; lia).
    destruct (item_search_some w Wm (skipn pos text) (p - pos)) as (m & -> & Hm).
    { rewrite S1. exact H. }
    { intros i Hi. rewrite skipn_add. apply N. lia. }
    left. rewrite Hm. replace (pos + (p - pos)) with p by lia.
    destruct (least (opens_here w) opens_dec opens_nil (skipn pos text)) as [(q & Q & M)|M].
    + rewrite (search_any_some (skipn pos text) q (plain_skip _ _ P) Q M).
      assert (Hq : p - pos < q).
      { destruct (le_lt_dec q (p - pos)) as [X|X]; [|exact X]. exfalso. rewrite skipn_add in Q. destruct (Nat.eq_dec q (p - pos)) as [E|E].
        - subst q. replace (pos + (p - pos)) with p in Q by lia. destruct H as (r & Er & _). rewrite Er in Q.
          destruct Q as [(ws & nm & r' & _ & _ & C)|(short & r' & C & _)]; [discriminate C|destruct short; discriminate C].
        - apply (N (pos + q)); [lia|exact Q]. }
      apply Nat.ltb_lt in Hq. rewrite Hq. reflexivity.
    + rewrite (search_any_none (skipn pos text) (plain_skip _ _ P) M). reflexivity.
  - destruct (item_search_dec w (skipn pos text)) as [(q & Q & M)|M].
    + destruct (item_search_some w Wm (skipn pos text) q Q M) as (m & -> & Hm).
      assert (S1 : skipn (s - pos) (skipn pos text) = skipn s text) by (rewrite skipn_add; f_equal; lia).
      rewrite (search_any_some (skipn pos text) (s - pos) (plain_skip _ _ P)); [|rewrite S1; exact O|intros i Hi; rewrite skipn_add; apply N; lia].
      assert (Hq : s - pos <= q).
      { destruct (le_lt_dec (s - pos) q) as [X|X]; [exact X|]. exfalso. rewrite skipn_add in Q. destruct (N (pos + q) ltac:(lia)) as [C _]. exact (C Q). }
      rewrite Hm. apply Nat.ltb_ge in Hq. rewrite Hq. replace (pos + (s - pos)) with s by lia.
      destruct (block_try (skipn s text) n (plain_skip _ _ P) B) as [-> Hn]. rewrite skipn_length in Hn.
      destruct (IH fuel (Some (s + n)) ltac:(lia)) as [X|(_ & X & _)]; [left; exact X|discriminate X].
    + rewrite (item_search_none w Wm (skipn pos text) M).
      assert (M' : forall i, pos <= i -> ~ item_here w (skipn i text)).
      { intros i Hi. specialize (M (i - pos)). rewrite skipn_add in M. replace (pos + (i - pos)) with i in M by lia. exact M. }
      assert (Ee : e = length text).
      { assert (Hs : pos <= s + n) by lia. clear - D M' Hs. induction D as [pos' p L' H' N'|pos' s' n' e' L' O' B' N' D' IH'|pos' N']; [exfalso; apply (M' p); [lia|exact H']|apply IH'; lia|reflexivity]. }
      subst e. destruct ep; [left; reflexivity|right; auto].
  - rewrite (item_search_none w Wm (skipn pos text)); [destruct ep; [left; reflexivity|right; auto]|]. intros i. rewrite skipn_add. apply N. lia.
Qed.

(** the search for the end of the item always ends *)
Lemma try_bound : forall s n, try_handle w s = TryOut true n -> 0 < n <= length s.
Proof.
  intros s n H. unfold try_handle in H. destruct (try_match_env w s) eqn:E; [|injection H as <-; eapply env_out; exact E|discriminate].
  destruct (try_match_group w s) as [[t|] e|] eqn:G; [|discriminate|discriminate]. injection H as <-. apply group_out in G as [L Z]. split; [|exact L]. destruct e; [specialize (Z eq_refl); discriminate|lia].
Qed.
Lemma find_ends : forall fuel text pos ep, length text - pos < fuel -> find_skipping w (ITEM_PATTERN w) fuel text pos ep <> FNoFuel.
Proof.
  induction fuel as [|fuel IH]; intros text pos ep Hf; [lia|]. cbn [find_skipping].
  destruct (re_search (ITEM_PATTERN w) (skipn pos text)) as [m|]; [|discriminate]. destruct (search_any w (skipn pos text)) as [s|]; [|discriminate].
  destruct (Nat.ltb (m_start m) s); [discriminate|]. destruct (try_handle w (skipn (pos + s) text)) as [[|] n|] eqn:T; try discriminate.
  apply try_bound in T. rewrite skipn_length in T. apply IH. lia.
Qed.
End Item.
