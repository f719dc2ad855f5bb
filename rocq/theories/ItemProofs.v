(** List items. *)
From Coq Require Import List NArith PeanoNat Lia Bool String.
From Verif Require Import PyStr Regex RegexLemmas RegexLocal RegexHead TexUtilsModel DelimSpec DelimProofs DelimFinal KeyvalProofs2
  EnvModel EnvSpec EnvProofs EnvHandlerModel EnvHandlerProofs EnvHandlerCases EqModel EqSpec EqProofs EqProofs3 ItemModel ItemSpec.
Import ListNotations.
Notation length := List.length.
Open Scope list_scope.

Lemma search_no : forall r t pos, (forall k, pos <= k <= length t -> re_match_at r t k = None) -> re_search_from r t pos = None.
Proof.
  intros r t pos H. unfold re_search_from. destruct (Nat.leb pos (length t)) eqn:L; [|reflexivity]. apply Nat.leb_le in L.
  remember (length t - pos) as n eqn:En. revert pos H L En. induction n as [|n IH]; intros pos H L En; cbn [re_search_go]; rewrite H by lia; [reflexivity|].
  apply IH; [intros k Hk; apply H; lia|lia|lia].
Qed.

Section Item.
Variable w : ch -> bool.
Hypothesis Wm : w 109%N = true.
Hypothesis Wp : w 112%N = true.

Lemma item_dec : forall s, {item_here w s} + {~ item_here w s}.
Proof.
  intros s. destruct (startswith s (lit "\item")) eqn:S.
  - apply startswith_iff in S. destruct (starts_with w (skipn 5 s)) eqn:B.
    + right. intros (r & -> & N). change (starts_with w r = true) in B. rewrite N in B. discriminate B.
    + left. destruct S as (r & ->). exists r. split; [reflexivity|exact B].
  - right. intros (r & -> & _). rewrite startswith_app in S. discriminate S.
Qed.
Lemma word_rm : forall t i c, item_here w (skipn i t) -> rm (ITEM_WORD w) t i c = [(i + 5, c)].
Proof.
  intros t i c (r & E & N). unfold ITEM_WORD. cbn [rm]. rewrite rm_rstr, E, startswith_app. cbn [flat_map fst snd]. change (length (lit "\item")) with 5.
  assert (P : prev_is w t (i + 5) = true).
  { rewrite Nat.add_comm. cbn [plus prev_is]. rewrite nth_error_skipn.
    assert (X : skipn (S (S (S (S i)))) t = 109%N :: r) by (replace (S (S (S (S i)))) with (i + 4) by lia; rewrite <- skipn_add, E; reflexivity). rewrite X. exact Wm. }
  assert (Q : next_is w t (i + 5) = false).
  { unfold next_is. rewrite nth_error_skipn. rewrite <- skipn_add, E. change (skipn 5 (lit "\item" ++ r)) with r. destruct r; [reflexivity|exact N]. }
  rewrite P, Q. reflexivity.
Qed.
Lemma word_none : forall t i c, ~ item_here w (skipn i t) -> rm (ITEM_WORD w) t i c = [].
Proof.
  intros t i c H. unfold ITEM_WORD. cbn [rm]. rewrite rm_rstr. destruct (startswith (skipn i t) (lit "\item")) eqn:S; [|reflexivity]. cbn [flat_map fst snd]. change (length (lit "\item")) with 5.
  apply startswith_iff in S as (r & E).
  assert (P : prev_is w t (i + 5) = true).
  { rewrite Nat.add_comm. cbn [plus prev_is]. rewrite nth_error_skipn.
    assert (X : skipn (S (S (S (S i)))) t = 109%N :: r) by (replace (S (S (S (S i)))) with (i + 4) by lia; rewrite <- skipn_add, E; reflexivity). rewrite X. exact Wm. }
  assert (Q : next_is w t (i + 5) = starts_with w r).
  { unfold next_is. rewrite nth_error_skipn. rewrite <- skipn_add, E. change (skipn 5 (lit "\item" ++ r)) with r. destruct r; reflexivity. }
  rewrite P, Q. destruct (starts_with w r) eqn:B; [reflexivity|]. exfalso. apply H. exists r. split; [exact E|exact B].
Qed.
Lemma item_none : forall t i, ~ item_here w (skipn i t) -> re_match_at (ITEM_PATTERN w) t i = None.
Proof. intros t i H. unfold re_match_at, ITEM_PATTERN. rewrite rm_seq_none; [reflexivity|]. apply word_none. exact H. Qed.

(** where the lazy body stops *)
Definition stops (t : str) (p : nat) : Prop := item_here w (skipn p t) \/ at_end t p = true.
Lemma stops_rm : forall t p c, stops t p -> rm (RAhead false (RAlt (ITEM_WORD w) REnd)) t p c = [(p, c)].
Proof.
  intros t p c H. change (rm (RAhead false (RAlt (ITEM_WORD w) REnd)) t p c) with (if xorb false (negb (nilb (rm (ITEM_WORD w) t p c ++ (if at_end t p then [(p, c)] else [])))) then [(p, c)] else []).
  destruct H as [H|H]; [rewrite word_rm by exact H; reflexivity|]. rewrite H. destruct (rm (ITEM_WORD w) t p c); reflexivity.
Qed.
Lemma stops_none : forall t p c, ~ stops t p -> rm (RAhead false (RAlt (ITEM_WORD w) REnd)) t p c = [].
Proof.
  intros t p c H. change (rm (RAhead false (RAlt (ITEM_WORD w) REnd)) t p c) with (if xorb false (negb (nilb (rm (ITEM_WORD w) t p c ++ (if at_end t p then [(p, c)] else [])))) then [(p, c)] else []).
  rewrite word_none by (intros C; apply H; left; exact C).
  destruct (at_end t p) eqn:E; [exfalso; apply H; right; exact E|]. reflexivity.
Qed.
Lemma stops_dec : forall t p, {stops t p} + {~ stops t p}.
Proof.
  intros t p. destruct (item_dec (skipn p t)) as [H|H]; [left; left; exact H|]. destruct (at_end t p) eqn:E; [left; right; exact E|].
  right. intros [C|C]; [contradiction|congruence].
Qed.
Lemma least_stop : forall t start, start <= length t -> exists k, start + k <= length t /\ stops t (start + k) /\ forall i, i < k -> ~ stops t (start + i).
Proof.
  intros t start L. remember (length t - start) as n eqn:En. revert start L En. induction n as [|n IH]; intros start L En.
  - exists 0. assert (start = length t) by lia. split; [lia|]. split; [right; rewrite Nat.add_0_r; unfold at_end; subst start; rewrite skipn_all; reflexivity|intros; lia].
  - destruct (stops_dec t start) as [Q|Q]; [exists 0; rewrite Nat.add_0_r; split; [lia|split; [exact Q|intros; lia]]|].
    destruct (IH (S start) ltac:(lia) ltac:(lia)) as (k & B & K & M). exists (S k). split; [lia|]. split; [replace (start + S k) with (S start + k) by lia; exact K|].
    intros [|i] Hi; [rewrite Nat.add_0_r; exact Q|]. replace (start + S i) with (S start + i) by lia. apply M. lia.
Qed.

Definition title_caps (title : option str) (a : nat) : caps := match title with Some t => [(1, (a, a + length t))] | None => [] end.
Lemma title_fm : forall t i c u r, ~ In c_rk u -> skipn i t = c_lk :: u ++ c_rk :: r ->
  first_match (ropt (RSeq (is_ch c_lk) (RSeq (RGrp 1 (rlazy rany)) (is_ch c_rk)))) t i c (i + length u + 2) ((1, (S i, S i + length u)) :: c).
Proof.
  intros t i c u r N E. unfold ropt. apply fm_alt_left. eapply fm_seq; [eapply fm_is_ch; exact E|]. apply skipn_more1 in E. unfold rany.
  eapply fm_lazy_first; [exact E|apply any_all| |].
  - intros k c' Hk. unfold is_ch. apply rm_chr_none. rewrite <- skipn_add, E, skipn_app. replace (k - length u) with 0 by lia. change (skipn 0 (c_rk :: r)) with (c_rk :: r).
    destruct (skipn k u) as [|x v] eqn:Ek; [apply (f_equal (@length ch)) in Ek; rewrite skipn_length in Ek; cbn in Ek; lia|]. cbn [List.app].
    destruct (N.eqb c_rk x) eqn:Q; [|reflexivity]. apply N.eqb_eq in Q. subst x. exfalso. apply N. rewrite <- (firstn_skipn k u), Ek. apply in_app_iff. right. left. reflexivity.
  - replace (i + length u + 2) with (S (S i + length u)) by lia. eapply fm_is_ch. apply skipn_more. exact E.
Qed.
Lemma no_title_fm : forall t i c body, skipn i t = body -> (forall r, body = c_lk :: r -> ~ In c_rk r) ->
  first_match (ropt (RSeq (is_ch c_lk) (RSeq (RGrp 1 (rlazy rany)) (is_ch c_rk)))) t i c i c.
Proof.
  intros t i c body E H. unfold ropt. apply fm_alt_right; [|apply fm_eps]. destruct body as [|x r].
  - apply rm_seq_none. unfold is_ch. apply rm_chr_none. rewrite E. reflexivity.
  - destruct (N.eqb c_lk x) eqn:Q; [|apply rm_seq_none; unfold is_ch; apply rm_chr_none; rewrite E; exact Q].
    apply N.eqb_eq in Q. subst x. specialize (H r eq_refl). assert (L : i <= length t) by (apply skipn_cons_lt in E; lia). apply rm_none_rel; [exact L|].
    intros j R. apply rel_rseq2 in R as (k & R1 & R). apply rel_is_ch in R1 as (-> & _). apply rel_rseq2 in R as (k & R2 & R3). apply rel_is_ch in R3 as (_ & r' & R3).
    apply rel_grp1 in R2. assert (B : S i <= k) by (apply rel_bounds in R2; [lia|apply skipn_cons_lt in E; lia]).
    apply H. apply skipn_more1 in E. replace k with (S i + (k - S i)) in R3 by lia. rewrite <- skipn_add, E in R3. rewrite <- (firstn_skipn (k - S i) r), R3. apply in_app_iff. right. left. reflexivity.
Qed.

Lemma item_fm : forall t i u title n, skipn i t = lit "\item" ++ u -> starts_with w u = false -> item_head u title n ->
  exists a k, let start := i + 5 + n in
    (forall q, q < k -> ~ stops t (start + q)) /\ stops t (start + k) /\ start + k <= length t /\
    (forall x, title = Some x -> slice a (a + length x) t = x) /\
    first_match (ITEM_PATTERN w) t i [] (start + k) ((2, (start, start + k)) :: title_caps title a).
Proof.
  intros t i u title n E B H. assert (E5 : skipn (i + 5) t = u) by (rewrite <- skipn_add, E; reflexivity).
  assert (FW : first_match (ITEM_WORD w) t i [] (i + 5) []) by (exists []; apply word_rm; exists u; split; [exact E|exact B]).
  assert (Hn : n <= length u) by (destruct H; rewrite !app_length; cbn; try lia).
  assert (Li : i + 5 + length u = length t) by (apply (f_equal (@length ch)) in E; rewrite skipn_length, app_length in E; cbn in E; lia).
  destruct (least_stop t (i + 5 + n) ltac:(lia)) as (k & Bk & Sk & Mk).
  assert (Last : forall c, first_match (RSeq (RGrp 2 (rlazy rany)) (RAhead false (RAlt (ITEM_WORD w) REnd))) t (i + 5 + n) c (i + 5 + n + k) ((2, (i + 5 + n, i + 5 + n + k)) :: c)).
  { intros c. assert (Lv : length (firstn k (skipn (i + 5 + n) t)) = k) by (rewrite firstn_length, skipn_length; lia).
    unfold rany. eapply (fm_lazy_first 2 _ _ (firstn k (skipn (i + 5 + n) t)) t _ c _ _ (skipn k (skipn (i + 5 + n) t))); [symmetry; apply firstn_skipn|apply any_all| |]; rewrite Lv.
    - intros q c' Hq. apply stops_none. apply Mk. exact Hq.
    - exists []. apply stops_rm. exact Sk. }
  destruct H as [ws1 x ws2 body W1 Nx W2 Hb|ws1 body W1 Hb Ht].
  - exists (i + 5 + length ws1 + 1), k. cbv zeta. split; [exact Mk|]. split; [exact Sk|]. split; [exact Bk|].
    assert (E6 : skipn (i + 5 + length ws1) t = c_lk :: x ++ c_rk :: ws2 ++ body) by (apply skipn_more in E5; exact E5).
    split.
    + intros y Ey. injection Ey as <-. rewrite Nat.add_1_r. apply skipn_more1 in E6. unfold slice. rewrite E6. replace (S (i + 5 + length ws1) + length x - S (i + 5 + length ws1)) with (length x) by lia. apply firstn_app_exact. reflexivity.
    + unfold ITEM_PATTERN. eapply fm_seq; [exact FW|]. eapply fm_seq; [eapply fm_star; [exact E5|exact W1|reflexivity]|]. eapply fm_seq; [eapply title_fm; [exact Nx|exact E6]|].
      assert (E7 : skipn (i + 5 + length ws1 + length x + 2) t = ws2 ++ body).
      { replace (i + 5 + length ws1 + length x + 2) with (i + 5 + length ws1 + length (c_lk :: x ++ [c_rk])) by (cbn; rewrite app_length; cbn; lia). apply skipn_more. rewrite E6. cbn. rewrite <- app_assoc. reflexivity. }
      eapply fm_seq; [eapply fm_star; [exact E7|exact W2|destruct body; [reflexivity|exact Hb]]|].
      replace (i + 5 + length ws1 + length x + 2 + length ws2) with (i + 5 + length (ws1 ++ [c_lk] ++ x ++ [c_rk] ++ ws2)) by (rewrite !app_length; cbn; lia).
      cbn [title_caps]. rewrite Nat.add_1_r. apply Last.
  - exists 0, k. cbv zeta. split; [exact Mk|]. split; [exact Sk|]. split; [exact Bk|]. split; [discriminate|].
    unfold ITEM_PATTERN. eapply fm_seq; [exact FW|].
    eapply fm_seq; [eapply fm_star; [exact E5|exact W1|destruct body; [reflexivity|exact Hb]]|]. apply skipn_more in E5.
    eapply fm_seq; [eapply no_title_fm; [exact E5|exact Ht]|]. eapply fm_seq; [eapply (fm_star _ _ _ _ [] body); [exact E5|reflexivity|destruct body; [reflexivity|exact Hb]]|].
    cbn [length]. rewrite Nat.add_0_r. apply Last.
Qed.
Lemma lead_split : forall u, exists ws body, u = ws ++ body /\ blank ws /\ starts_with isspace body = false.
Proof.
  induction u as [|x u IH]; [exists [], []; repeat split|]. destruct IH as (ws & body & -> & W & B). destruct (isspace x) eqn:S.
  - exists (x :: ws), body. split; [reflexivity|]. split; [unfold blank; cbn; rewrite S; exact W|exact B].
  - exists [], (x :: ws ++ body). split; [reflexivity|]. split; [reflexivity|exact S].
Qed.
Lemma in_split_first : forall (x : ch) r, In x r -> exists a b, r = a ++ x :: b /\ ~ In x a.
Proof.
  intros x r. induction r as [|y r IH]; intros I; [destruct I|]. destruct (N.eq_dec y x) as [->|Ne]; [exists [], r; auto|].
  destruct I as [->|I]; [congruence|]. destruct (IH I) as (a & b & -> & Na). exists (y :: a), b. split; [reflexivity|]. intros [->|C]; [congruence|contradiction].
Qed.
Lemma head_total : forall u, exists title n, item_head u title n.
Proof.
  intros u. destruct (lead_split u) as (ws & body & -> & W & B). destruct body as [|x r].
  - exists None, (length ws). apply ih_plain; [exact W|reflexivity|discriminate].
  - destruct (N.eq_dec x c_lk) as [->|Ne].
    + destruct (in_dec N.eq_dec c_rk r) as [I|I].
      * destruct (in_split_first _ _ I) as (a & b & -> & Na). destruct (lead_split b) as (ws2 & body & -> & W2 & B2). eexists _, _. apply (ih_title ws a ws2 body); assumption.
      * exists None, (length ws). apply ih_plain; [exact W|exact B|]. intros r' E. injection E as <-. exact I.
    + exists None, (length ws). apply ih_plain; [exact W|exact B|]. intros r' E. injection E as E _. congruence.
Qed.
Lemma item_some : forall t i, item_here w (skipn i t) -> exists m, re_match_at (ITEM_PATTERN w) t i = Some m /\ m_start m = i.
Proof.
  intros t i (u & E & B). destruct (head_total u) as (title & n & H). destruct (item_fm t i u title n E B H) as (a & k & _ & _ & _ & _ & F).
  eexists. split; [apply fm_match; exact F|reflexivity].
Qed.
Lemma here_lt : forall t i, item_here w (skipn i t) -> i < length t.
Proof. intros t i (u & E & _). apply skipn_cons_lt in E. exact E. Qed.
Lemma item_search_some : forall t p, item_here w (skipn p t) -> (forall i, i < p -> ~ item_here w (skipn i t)) -> exists m, re_search (ITEM_PATTERN w) t = Some m /\ m_start m = p.
Proof.
  intros t p H N. destruct (item_some t p H) as (m & M & S). exists m. split; [|exact S]. unfold re_search. eapply search_first; [| | |exact M]; [lia|apply here_lt in H; lia|].
  intros k _ Hk. apply item_none. apply N. exact Hk.
Qed.
Lemma item_search_none : forall t, (forall i, ~ item_here w (skipn i t)) -> re_search (ITEM_PATTERN w) t = None.
Proof. intros t H. apply search_no. intros k _. apply item_none. apply H. Qed.
Lemma item_search_dec : forall t, (exists p, item_here w (skipn p t) /\ forall i, i < p -> ~ item_here w (skipn i t)) \/ (forall i, ~ item_here w (skipn i t)).
Proof.
  intros t. induction t as [|x t IH].
  - right. intros i H. apply here_lt in H. cbn in H. lia.
  - destruct (item_dec (x :: t)) as [H|H]; [left; exists 0; split; [exact H|intros; lia]|].
    destruct IH as [(p & P & M)|N]; [left; exists (S p); split; [exact P|]; intros [|i] Hi; [exact H|apply M; lia]|right; intros [|i]; [exact H|apply N]].
Qed.
End Item.
