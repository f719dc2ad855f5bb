From Coq Require Import List NArith PeanoNat Lia Bool String.
From Verif Require Import PyStr Regex RegexLemmas EnvModel EnvSpec DelimSpec.
Import ListNotations.
Notation length := List.length.
Open Scope list_scope.

Section Generic.
Variables (b e : re) (text : str).
Hypothesis Hb : 0 < minlen b.
Hypothesis He : 0 < minlen e.
Notation closed := (pclosed_at b e text).

Fixpoint closed_n (d : nat) (pos s t : nat) : Prop :=
  match d with
  | O => False
  | 1 => closed pos s t
  | S d' => exists s1 e1, closed pos s1 e1 /\ closed_n d' e1 s t
  end.

Lemma search_progress : forall r pos m, 0 < minlen r -> re_search_from r text pos = Some m ->
  pos <= m_start m < m_end m /\ m_end m <= length text.
Proof.
  intros r pos m Hr H. apply re_search_some in H. destruct H as (H1 & H2 & H3 & _). apply minlen_ok in H3. lia.
Qed.

Lemma search_mono : forall r pos pos' m, re_search_from r text pos = None -> pos <= pos' -> re_search_from r text pos' = Some m -> False.
Proof.
  intros r pos pos' m H Hp H'. pose proof (proj1 (re_search_none r text pos) H) as Hn.
  apply re_search_some in H'. destruct H' as (H1 & H2 & H3 & _). apply (Hn (m_start m) (m_end m)); [lia|exact H3].
Qed.

Lemma closed_bounds : forall pos s t, closed pos s t -> pos <= s /\ s < t /\ t <= length text /\
  exists p em, pos <= p /\ re_search_from e text p = Some em.
Proof.
  induction 1 as [pos em H1 H2|pos bm s1 e1 s2 e2 H1 H2 H3 IH1 H4 IH2].
  - apply search_progress in H1 as Hp; [|exact He]. repeat split; try lia. exists pos, em. split; [lia|exact H1].
  - apply search_progress in H1 as Hp; [|exact Hb].
    destruct IH1 as (I1 & I2 & I3 & p & em & I4 & I5). destruct IH2 as (J1 & J2 & J3 & _).
    repeat split; try lia. exists p, em. split; [lia|exact I5].
Qed.

Lemma closed_n_closed : forall d pos s t, closed_n (S (S d)) pos s t <-> exists s1 e1, closed pos s1 e1 /\ closed_n (S d) e1 s t.
Proof. reflexivity. Qed.

(** unfolding [closed_n] along the next marker *)
Lemma closed_n_end : forall d pos s t em,
  re_search_from e text pos = Some em ->
  (forall bm, re_search_from b text pos = Some bm -> m_start em < m_start bm) ->
  (closed_n (S d) pos s t <-> match d with O => s = m_start em /\ t = m_end em | S _ => closed_n d (m_end em) s t end).
Proof.
  intros d pos s t em H1 H2.
  assert (Hinv : forall s1 e1, closed pos s1 e1 <-> s1 = m_start em /\ e1 = m_end em).
  { intros s1 e1. split.
    - intros H. inversion H as [pos' em' K1 K2|pos' bm s1' e1' s2 e2 K1 K2 K3 K4]; subst.
      + rewrite H1 in K1. injection K1 as <-. auto.
      + specialize (H2 _ K1). specialize (K2 _ H1). lia.
    - intros [-> ->]. constructor; auto. }
  destruct d as [|d]; [apply Hinv|].
  rewrite closed_n_closed. split.
  - intros (s1 & e1 & K1 & K2). apply Hinv in K1. destruct K1 as [-> ->]. exact K2.
  - intros K. exists (m_start em), (m_end em). split; [apply Hinv; auto|exact K].
Qed.

Lemma closed_n_begin : forall d pos s t bm,
  re_search_from b text pos = Some bm ->
  (forall em, re_search_from e text pos = Some em -> m_start bm <= m_start em) ->
  (closed_n (S d) pos s t <-> closed_n (S (S d)) (m_end bm) s t).
Proof.
  intros d pos s t bm H1 H2.
  assert (Hinv : forall s2 e2, closed pos s2 e2 <-> exists s1 e1, closed (m_end bm) s1 e1 /\ closed e1 s2 e2).
  { intros s2 e2. split.
    - intros H. inversion H as [pos' em' K1 K2|pos' bm' s1' e1' s2' e2' K1 K2 K3 K4]; subst.
      + specialize (H2 _ K1). specialize (K2 _ H1). lia.
      + rewrite H1 in K1. injection K1 as <-. eauto.
    - intros (s1 & e1 & K1 & K2). eapply pca_nested; eauto. }
  destruct d as [|d].
  - cbn [closed_n]. apply Hinv.
  - rewrite !closed_n_closed. split.
    + intros (s1 & e1 & K1 & K2). apply Hinv in K1. destruct K1 as (s0 & e0 & K3 & K4).
      exists s0, e0. split; [exact K3|]. apply closed_n_closed. eauto.
    + intros (s0 & e0 & K1 & K2). apply closed_n_closed in K2. destruct K2 as (s1 & e1 & K3 & K4).
      exists s1, e1. split; [apply Hinv; eauto|exact K4].
Qed.

Lemma closed_n_search : forall d pos s t, closed_n d pos s t -> exists p em, pos <= p /\ re_search_from e text p = Some em.
Proof.
  intros [|[|d]] pos s t H; [destruct H|apply closed_bounds in H; apply H|].
  destruct H as (s1 & e1 & H & _). apply closed_bounds in H. apply H.
Qed.

Lemma encp_loop_spec : forall fuel d pos cs st, length text - pos < fuel ->
  (exists s t, encp_loop fuel text b e (S d) pos cs st = Some (Some (st, t, slice cs s text)) /\ closed_n (S d) pos s t) \/
  (encp_loop fuel text b e (S d) pos cs st = Some None /\ forall s t, ~ closed_n (S d) pos s t).
Proof.
  induction fuel as [|f IH]; intros d pos cs st Hf; [lia|].
  cbn [encp_loop]. change (Nat.ltb 0 (S d)) with true. cbn [andb].
  destruct (Nat.ltb pos (length text)) eqn:Hp.
  2:{ apply Nat.ltb_ge in Hp. right. split; [reflexivity|]. intros s t H. apply closed_n_search in H.
      destruct H as (p & em & H1 & H2). apply search_progress in H2; [lia|exact He]. }
  apply Nat.ltb_lt in Hp.
  destruct (re_search_from e text pos) as [em|] eqn:Ee.
  2:{ right. split; [reflexivity|]. intros s t H. apply closed_n_search in H.
      destruct H as (p & em & H1 & H2). eapply search_mono; eauto. }
  pose proof (search_progress e pos em He Ee) as Hpe.
  destruct (re_search_from b text pos) as [bm|] eqn:Eb.
  - pose proof (search_progress b pos bm Hb Eb) as Hpb.
    destruct (Nat.ltb (m_start em) (m_start bm)) eqn:El.
    + apply Nat.ltb_lt in El.
      assert (Hend := fun s t => closed_n_end d pos s t em Ee ltac:(intros bm' Hbm; rewrite Eb in Hbm; injection Hbm as <-; exact El)).
      replace (S d - 1) with d by lia. destruct d as [|d]; cbn [Nat.eqb].
      * left. exists (m_start em), (m_end em). split; [reflexivity|]. apply Hend. auto.
      * destruct (IH d (m_end em) cs st ltac:(lia)) as [(s & t & K1 & K2)|[K1 K2]].
        -- left. exists s, t. split; [exact K1|]. apply Hend. exact K2.
        -- right. split; [exact K1|]. intros s t H. apply Hend in H. exact (K2 s t H).
    + apply Nat.ltb_ge in El.
      assert (Hbeg := fun s t => closed_n_begin d pos s t bm Eb ltac:(intros em' Hem; rewrite Ee in Hem; injection Hem as <-; exact El)).
      replace (S d + 1) with (S (S d)) by lia.
      destruct (IH (S d) (m_end bm) cs st ltac:(lia)) as [(s & t & K1 & K2)|[K1 K2]].
      * left. exists s, t. split; [exact K1|]. apply Hbeg. exact K2.
      * right. split; [exact K1|]. intros s t H. apply Hbeg in H. exact (K2 s t H).
  - assert (Hend := fun s t => closed_n_end d pos s t em Ee ltac:(intros bm' Hbm; rewrite Eb in Hbm; discriminate)).
    replace (S d - 1) with d by lia. destruct d as [|d]; cbn [Nat.eqb].
    + left. exists (m_start em), (m_end em). split; [reflexivity|]. apply Hend. auto.
    + destruct (IH d (m_end em) cs st ltac:(lia)) as [(s & t & K1 & K2)|[K1 K2]].
      * left. exists s, t. split; [exact K1|]. apply Hend. exact K2.
      * right. split; [exact K1|]. intros s t H. apply Hend in H. exact (K2 s t H).
Qed.

Lemma encp_spec :
  (exists bm s t, re_search_from b text 0 = Some bm /\ pclosed_at b e text (m_end bm) s t /\
     extract_nested_content_pattern text b e = Some (Some (m_start bm, t, slice (m_end bm) s text))) \/
  ((forall bm s t, re_search_from b text 0 = Some bm -> ~ pclosed_at b e text (m_end bm) s t) /\
     extract_nested_content_pattern text b e = Some None).
Proof.
  unfold extract_nested_content_pattern. destruct (re_search_from b text 0) as [bm|] eqn:Eb.
  - destruct (encp_loop_spec (S (length text)) 0 (m_end bm) (m_end bm) (m_start bm) ltac:(lia)) as [(s & t & K1 & K2)|[K1 K2]].
    + left. exists bm, s, t. auto.
    + right. split; [|exact K1]. intros bm' s t H. injection H as <-. apply K2.
  - right. split; [|reflexivity]. intros bm s t H. discriminate.
Qed.
End Generic.

(* ------------------------------------------------------------------ *)
(** * Environments *)
Lemma env_pattern_rel : forall cmd name text i j, rel (env_pattern cmd name) text i j <-> marker_at cmd name text i j.
Proof.
  intros cmd name text i j. unfold env_pattern, marker_at. rewrite rel_rseq2. split.
  - intros (k & H1 & H2). apply rel_rstr in H1. destruct H1 as [-> (r1 & H1)].
    apply rel_rseq2 in H2. destruct H2 as (k & H2 & H3). apply rel_star_chr in H2. destruct H2 as (ws & r2 & H2 & Hws & ->).
    apply rel_rseq2 in H3. destruct H3 as (k & H3 & H4). apply rel_is_ch in H3. destruct H3 as [-> (r3 & H3)].
    apply rel_rseq2 in H4. destruct H4 as (k & H4 & H5). apply rel_rstr in H4. destruct H4 as [-> (r4 & H4)].
    apply rel_is_ch in H5. destruct H5 as [-> (r5 & H5)].
    exists ws, r5. split; [exact Hws|].
    assert (E : forall a c (s r : str), skipn a text = s ++ r -> c = a + length s -> skipn c text = r).
    { intros a c s r Hs ->. rewrite <- skipn_add, Hs, skipn_app, Nat.sub_diag, skipn_all. reflexivity. }
    rewrite (E _ _ _ _ H1 eq_refl) in H2. subst r1.
    assert (H1' : skipn i text = (cmd ++ ws) ++ r2) by (rewrite H1, <- app_assoc; reflexivity).
    rewrite (E _ (i + length cmd + length ws) _ _ H1') in H3 by (rewrite app_length; lia). subst r2.
    assert (H1'' : skipn i text = (cmd ++ ws ++ [c_lb]) ++ r3) by (rewrite H1', <- !app_assoc; reflexivity).
    rewrite (E _ (S (i + length cmd + length ws)) _ _ H1'') in H4 by (rewrite !app_length; cbn; lia). subst r3.
    assert (H1''' : skipn i text = (cmd ++ ws ++ [c_lb] ++ name) ++ r4) by (rewrite H1'', <- !app_assoc; reflexivity).
    rewrite (E _ (S (i + length cmd + length ws) + length name) _ _ H1''') in H5 by (rewrite !app_length; cbn; lia). subst r4.
    split; [rewrite H1''', <- !app_assoc; reflexivity|lia].
  - intros (ws & r & Hws & H & ->).
    assert (E : forall a c (s r : str), skipn a text = s ++ r -> c = a + length s -> skipn c text = r).
    { intros a c s r' Hs ->. rewrite <- skipn_add, Hs, skipn_app, Nat.sub_diag, skipn_all. reflexivity. }
    exists (i + length cmd). split; [apply rel_rstr; split; [reflexivity|eexists; exact H]|].
    pose proof (E _ _ _ _ H eq_refl) as H1.
    apply rel_rseq2. exists (i + length cmd + length ws). split; [apply rel_star_chr; eauto|].
    pose proof (E _ _ _ _ H1 eq_refl) as H2.
    apply rel_rseq2. exists (S (i + length cmd + length ws)). split; [apply rel_is_ch; split; [reflexivity|eexists; exact H2]|].
    pose proof (E _ (S (i + length cmd + length ws)) [c_lb] _ H2 ltac:(cbn; lia)) as H3.
    apply rel_rseq2. exists (S (i + length cmd + length ws) + length name). split; [apply rel_rstr; split; [reflexivity|eexists; exact H3]|].
    pose proof (E _ _ _ _ H3 eq_refl) as H4.
    apply rel_is_ch. split; [lia|]. eexists. exact H4.
Qed.

Lemma marker_lt : forall cmd name text i j, cmd <> [] -> marker_at cmd name text i j -> i < length text.
Proof.
  intros cmd name text i j Hc (ws & r & _ & H & _). destruct (Nat.lt_ge_cases i (length text)) as [L|L]; [exact L|].
  rewrite skipn_all2 in H by exact L. destruct cmd; [congruence|discriminate].
Qed.

(** a marker at a position has one end *)
Lemma marker_fun : forall cmd name text i j j', marker_at cmd name text i j -> marker_at cmd name text i j' -> j = j'.
Proof.
  intros cmd name text i j j' (ws & r & Hb & H & ->) (ws' & r' & Hb' & H' & ->).
  rewrite H in H'. apply app_inv_head in H'.
  assert (length ws = length ws'); [|lia].
  assert (G : forall (a b x y : str), blank a -> blank b -> a ++ c_lb :: x = b ++ c_lb :: y -> length a = length b).
  { induction a as [|u a IH]; intros [|v b'] x y Ha Hb2 E; cbn in E; auto.
    - injection E as <- E. discriminate Hb2.
    - injection E as -> E. discriminate Ha.
    - injection E as -> E. cbn. f_equal. apply (IH b' x y); auto.
      + unfold blank in *. cbn in Ha. apply andb_true_iff in Ha. apply Ha.
      + unfold blank in *. cbn in Hb2. apply andb_true_iff in Hb2. apply Hb2. }
  eapply G; eauto.
Qed.

Lemma search_first_marker : forall cmd name text pos m, cmd <> [] ->
  re_search_from (env_pattern cmd name) text pos = Some m ->
  first_marker cmd name text pos (m_start m) (m_end m).
Proof.
  intros cmd name text pos m Hc H. apply re_search_some in H. destruct H as (H1 & H2 & H3 & _ & H5).
  split; [exact H1|]. split; [apply env_pattern_rel; exact H3|]. intros i' j' Hi Hm. apply (H5 i' j' Hi). apply env_pattern_rel. exact Hm.
Qed.

Lemma first_marker_search : forall cmd name text pos i j, cmd <> [] ->
  first_marker cmd name text pos i j ->
  exists m, re_search_from (env_pattern cmd name) text pos = Some m /\ m_start m = i /\ m_end m = j.
Proof.
  intros cmd name text pos i j Hc (H1 & H2 & H3).
  destruct (re_search_from (env_pattern cmd name) text pos) as [m|] eqn:E.
  - apply search_first_marker in E; [|exact Hc]. destruct E as (K1 & K2 & K3). exists m. split; [reflexivity|].
    assert (m_start m = i).
    { destruct (Nat.lt_trichotomy (m_start m) i) as [L|[L|L]]; [exfalso; apply (H3 (m_start m) (m_end m)); auto|exact L|exfalso; apply (K3 i j); auto]. }
    split; [assumption|]. subst i. eapply marker_fun; eauto.
  - exfalso. apply (proj1 (re_search_none _ _ _) E i j); [|apply env_pattern_rel; exact H2].
    apply marker_lt in H2; [lia|exact Hc].
Qed.

Lemma begin_end_disjoint : forall name text i j j', marker_at (lit "\begin") name text i j -> marker_at (lit "\end") name text i j' -> False.
Proof.
  intros name text i j j' (ws & r & _ & H & _) (ws' & r' & _ & H' & _). rewrite H in H'. discriminate H'.
Qed.

Lemma begin_ne : lit "\begin" <> []. Proof. discriminate. Qed.
Lemma end_ne : lit "\end" <> []. Proof. discriminate. Qed.

Lemma env_minlen : forall cmd name, 0 < length cmd -> 0 < minlen (env_pattern cmd name).
Proof. intros [|x cmd] name H; cbn in *; lia. Qed.

Lemma closed_iff : forall name text pos s e,
  pclosed_at (begin_pattern name) (end_pattern name) text pos s e <-> closed_at name text pos s e.
Proof.
  intros name text pos s e. split.
  - induction 1 as [pos em H1 H2|pos bm s1 e1 s2 e2 H1 H2 H3 IH1 H4 IH2].
    + apply ca_end; [apply search_first_marker; [exact end_ne|exact H1]|].
      intros i j Hi Hm. apply search_first_marker in H1; [|exact end_ne]. destruct H1 as (K1 & K2 & K3).
      destruct (re_search_from (begin_pattern name) text pos) as [bm|] eqn:Eb.
      * specialize (H2 _ eq_refl). apply search_first_marker in Eb; [|exact begin_ne]. destruct Eb as (L1 & L2 & L3).
        apply (L3 i j); [lia|exact Hm].
      * apply (proj1 (re_search_none _ _ _) Eb i j); [|apply env_pattern_rel; exact Hm].
        apply marker_lt in Hm; [lia|exact begin_ne].
    + eapply ca_nested; [apply search_first_marker; [exact begin_ne|exact H1]| |exact IH1|exact IH2].
      intros i' j' Hi Hm. destruct (re_search_from (end_pattern name) text pos) as [em|] eqn:Ee.
      * specialize (H2 _ eq_refl). apply search_first_marker in Ee; [|exact end_ne]. destruct Ee as (L1 & L2 & L3).
        apply (L3 i' j'); [lia|exact Hm].
      * apply (proj1 (re_search_none _ _ _) Ee i' j'); [|apply env_pattern_rel; exact Hm].
        apply marker_lt in Hm; [lia|exact end_ne].
  - induction 1 as [pos s e H1 H2|pos i j s1 e1 s e H1 H2 H3 IH1 H4 IH2].
    + destruct (first_marker_search _ _ _ _ _ _ end_ne H1) as (em & K1 & <- & <-).
      apply pca_end; [exact K1|]. intros bm Hbm. apply search_first_marker in Hbm; [|exact begin_ne].
      destruct Hbm as (L1 & L2 & L3). destruct (Nat.lt_ge_cases (m_start em) (m_start bm)) as [L|L]; [exact L|].
      exfalso. apply (H2 (m_start bm) (m_end bm)); auto.
    + destruct (first_marker_search _ _ _ _ _ _ begin_ne H1) as (bm & K1 & <- & <-).
      eapply pca_nested; [exact K1| |exact IH1|exact IH2].
      intros em Hem. apply search_first_marker in Hem; [|exact end_ne]. destruct Hem as (L1 & L2 & L3).
      destruct (Nat.lt_ge_cases (m_start em) (m_start bm)) as [L|L]; [|exact L].
      exfalso. apply (H2 (m_start em) (m_end em)); auto.
Qed.

Lemma fmeb_spec : forall text name k, let body := skipn k text in
  (exists i j s e, first_marker (lit "\begin") name body 0 i j /\ closed_at name body j s e /\
     find_matching_env_block text name k = Some (k + i, k + e, strip (slice j s body))) \/
  ((forall i j s e, first_marker (lit "\begin") name body 0 i j -> ~ closed_at name body j s e) /\
     find_matching_env_block text name k = None).
Proof.
  intros text name k body. unfold find_matching_env_block. fold body.
  destruct (encp_spec (begin_pattern name) (end_pattern name) body) as [(bm & s & t & H1 & H2 & ->)|[H1 ->]].
  1,2: apply env_minlen; cbn; lia.
  - left. exists (m_start bm), (m_end bm), s, t. split; [apply search_first_marker; [exact begin_ne|exact H1]|].
    split; [apply closed_iff; exact H2|]. do 3 f_equal; lia.
  - right. split; [|reflexivity]. intros i j s e Hf Hc.
    destruct (first_marker_search _ _ _ _ _ _ begin_ne Hf) as (bm & K1 & <- & <-).
    apply (H1 bm s e K1). apply closed_iff. exact Hc.
Qed.

(** the closing position is unique *)
Lemma pclosed_fun : forall b e text pos s1 e1 s2 e2, pclosed_at b e text pos s1 e1 -> pclosed_at b e text pos s2 e2 -> s1 = s2 /\ e1 = e2.
Proof.
  intros b e text pos s1 e1 s2 e2 H. revert s2 e2.
  induction H as [pos em H1 H2|pos bm sa ea sb eb H1 H2 H3 IH1 H4 IH2]; intros s2 e2 H.
  - inversion H as [pos' em' K1 K2|pos' bm' s1' e1' s2' e2' K1 K2 K3 K4]; subst.
    + rewrite H1 in K1. injection K1 as <-. auto.
    + specialize (H2 _ K1). specialize (K2 _ H1). lia.
  - inversion H as [pos' em' K1 K2|pos' bm' s1' e1' s2' e2' K1 K2 K3 K4]; subst.
    + specialize (H2 _ K1). specialize (K2 _ H1). lia.
    + rewrite H1 in K1. injection K1 as <-. destruct (IH1 _ _ K3) as [-> ->]. exact (IH2 _ _ K4).
Qed.
Lemma closed_fun : forall name text pos s1 e1 s2 e2, closed_at name text pos s1 e1 -> closed_at name text pos s2 e2 -> s1 = s2 /\ e1 = e2.
Proof. intros name text pos s1 e1 s2 e2 H1 H2. apply closed_iff in H1. apply closed_iff in H2. eapply pclosed_fun; eauto. Qed.
