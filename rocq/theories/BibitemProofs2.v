(** C91-C92: the entries. *)
From Coq Require Import List NArith PeanoNat Lia Bool String Compare_dec.
From Verif Require TextProofs TextProofs2 ParseCases DelimFinal StyleProofs3 LegacyProofs5.
From Verif Require Import PyStr Regex RegexLemmas RegexHead RegexLocal DelimSpec EqProofs EqProofs2 Placeholder ItemSpec BibitemModel BibitemSpec BibitemProofs.
Import ListNotations. Notation length := List.length. Notation concat := List.concat. Open Scope list_scope.

(** * Replacing a command *)
Section Replace.
Variable w : ch -> bool.
Variable a : str.
Variable z : ch.
Hypothesis Hz : w z = true.
Notation cmd := (a ++ [z]).
Definition cmd_re : re := RSeq (rstr cmd) (RBound w).
Lemma cmd_min : 0 < minlen cmd_re.
Proof. unfold cmd_re. cbn [minlen]. destruct a; cbn; lia. Qed.
Lemma cmd_match : forall t i, i <= length t -> (exists r, skipn i t = cmd ++ r /\ starts_with w r = false) ->
  re_match_at cmd_re t i = Some {| m_start := i; m_end := i + length cmd; m_caps := [] |}.
Proof.
  intros t i L (r & E & Hr). apply fm_match. eapply fm_seq; [exact (fm_rstr cmd t i [] r E)|].
  exists []. cbn [rm]. assert (P : prev_is w t (i + length cmd) = true).
  { rewrite app_length. cbn [List.length]. replace (i + (length a + 1)) with (S (i + length a)) by lia. cbn [prev_is]. rewrite nth_error_skipn.
    rewrite <- app_assoc in E. rewrite (skipn_more t i a _ E). exact Hz. }
  assert (N : next_is w t (i + length cmd) = false). { unfold next_is. rewrite nth_error_skipn, (skipn_more t i cmd r E). destruct r; [reflexivity|exact Hr]. }
  rewrite P, N. reflexivity.
Qed.
Lemma cmd_nomatch : forall t i, i <= length t -> (forall r, skipn i t = cmd ++ r -> starts_with w r = true) -> re_match_at cmd_re t i = None.
Proof.
  intros t i L H. apply re_match_at_none; [exact L|]. intros j R. unfold cmd_re in R. apply rel_rseq2 in R as (k & R1 & R2). apply rel_rstr in R1 as (-> & r & E).
  apply LegacyProofs5.bound_inv in R2. specialize (H r E).
  assert (P : prev_is w t (i + length cmd) = true).
  { rewrite app_length. cbn [List.length]. replace (i + (length a + 1)) with (S (i + length a)) by lia. cbn [prev_is]. rewrite nth_error_skipn.
    rewrite <- app_assoc in E. rewrite (skipn_more t i a _ E). exact Hz. }
  unfold next_is in R2. rewrite P, nth_error_skipn, (skipn_more t i cmd r E) in R2. destruct r as [|x r]; [discriminate|]. cbn in H, R2. rewrite H in R2. discriminate.
Qed.
Lemma sub_replaced : forall (by_ s out : str), replaced w cmd by_ s out -> re_sub cmd_re (fun _ => by_) s = out.
Proof.
  intros by_ s out R. rewrite re_sub_at0.
  assert (Go : forall s out, replaced w cmd by_ s out -> forall t pos, pos <= length t -> skipn pos t = s -> sub_at cmd_re (fun _ => by_) t pos = out).
  { clear s out R. intros s out R. induction R as [|r out Hr R IH|x r out Hx R IH]; intros t pos L E.
    - assert (length t <= pos) by (apply (f_equal (@List.length ch)) in E; rewrite skipn_length in E; cbn [List.length] in E; lia). rewrite sub_at_end by (auto using cmd_min). reflexivity.
    - assert (Lp : pos < length t). { apply (f_equal (@List.length ch)) in E. rewrite skipn_length, !app_length in E. cbn [List.length] in E. lia. }
      rewrite sub_at_step by (auto using cmd_min). rewrite (cmd_match t pos L) by (exists r; auto). cbn [m_end]. f_equal. apply IH; [|exact (skipn_more t pos cmd r E)].
      apply (f_equal (@List.length ch)) in E. rewrite skipn_length, !app_length in E. rewrite app_length. lia.
    - assert (Lp : pos < length t). { apply (f_equal (@List.length ch)) in E. rewrite skipn_length in E. cbn [List.length] in E. lia. }
      rewrite sub_at_step by (auto using cmd_min). rewrite (cmd_nomatch t pos L) by (intros q Q; apply Hx; congruence).
      assert (Sl : slice pos (S pos) t = [x]) by (unfold slice; rewrite E; replace (S pos - pos) with 1 by lia; reflexivity). rewrite Sl. cbn [List.app]. f_equal. apply IH; [lia|exact (skipn_more1 t pos x r E)]. }
  apply (Go s out R); [lia|reflexivity].
Qed.
Lemma replaced_total : forall (by_ : str) n (s : str), length s <= n -> exists out, replaced w cmd by_ s out.
Proof.
  intros by_. induction n as [|n IH]; intros s L; [destruct s; [exists []; constructor|cbn in L; lia]|].
  destruct s as [|x r]; [exists []; constructor|].
  destruct (startswith (x :: r) cmd) eqn:E.
  - apply startswith_spec in E as (q & E). destruct (starts_with w q) eqn:Hq.
    + destruct (IH r) as (out & R); [cbn in L; lia|]. exists (x :: out). constructor; [|exact R]. intros q' E'. rewrite E in E'. apply app_inv_head in E'. subst. exact Hq.
    + destruct (IH q) as (out & R). { apply (f_equal (@List.length ch)) in E. rewrite !app_length in E. cbn [List.length] in E, L. lia. }
      exists (by_ ++ out). rewrite E. constructor; assumption.
  - destruct (IH r) as (out & R); [cbn in L; lia|]. exists (x :: out). constructor; [|exact R]. intros q' E'. exfalso. rewrite E' in E. rewrite startswith_app in E. discriminate.
Qed.
Lemma sub_absent : forall (by_ s : str), ~ occurs cmd s -> re_search cmd_re s = None.
Proof.
  intros by_ s N. unfold re_search. apply re_search_none. intros i j Hi R. unfold cmd_re in R. apply rel_rseq2 in R as (k & R1 & _). apply rel_rstr in R1 as (_ & r & E). apply N. exists (firstn i s), r. rewrite <- E. symmetry. apply firstn_skipn.
Qed.
End Replace.

(** * The author *)
Lemma split_first : forall p a, author p a -> hd [] (split_char c_comma p) = a.
Proof.
  assert (Ne : forall s, split_char c_comma s <> []) by (intros s; destruct s as [|x s]; cbn [split_char]; [discriminate|]; destruct (N.eqb x c_comma); [discriminate|]; destruct (split_char c_comma s); discriminate).
  intros p a (N & H). revert p H. induction a as [|x a IH]; intros p H.
  - destruct H as [->|(r & ->)]; reflexivity.
  - assert (Hx : N.eqb x c_comma = false) by (apply N.eqb_neq; intros ->; apply N; left; reflexivity).
    assert (Hp : exists q, p = x :: q /\ (q = a \/ exists r, q = a ++ [c_comma] ++ r)) by (destruct H as [->|(r & ->)]; eexists; (split; [reflexivity|]); eauto).
    destruct Hp as (q & -> & Hq). cbn [split_char]. rewrite Hx. specialize (IH (fun I => N (or_intror I)) q Hq). specialize (Ne q). destruct (split_char c_comma q) as [|v vs]; [congruence|]. cbn [hd] in IH |- *. rewrite IH. reflexivity.
Qed.
Lemma template_plain : forall s, ~ In c_bs s -> template s = Some s.
Proof.
  induction s as [|x s IH]; intros N; [reflexivity|]. cbn [template]. destruct (N.eqb_spec x c_bs) as [->|_]; [exfalso; apply N; left; reflexivity|]. rewrite IH by (intros I; apply N; right; exact I). reflexivity.
Qed.

(** * The entries *)
Section Entries.
Variable w : ch -> bool.
Hypothesis Wk : w 107%N = true.
Hypothesis We : w 101%N = true.
Lemma newblock_eq : NewblockPattern w = cmd_re w (lit "\newbloc") 107%N. Proof. reflexivity. Qed.
Lemma bysame_eq : bysame_pattern w = cmd_re w (lit "\bysam") 101%N. Proof. reflexivity. Qed.
Lemma newblock_sub : forall s c, replaced w (lit "\newblock") [] s c -> re_sub (NewblockPattern w) (fun _ => []) s = c.
Proof. intros s c R. rewrite newblock_eq. apply sub_replaced; assumption. Qed.
Lemma content_exact : forall prev body c, content_of w prev body c -> item_content w prev (strip body) = Some c.
Proof.
  intros prev body c H. unfold item_content. cbv zeta. destruct H as [c -> R|p a c c' -> Au Na Nb R R2|p c -> Au R|p c -> R No]; rewrite (newblock_sub _ _ R).
  - reflexivity.
  - destruct p as [|x p].
    { destruct Au as (_ & [<-|(r & E)]); [congruence|destruct a; discriminate]. }
    rewrite (split_first _ _ Au). assert (S0 := sub_replaced w (lit "\bysam") 101%N We a c c' R2). rewrite <- bysame_eq in S0.
    destruct (re_search (bysame_pattern w) c) as [m|] eqn:Em.
    + destruct a as [|y a]; [congruence|]. rewrite (template_plain _ Nb). f_equal. exact S0.
    + f_equal. rewrite <- S0. unfold re_sub. cbn [re_sub_go]. unfold re_search in Em. rewrite Em. reflexivity.
  - destruct p as [|x p]; [reflexivity|]. rewrite (split_first _ _ Au). destruct (re_search _ _); reflexivity.
  - destruct p as [|x p]; [reflexivity|]. rewrite bysame_eq, (sub_absent w (lit "\bysam") 101%N [] c No). reflexivity.
Qed.
Lemma items_next : forall l t, items_text l t -> at_next t.
Proof. intros l t H. destruct H as [|it l s t H _]; [left; reflexivity|right]. destruct H; eexists; rewrite <- !app_assoc; reflexivity. Qed.
Lemma item_min : 0 < minlen BibItemPattern. Proof. apply Nat.ltb_lt. vm_compute. reflexivity. Qed.
Lemma no_item : forall t i, i <= length t -> (forall q, skipn i t <> item_word ++ q) -> re_match_at BibItemPattern t i = None.
Proof.
  intros t i L N. apply re_match_at_none; [exact L|]. intros j R. unfold BibItemPattern in R. cbn [rseq] in R. apply rel_rseq2 in R as (k & R1 & _). apply rel_rstr in R1 as (_ & q & E). exact (N q E).
Qed.
Lemma entries_go : forall t items T prev out, items_text items T -> entries_of w prev items out -> forall pos, pos <= length t -> skipn pos t = T ->
  entries w t prev (iter_at BibItemPattern t pos) = Some out.
Proof.
  intros t items T prev out HT. revert prev out. induction HT as [|it l s T Hs HT IH]; intros prev out HE pos L E.
  - inversion HE; subst. rewrite iter_at_end; [reflexivity|exact item_min|]. apply (f_equal (@List.length ch)) in E. rewrite skipn_length in E. cbn [List.length] in E. lia.
  - assert (A := items_next _ _ HT). destruct (item_match it t pos s T L E Hs A) as (e & c & M & G & Lt & He).
    assert (Lp : pos < length t). { destruct (le_lt_dec (length t) pos) as [X|X]; [|exact X]. rewrite skipn_all2 in E by lia. destruct Hs; discriminate E. }
    rewrite iter_at_step by (auto using item_min). rewrite M. cbn [entries m_end]. destruct (G {| m_start := pos; m_end := e; m_caps := c |} eq_refl) as (G1 & G2 & g & G3 & Sg). rewrite G1, G2, G3, Sg.
    assert (Next : forall prev out, entries_of w prev l out -> entries w t prev (iter_at BibItemPattern t e) = Some out).
    { intros pr o Ho. destruct He as [->|(ET & Ee)].
      - apply IH; [exact Ho| |exact (skipn_more t pos s T E)]. apply (f_equal (@List.length ch)) in E. rewrite skipn_length, app_length in E. lia.
      - assert (Hl : l = []) by (destruct HT as [|it2 l2 s2 t2 H2 _]; [reflexivity|exfalso; apply app_eq_nil in ET as [-> _]; inversion H2]). subst l. inversion Ho; subst.
        assert (Le : e < length t) by (apply (f_equal (@List.length ch)) in Ee; rewrite skipn_length in Ee; cbn [List.length] in Ee; lia).
        rewrite iter_at_step by (auto using item_min). rewrite no_item; [|lia|rewrite Ee; intros q Q; discriminate Q]. rewrite iter_at_end; [reflexivity|exact item_min|].
        apply (f_equal (@List.length ch)) in Ee. rewrite skipn_length in Ee. cbn [List.length] in Ee. lia. }
    inversion HE as [|pr it0 l0 o Bl Ho|pr it0 l0 c0 o lab Nb Co Hlab Ho]; subst.
    + assert (Z := proj2 (StyleProofs3.strip_nil_iff (so_body it)) Bl). destruct (strip (so_body it)); [|discriminate Z]. apply Next. exact Ho.
    + pose proof (content_exact _ _ _ Co) as X. destruct (strip (so_body it)) as [|y r] eqn:Es; [exfalso; apply Nb; apply StyleProofs3.strip_nil_iff; rewrite Es; reflexivity|].
      rewrite X, (Next _ _ Ho). cbn [option_map]. do 3 f_equal. destruct (so_label it) as [[|]|]; reflexivity.
Qed.
Theorem items_parsed : forall pre T items out, ~ occurs item_word pre -> items_text items T -> entries_of w None items out ->
  entries w (pre ++ T) None (re_finditer BibItemPattern (pre ++ T)) = Some out.
Proof.
  intros pre T items out N HT HE. change (re_finditer BibItemPattern (pre ++ T)) with (iter_at BibItemPattern (pre ++ T) 0).
  rewrite (iter_skip _ _ (length pre)); [|exact item_min|rewrite app_length; lia|].
  - eapply entries_go; [exact HT|exact HE|rewrite app_length; cbn; lia|apply DelimFinal.skipn_app_exact; reflexivity].
  - intros k Hk. apply no_item; [rewrite app_length; cbn; lia|]. intros q. cbn [plus]. rewrite skipn_app. replace (k - length pre) with 0 by lia. cbn [skipn].
    apply no_word_in; [|intros O; apply N; exact (occurs_skipn _ _ _ O)|exact (items_next _ _ HT)]. intros X. apply (f_equal (@List.length ch)) in X. rewrite skipn_length in X. cbn [List.length] in X. lia.
Qed.
End Entries.
