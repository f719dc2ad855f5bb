From Coq Require Import List NArith ZArith PeanoNat Lia Bool Permutation String.
From Verif Require Import PyStr Regex RegexLemmas RegexLocal RegexHead Json TexUtilsModel DelimSpec DelimProofs DelimFinal BuilderModel FactoryModel TableModel Placeholder PlaceModel PlaceProofs.
Import ListNotations.
Notation length := List.length.
Notation concat := List.concat.
Open Scope list_scope.

(** * Table structures *)
Definition sW := lit "`|TABLE_STRUCT".
Definition skey (i : nat) : str := lit "_" ++ str_of_nat i ++ lit "|`".
Definition sclean (t : str) : Prop := ~ occurs (lit "TABLE_STRUCT") t.
Lemma struct_key_split : forall i, struct_key i = placeholder sW skey i.
Proof. intros i. reflexivity. Qed.
Lemma skey_prefix : forall i j r s, skey i ++ r = skey j ++ s -> i = j.
Proof.
  intros i j r s E. unfold skey in E. rewrite <- !app_assoc in E. apply app_inv_head in E. cbn [lit list_ascii_of_string map app] in E.
  eapply num_cut in E; [exact E|reflexivity|reflexivity].
Qed.
Lemma sclean_gap : forall i t, sclean t -> ~ occurs sW (skey i ++ t).
Proof.
  intros i t H O. apply H. apply (occurs_suffix (lit "`|")) in O. eapply occurs_head_out; [|exact O].
  unfold skey. intros C. apply in_app_or in C as [C|C]; [cbn in C; intuition discriminate|]. apply in_app_or in C as [C|C]; [|cbn in C; intuition discriminate].
  apply num_digit in C. discriminate.
Qed.
Lemma sclean_text : forall t, sclean t -> ~ occurs sW t.
Proof. intros t H O. apply H. apply (occurs_suffix (lit "`|")) in O. exact O. Qed.

Lemma placeholder_struct : forall i, occurs (lit "TABLE_STRUCT") (struct_key i).
Proof. intros i. exists (lit "`|"), (skey i). reflexivity. Qed.
Lemma struct_key_chars : forall i (x : ch), In x (struct_key i) -> x <> c_bs /\ x <> c_rb.
Proof.
  intros i x H. unfold struct_key in H. apply in_app_or in H as [H|H].
  - cbn in H. split; intros ->; intuition discriminate.
  - apply in_app_or in H as [H|H]; [|cbn in H; split; intros ->; intuition discriminate].
    apply num_digit in H. split; intros ->; discriminate H.
Qed.

Definition idx (s : nat * str * str) : nat * str := (fst (fst s), snd (fst s)).
(** a cut that begins with a backslash, ends with a closing brace and contains
    no key lies in one gap: it can be replaced by a new placeholder *)
Lemma cut_in_gap : forall n M segs t0 A B, with_placeholders sW skey t0 segs = A ++ (c_bs :: M ++ [c_rb]) ++ B -> sclean (c_bs :: M ++ [c_rb]) ->
  exists t0' segs', with_placeholders sW skey t0' segs' = A ++ struct_key n ++ B /\ with_blocks t0' segs' = with_blocks t0 segs /\
    Permutation (map idx segs') ((n, c_bs :: M ++ [c_rb]) :: map idx segs).
Proof.
  intros n M. induction segs as [|[[i b] t] segs IH]; intros t0 A B E Hc; cbn [with_placeholders] in E.
  - exists A, [(n, c_bs :: M ++ [c_rb], B)]. split; [reflexivity|]. split; [|apply Permutation_refl]. cbn [with_blocks]. symmetry. exact E.
  - apply cut_app in E as [(e & E1 & E2)|(e & Ne & E1 & E2)].
    + (* A reaches beyond t0 *)
      apply cut_app in E2 as [(f & E3 & E4)|(f & Nf & E3 & E4)].
      * destruct (IH t f B E4 Hc) as (t' & segs' & H1 & H2 & H3). exists t0, ((i, b, t') :: segs'). split; [|split].
        -- cbn [with_placeholders]. rewrite H1, E1, E3, <- !app_assoc. reflexivity.
        -- cbn [with_blocks]. rewrite H2. reflexivity.
        -- cbn [map idx fst snd]. rewrite H3. apply perm_swap.
      * exfalso. destruct f as [|x f]; [congruence|]. cbn [app] in E4. injection E4 as <- _.
        assert (In c_bs (placeholder sW skey i)) as Hin by (rewrite E3; apply in_or_app; right; left; reflexivity).
        rewrite <- struct_key_split in Hin. apply struct_key_chars in Hin as [C _]. congruence.
    + apply cut_app in E2 as [(f & E3 & E4)|(f & Nf & E3 & E4)].
      * exists A, ((n, c_bs :: M ++ [c_rb], f) :: (i, b, t) :: segs). split; [|split].
        -- cbn [with_placeholders]. rewrite E4. reflexivity.
        -- cbn [with_blocks]. rewrite E1, E3, <- !app_assoc. reflexivity.
        -- apply Permutation_refl.
      * exfalso. (* the cut ends inside or after the placeholder *)
        apply cut_app in E4 as [(g & E5 & E6)|(g & Ng & E5 & E6)].
        -- apply Hc. rewrite E3, E5. apply occurs_app_r, occurs_app_l. rewrite <- struct_key_split. apply placeholder_struct.
        -- destruct (exists_last Nf) as (f' & x & Ef).
           assert (x = c_rb). { rewrite Ef in E3. change (c_bs :: M ++ [c_rb]) with ((c_bs :: M) ++ [c_rb]) in E3. rewrite app_assoc in E3. apply app_inj_tail in E3 as [_ <-]. reflexivity. }
           subst x. assert (In c_rb (placeholder sW skey i)) as Hin by (rewrite E5, Ef, <- app_assoc; apply in_or_app; right; left; reflexivity).
           rewrite <- struct_key_split in Hin. apply struct_key_chars in Hin as [_ C]. congruence.
Qed.

(** the consumed text of a run of groups ends with the closing delimiter *)
Lemma group_at_last : forall text b n, group_at c_lb c_rb text b n -> n <= length text /\ exists p, firstn n text = p ++ [c_rb].
Proof.
  intros text b n H. destruct H as (ws & rest & -> & Hb & Hbal & Hc & ->).
  split; [rewrite app_length; cbn [length]; rewrite app_length; cbn [length]; lia|]. exists (ws ++ [c_lb] ++ b).
  change (ws ++ c_lb :: b ++ c_rb :: rest) with (ws ++ [c_lb] ++ b ++ [c_rb] ++ rest).
  replace (ws ++ [c_lb] ++ b ++ [c_rb] ++ rest) with ((ws ++ [c_lb] ++ b ++ [c_rb]) ++ rest) by (rewrite <- !app_assoc; reflexivity).
  rewrite firstn_app. replace (length ws + 1 + length b + 1) with (length (ws ++ [c_lb] ++ b ++ [c_rb])) by (rewrite !app_length; cbn [length]; lia).
  rewrite Nat.sub_diag, firstn_all. cbn [firstn]. rewrite app_nil_r, <- !app_assoc. reflexivity.
Qed.
Lemma groups_at_last : forall text bs p, groups_at c_lb c_rb text bs p -> bs <> [] -> p <= length text /\ exists q, firstn p text = q ++ [c_rb].
Proof.
  induction 1 as [text|text b n bs m Hg Hgs IH]; intros Hne; [congruence|]. apply group_at_last in Hg as (L & q & E).
  destruct bs as [|b2 bs].
  - inversion Hgs; subst. rewrite Nat.add_0_r. eauto.
  - destruct (IH ltac:(discriminate)) as (L2 & q2 & E2). rewrite skipn_length in L2. split; [lia|]. exists (firstn n text ++ q2).
    rewrite <- (firstn_skipn n text) at 1. rewrite firstn_app, firstn_firstn, firstn_length.
    replace (Nat.min (n + m) n) with n by lia. replace (n + m - Nat.min n (length text)) with m by lia. rewrite E2, <- app_assoc. reflexivity.
Qed.

(** patterns that start with a backslash and end with an opening brace *)
Definition struct_pattern (r : re) : Prop := forall t i j, i <= length t -> rel r t i j -> i + 1 < j /\ exists x, skipn i t = c_bs :: x.
Lemma rel_rseq_bs : forall a r t i j, rel (RSeq (rstr (c_bs :: a)) r) t i j -> exists x, skipn i t = c_bs :: x.
Proof. intros a r t i j H. apply rel_rseq2 in H as (k & H & _). apply rel_rstr in H as (_ & q & E). cbn in E. eauto. Qed.
Lemma patterns_ok : Forall (fun p => struct_pattern (fst p)) struct_patterns.
Proof.
  unfold struct_patterns.
  apply Forall_cons; [|apply Forall_cons; [|apply Forall_cons; [|apply Forall_nil]]]; intros t i j Hi H;
    (split; [apply minlen_ok in H; match type of H with _ + minlen ?r <= _ => let v := eval vm_compute in (minlen r) in change (minlen r) with v in H end; lia|]).
  - eapply rel_rseq_bs. exact H.
  - eapply rel_rseq_bs. exact H.
  - apply rel_rseq2 in H as (k & H & _). apply rel_is_ch in H as (_ & q & E). eauto.
Qed.

Definition struct_inv (content cur : str) (n : nat) (refs : list (str * str)) : Prop :=
  (forall k s, In (k, s) refs -> sclean s) ->
  exists t0 segs blocks, cur = with_placeholders sW skey t0 segs /\ with_blocks t0 segs = content /\
    Permutation (map idx segs) blocks /\ refs = map (fun ib => (struct_key (fst ib), snd ib)) blocks /\ (forall i, In i (map fst blocks) -> i < n) /\ NoDup (map fst blocks).
Lemma struct_loop_ok : forall content pattern k, struct_pattern pattern -> forall fuel n refs before after,
  length after < fuel -> struct_inv content (before ++ after) n refs ->
  exists cur' n' refs', struct_loop fuel pattern k n refs before after = Some (cur', n', refs') /\ struct_inv content cur' n' refs'.
Proof.
  intros content pattern k Hp. induction fuel as [|f IH]; intros n refs before after Hf Inv; [lia|]. cbn [struct_loop].
  destruct (re_search pattern after) as [m|] eqn:E; [|eexists _, _, _; split; [reflexivity|exact Inv]].
  unfold re_search in E. apply re_search_some in E as (_ & Hm & Hr & _). assert (Hi0 : m_start m <= length after) by lia. destruct (Hp _ _ _ Hi0 Hr) as (Hlen & x & Hx).
  destruct (extract_nested_content_sequence_blocks (skipn (m_end m - 1) after) c_lb c_rb (Some k)) as [bs p] eqn:Eb.
  destruct (c03_blocks c_lb c_rb (skipn (m_end m - 1) after) (Some k) delims_curly) as (bs' & p' & Eb' & Hg & _). rewrite Eb in Eb'. injection Eb' as <- <-.
  destruct bs as [|b bs].
  - apply IH; [rewrite skipn_length; lia|]. rewrite <- app_assoc, firstn_skipn. exact Inv.
  - destruct (groups_at_last _ _ _ Hg ltac:(discriminate)) as (Hl & q & Hq). rewrite skipn_length in Hl.
    assert (Hp1 : 1 <= p). { destruct p; [cbn in Hq; destruct q; discriminate|lia]. }
    apply IH; [rewrite skipn_length; lia|].
    intros Hclean. set (s := m_start m) in *. set (e := m_end m - 1) in *.
    destruct Inv as (t0 & segs & blocks & H1 & H2 & H3 & H4 & H5 & H6); [intros k0 s0 Hin; apply (Hclean k0 s0); apply in_or_app; left; exact Hin|].
    assert (Hcut : after = firstn s after ++ slice s (e + p) after ++ skipn (e + p) after).
    { unfold slice. rewrite <- (firstn_skipn s after) at 1. f_equal. rewrite <- (firstn_skipn (e + p - s) (skipn s after)) at 1. f_equal. rewrite skipn_add. f_equal. lia. }
    assert (Hsl : exists M, slice s (e + p) after = c_bs :: M ++ [c_rb]).
    { rewrite (slice_split after s e (e + p)) by lia. unfold slice at 2. replace (e + p - e) with p by lia. rewrite Hq.
      unfold slice. rewrite Hx. destruct (e - s) as [|d] eqn:Ed; [lia|]. cbn [firstn app]. exists (firstn d x ++ q). rewrite <- app_assoc. reflexivity. }
    destruct Hsl as (M & HM).
    assert (HcM : sclean (c_bs :: M ++ [c_rb])). { apply (Hclean (struct_key n)). apply in_or_app. right. left. rewrite HM. reflexivity. }
    rewrite Hcut, HM in H1. rewrite app_assoc in H1. symmetry in H1.
    destruct (cut_in_gap n M segs t0 (before ++ firstn s after) (skipn (e + p) after) H1 HcM) as (t0' & segs' & G1 & G2 & G3).
    exists t0', segs', (blocks ++ [(n, c_bs :: M ++ [c_rb])]). split; [|split; [|split; [|split; [|split]]]].
    + rewrite G1, <- !app_assoc. reflexivity.
    + rewrite G2. exact H2.
    + rewrite G3, H3. apply Permutation_cons_append.
    + rewrite map_app, H4, HM. reflexivity.
    + intros i Hi. rewrite map_app in Hi. apply in_app_or in Hi as [Hi|[<-|[]]]; [apply H5 in Hi; lia|cbn; lia].
    + rewrite map_app. cbn [map fst]. eapply Permutation_NoDup; [apply Permutation_cons_append|]. constructor; [intros C; apply H5 in C; lia|exact H6].
Qed.

Theorem structures_round_trip : forall content, exists out refs, extract_table_structures content = Some (out, refs) /\
  (~ occurs (lit "TABLE_STRUCT") content -> (forall k s, In (k, s) refs -> ~ occurs (lit "TABLE_STRUCT") s) ->
   restore_placeholder_blocks out refs = content).
Proof.
  intros content. unfold extract_table_structures.
  assert (G : forall l, Forall (fun p => struct_pattern (fst p)) l -> forall cur n refs, struct_inv content cur n refs ->
    exists cur' n' refs', fold_left (fun st p => match st with None => None | Some (c, n, refs) => struct_loop (S (length c)) (fst p) (snd p) n refs [] c end) l (Some (cur, n, refs))
      = Some (cur', n', refs') /\ struct_inv content cur' n' refs').
  { induction 1 as [|p l Hp _ IH]; intros cur n refs Inv; [cbn; eauto 10|]. cbn [fold_left].
    destruct (struct_loop_ok content (fst p) (snd p) Hp (S (length cur)) n refs [] cur ltac:(lia) Inv) as (c' & n' & r' & E & Inv'). rewrite E. apply IH. exact Inv'. }
  destruct (G struct_patterns patterns_ok content 0 []) as (c' & n' & r' & E & Inv).
  { intros _. exists content, [], []. repeat split; [apply perm_nil|intros i []|constructor]. }
  rewrite E. exists c', r'. split; [reflexivity|]. intros Hc Hs. destruct (Inv Hs) as (t0 & segs & blocks & H1 & H2 & H3 & H4 & H5 & H6).
  assert (Hc' : sclean (with_blocks t0 segs)) by (rewrite H2; exact Hc).
  rewrite H1, H4.
  exact (eq_trans (restore_all sW (borderless_ok sW eq_refl) ltac:(discriminate) skey skey_prefix sclean (fun a b H => absent_app _ a b H) sclean_gap sclean_text blocks t0 segs H3 H6 Hc') H2).
Qed.
