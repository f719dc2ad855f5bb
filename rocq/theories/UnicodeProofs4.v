(** C110-C112: a round of the conversion does what the specification says. *)
From Coq Require Import List NArith ZArith PeanoNat Lia Bool String.
From Verif Require Import PyStr Regex RegexLemmas RegexHead UnicodeTable UnicodeModel UnicodeSpec UnicodeProofs UnicodeProofs2 UnicodeProofs3.
From Verif Require CommandProofs6.
Import ListNotations.
Notation length := List.length.
Notation concat := List.concat.
Open Scope list_scope.

Local Opaque unicode_table.

Definition round_re (c : kind) : re := ralt (map key_re (keys_of c)).
Lemma round_min : forall c, 0 < minlen (round_re c).
Proof.
  intros c. apply minlen_ralt. intros r H. apply in_map_iff in H as (k & <- & H). apply minlen_key. apply keys_in in H as [H _]. apply entry_len in H.
  intros ->. cbn in H. lia.
Qed.

Lemma quiet_match : forall c t i, quiet (keys_of c) (skipn i t) -> re_match_at (round_re c) t i = None.
Proof. intros c t i H. apply round_none. exact H. Qed.

Lemma skipn_in : forall (t u : str) pos a b, skipn pos t = a ++ b -> u = b -> skipn (pos + length a) t = u.
Proof. intros t u pos a b H ->. apply skipn_more with (s := a). exact H. Qed.

Section Round.
Variable c : kind.
Notation n := (round_no c).
Hypothesis Hn : 1 <= round_no c.
Variable t : str.
Notation go := (sub_at (round_re c) (command_value t) t).

Lemma n_le : round_no c <= 4.
Proof. destruct c; cbn; lia. Qed.

Lemma pass : forall u rest pos, skipn pos t = u ++ rest ->
  (forall a x b, u = a ++ x :: b -> quiet (keys_of c) (x :: b ++ rest)) -> go pos = u ++ go (pos + length u).
Proof.
  intros u rest pos E H. apply (copy (round_re c) (command_value t) (round_min c) u rest t pos E).
  intros a x b Eu. apply quiet_match. rewrite (skipn_in t (x :: b ++ rest) pos a (x :: b ++ rest)); [apply (H a x b Eu)| |reflexivity].
  rewrite E, Eu, <- app_assoc. reflexivity.
Qed.

Lemma pass_value : forall v rest pos, skipn pos t = v ++ rest -> plain_value v -> go pos = v ++ go (pos + length v).
Proof.
  intros v rest pos E H. apply (pass v rest pos E). intros a x b Ev. destruct (H x) as (H1 & H2 & _); [rewrite Ev; apply in_app_iff; right; left; reflexivity|].
  apply quiet_char; assumption.
Qed.

(** a command of another round *)
Lemma pass_command : forall k b w pos, skipn pos t = (k ++ tail_of b) ++ w ->
  k <> [] -> clear k -> (forall q, In q (keys_of c) -> apart q k) -> (ends_in_letter k -> alpha_head (tail_of b ++ w) = false) ->
  (ends_in_brace k -> brace_safe (tail_of b ++ w)) ->
  go pos = (k ++ tail_of b) ++ go (pos + length (k ++ tail_of b)).
Proof.
  intros k b w pos E Hk Hc Ha Hl Hb. apply (pass _ w pos E). intros a x r Eu.
  destruct (two_prefixes a k (k ++ tail_of b)) as [(z & P)|(z & P)]; [rewrite Eu; eexists; reflexivity|eexists; reflexivity| |].
  - (* the command ends before [x] *)
    subst a. rewrite <- app_assoc in Eu. apply app_inv_head in Eu. apply (quiet_tail c b z x r w Eu).
  - destruct z as [|y z].
    + rewrite app_nil_r in P. subst a. apply app_inv_head in Eu. change (x :: r) with ([] ++ x :: r) in Eu. apply (quiet_tail c b [] x r w Eu).
    + rewrite P, <- app_assoc in Eu. apply app_inv_head in Eu. cbn [List.app] in Eu. injection Eu as <- <-.
      destruct a as [|a0 a].
      * cbn [List.app] in P. intros q Q. rewrite <- app_assoc. change (kmatch q ((y :: z) ++ tail_of b ++ w) = None). rewrite <- P. apply apart_none; [apply Ha; exact Q|exact Hl].
      * rewrite <- app_assoc. apply (quiet_inside c k (a0 :: a) y z (tail_of b ++ w) Hc P); [discriminate|exact Hb].
Qed.

Lemma slice_whole : forall (pos : nat) u rest, skipn pos t = u ++ rest -> slice pos (pos + length u) t = u.
Proof. intros pos u rest E. unfold slice. rewrite E. replace (pos + length u - pos) with (length u) by lia. rewrite firstn_app, Nat.sub_diag, firstn_all. cbn [firstn]. apply app_nil_r. Qed.

(** a command of this round *)
Lemma strip_braces : forall k, begins k (lit "\") -> strip (k ++ lit "{}") = k ++ lit "{}".
Proof.
  intros k (m & ->). replace ((lit "\" ++ m) ++ lit "{}") with (c_bs :: (m ++ [c_lb]) ++ [c_rb]) by (cbn; rewrite <- app_assoc; reflexivity).
  apply CommandProofs6.strip_id2; reflexivity.
Qed.
Lemma ends_braces : forall k, endswith (k ++ lit "{}") (lit "{}") = true.
Proof. intros k. unfold endswith. rewrite rev_app_distr. apply startswith_app. Qed.
Lemma ends_no : forall k, ~ (exists a, k = a ++ lit "{}") -> endswith k (lit "{}") = false.
Proof.
  intros k H. apply Bool.not_true_is_false. intros E. apply H. unfold endswith in E. apply startswith_spec in E as (r & E).
  exists (rev r). rewrite <- (rev_involutive k), E, rev_app_distr, rev_involutive. reflexivity.
Qed.
Lemma value_here : forall k v b m w pos, recognised k v -> skipn pos t = (k ++ tail_of b) ++ w -> m_start m = pos -> m_end m = pos + length (k ++ tail_of b) ->
  command_value t m = v.
Proof.
  intros k v b m w pos (Ht & Hv & Hb & _ & _ & Hs & He & _) E M1 M2. unfold command_value, m_group0. rewrite M1, M2, (slice_whole pos _ w E).
  destruct b; cbn [tail_of].
  - rewrite strip_braces by exact Hb. cbv zeta. rewrite ends_braces. replace (firstn (length (k ++ lit "{}") - 2) (k ++ lit "{}")) with k.
    + rewrite Hs, (entry_assoc k v Ht). reflexivity.
    + rewrite app_length. change (length (lit "{}")) with 2. replace (length k + 2 - 2) with (length k) by lia. rewrite firstn_app, Nat.sub_diag, firstn_all. cbn [firstn]. rewrite app_nil_r. reflexivity.
  - rewrite app_nil_r, Hs. cbv zeta. rewrite (ends_no k He), (entry_assoc k v Ht). reflexivity.
Qed.
Lemma last_app1 : forall (a : str) x d, last (a ++ [x]) d = x.
Proof. induction a as [|y a IH]; intros x d; [reflexivity|]. cbn [List.app last]. rewrite IH. destruct a; reflexivity. Qed.
Lemma word_ends : forall k v, recognised k v -> (word_like k = true <-> ends_in_letter k).
Proof.
  intros k v (Ht & Hv & _). split.
  - intros W. pose proof (entry_word k v Ht Hv W) as L. pose proof (entry_len k (in_map fst _ _ Ht)) as Len. destruct k as [|y k] using rev_ind; [cbn in Len; lia|].
    rewrite last_app1 in L. apply alpha_iff in L. exists k, y. auto.
  - intros (a & x & -> & L). rewrite word_last. apply alpha_iff in L. rewrite L. reflexivity.
Qed.

Lemma convert_command : forall k v b l pos, kind_of k = c -> well l -> good_item (Co k v b) l -> skipn pos t = (k ++ tail_of b) ++ stage n l ->
  go pos = v ++ go (pos + length (k ++ tail_of b)).
Proof.
  intros k v b l pos Hc Hl Hg E. pose proof Hg as (Hr & Hb & Hbr & Hw). pose proof Hr as (Ht & Hv & Hbs & _ & _ & _ & _ & _ & Hs).
  assert (Lk : 2 <= length k) by (apply entry_len; apply (in_map fst _ _ Ht)).
  destruct (keys_split k v Ht) as (a & b' & Ek & Ea). rewrite Hc in Ek.
  assert (M : re_match_at (round_re c) t pos = Some {| m_start := pos; m_end := pos + length (k ++ tail_of b); m_caps := [] |}).
  { unfold round_re. rewrite Ek. apply round_some.
    - intros q Q. destruct (Ea q Q) as [Q1 Q2]. rewrite E, <- app_assoc. apply apart_none; [apply Hs; assumption|]. intros L. apply (tail_head n b k l v Hn Hl Hg L).
    - rewrite E, <- app_assoc. unfold kmatch. destruct (word_like k) eqn:W.
      + apply (word_ends k v Hr) in W. destruct b.
        * cbn [tail_of]. rewrite (app_assoc k), startswith_app, app_length. reflexivity.
        * cbn [tail_of List.app]. rewrite app_nil_r. destruct (Hw eq_refl W) as [N1 N2].
          replace (startswith (k ++ stage n l) (k ++ lit "{}")) with false.
          -- rewrite startswith_app, skipn_app, skipn_all, Nat.sub_diag. cbn [skipn List.app]. rewrite (stage_no_letter n l Hn Hl N1). reflexivity.
          -- symmetry. apply Bool.not_true_is_false. intros B. apply startswith_spec in B as (z & B). rewrite <- app_assoc in B. apply app_inv_head in B.
             pose proof n_le as N4. clear - N2 B Hl Hn N4. destruct l as [|i l]; [discriminate|]. destruct Hl as [Hi Hl]. rewrite stage_cons in B.
             destruct i as [x|ds|k' v' b0|k']; cbn [stage1] in B.
             ++ cbn [List.app] in B. injection B as Bx B. destruct l as [|i2 l]; [discriminate|]. destruct Hl as [Hi2 Hl]. rewrite stage_cons in B.
                destruct i2 as [x2|ds2|k2 v2 b2|k2]; cbn [stage1] in B.
                ** injection B as Bx2 B. cbn in N2. apply N2. split; assumption.
                ** replace (Nat.ltb 0 n) with true in B by (symmetry; apply Nat.ltb_lt; lia). injection B as Bx2 B. destruct Hi2 as (_ & _ & _ & P & _). destruct (P (number ds2)) as (_ & _ & P3); [left; reflexivity|]. apply P3. exact Bx2.
                ** destruct Hi2 as [(Ht2 & Hv2 & (m2 & Hm2) & _ & _ & _ & _ & Hp2 & _) _]. destruct (Nat.ltb (rank k2) n) eqn:R.
                   --- apply Nat.ltb_lt in R. destruct Hp2 as [Hp2|Hp2].
                       { destruct (turn_rank k2) as [T _]; [apply (in_map fst _ _ Ht2)|]. pose proof (turn_one _ _ _ Hp2 T). lia. }
                       destruct v2 as [|y v2]; [congruence|]. injection B as By B. destruct (Hp2 y) as (_ & _ & P3); [left; reflexivity|]. apply P3. exact By.
                   --- rewrite Hm2 in B. discriminate.
                ** destruct Hi2 as [((m2 & Hm2) & _) _]. rewrite Hm2 in B. discriminate.
             ++ replace (Nat.ltb 0 n) with true in B by (symmetry; apply Nat.ltb_lt; lia). injection B as Bx B. destruct Hi as (_ & _ & _ & P & _). destruct (P (number ds)) as (_ & P2 & _); [left; reflexivity|]. apply P2. exact Bx.
             ++ destruct Hi as [(Ht2 & Hv2 & (m2 & Hm2) & _ & _ & _ & _ & Hp2 & _) _]. destruct (Nat.ltb (rank k') n) eqn:R.
                --- apply Nat.ltb_lt in R. destruct Hp2 as [Hp2|Hp2].
                    { destruct (turn_rank k') as [T _]; [apply (in_map fst _ _ Ht2)|]. pose proof (turn_one _ _ _ Hp2 T). lia. }
                    destruct v' as [|y v']; [congruence|]. injection B as By B. destruct (Hp2 y) as (_ & P2 & _); [left; reflexivity|]. apply P2. exact By.
                --- rewrite Hm2 in B. discriminate.
             ++ destruct Hi as [((m2 & Hm2) & _) _]. rewrite Hm2 in B. discriminate.
      + destruct b.
        * exfalso. specialize (Hb eq_refl). apply (word_ends k v Hr) in Hb. congruence.
        * cbn [tail_of List.app]. rewrite app_nil_r, startswith_app. reflexivity. }
  assert (L : pos < length t).
  { destruct k as [|k0 k]; [cbn in Lk; lia|]. apply (skipn_cons_lt t pos k0 ((k ++ tail_of b) ++ stage n l)). exact E. }
  rewrite sub_at_step by (try apply round_min; exact L). rewrite M. f_equal. apply (value_here k v b _ (stage n l) pos Hr E); reflexivity.
Qed.

Lemma round_items : forall l pos, well l -> skipn pos t = stage n l -> go pos = stage (S n) l.
Proof.
  induction l as [|i l IH]; intros pos Hw E.
  - apply sub_at_end; [apply round_min|]. destruct (Nat.lt_ge_cases pos (length t)) as [L|L]; [|exact L]. exfalso. apply (f_equal (@length ch)) in E. rewrite skipn_length in E. cbn in E. lia.
  - destruct Hw as [Hi Hl]. rewrite stage_cons in *. pose proof n_le as N4.
    assert (Next : forall u, skipn pos t = u ++ stage n l -> go (pos + length u) = stage (S n) l).
    { intros u Eu. apply IH; [exact Hl|]. apply (skipn_more t pos u). exact Eu. }
    destruct i as [x|ds|k v b|k]; cbn [stage1] in *.
    + rewrite (pass [x] (stage n l) pos E).
      * rewrite (Next [x] E). reflexivity.
      * intros a y b Ea. destruct a as [|? [|? ?]]; [|discriminate|discriminate]. injection Ea as <- <-. cbn [List.app]. destruct Hi as [H1 H2]. destruct (N.eq_dec x c_lb) as [->|D].
        -- apply quiet_brace. apply open_safe; [lia|exact Hl|]. apply H2. reflexivity.
        -- apply quiet_char; assumption.
    + replace (Nat.ltb 0 n) with true in E by (symmetry; apply Nat.ltb_lt; lia). replace (Nat.ltb 0 (S n)) with true by reflexivity.
      rewrite (pass_value [number ds] (stage n l) pos E); [|apply Hi]. rewrite (Next _ E). reflexivity.
    + pose proof Hi as (Hr & Hb & Hbr & Hnx). pose proof Hr as (Ht & Hv & Hbs & Hcl & _ & _ & _ & Hp & Hs). pose proof (in_map fst _ _ Ht) as Hin. cbn [fst] in Hin.
      destruct (Nat.ltb (rank k) n) eqn:R1.
      * apply Nat.ltb_lt in R1. replace (Nat.ltb (rank k) (S n)) with true by (symmetry; apply Nat.ltb_lt; lia).
        rewrite (pass_value v (stage n l) pos E); [rewrite (Next _ E); reflexivity|]. destruct Hp as [Hp|Hp]; [|exact Hp].
        exfalso. pose proof (turn_one _ _ _ Hp (proj1 (turn_rank k Hin))). lia.
      * apply Nat.ltb_ge in R1. change (skipn pos t = (k ++ tail_of b) ++ stage n l) in E. destruct (Nat.eq_dec (rank k) n) as [Re|Rn].
        -- replace (Nat.ltb (rank k) (S n)) with true by (symmetry; apply Nat.ltb_lt; lia).
           assert (Hk : kind_of k = c) by (unfold rank in Re; destruct (kind_of k), c; cbn in Re; congruence).
           rewrite (convert_command k v b l pos Hk Hl Hi E). rewrite (Next _ E). reflexivity.
        -- replace (Nat.ltb (rank k) (S n)) with false by (symmetry; apply Nat.ltb_ge; lia).
           rewrite (pass_command k b (stage n l) pos E); [rewrite (Next _ E); reflexivity| | | | |].
           ++ intros ->. destruct Hbs as (m & Hm). discriminate.
           ++ exact Hcl.
           ++ intros q Q. apply keys_in in Q as [Q1 Q2]. apply Hs; [exact Q1|]. apply sooner_rank; [exact Q1|exact Hin|]. unfold rank in *. rewrite Q2. lia.
           ++ intros L. apply (tail_head n b k l v Hn Hl Hi L).
           ++ intros B. destruct b.
              ** exfalso. destruct (Hb eq_refl) as (a1 & x1 & E1 & L1). destruct B as (a2 & E2). rewrite E1 in E2. apply app_inj_tail in E2 as [_ E2]. subst x1. destruct L1; unfold c_lb in *; lia.
              ** cbn [tail_of List.app]. apply open_safe; [lia|exact Hl|]. apply Hbr. exact B.
    + destruct Hi as ((Hbs & Hcl & _ & Hs) & Hbr & Hnl). assert (E' : skipn pos t = (k ++ tail_of false) ++ stage n l) by (cbn [tail_of]; rewrite app_nil_r; exact E).
      rewrite (pass_command k false (stage n l) pos E').
      * rewrite (Next _ E'). cbn [tail_of]. rewrite app_nil_r. reflexivity.
      * intros ->. destruct Hbs as (m & Hm). discriminate.
      * exact Hcl.
      * intros q Q. apply keys_in in Q as [Q1 _]. apply Hs. exact Q1.
      * intros L. cbn [tail_of List.app]. apply stage_no_letter; [exact Hn|exact Hl|]. apply Hnl. exact L.
      * intros B. cbn [tail_of List.app]. apply open_safe; [lia|exact Hl|]. apply Hbr. exact B.
Qed.
End Round.

Lemma round_stage : forall c l, 1 <= round_no c -> well l -> round_of c (stage (round_no c) l) = stage (S (round_no c)) l.
Proof.
  intros c l Hn H. unfold round_of. destruct (keys_of c) as [|k0 ks] eqn:Ek.
  - (* no key: nothing has this rank *)
    assert (R : forall k, In k (map fst unicode_table) -> rank k <> round_no c).
    { intros k K R. apply key_in in K as (v & K). destruct (keys_split k v K) as (a & b & E & _).
      assert (Hk : kind_of k = c) by (unfold rank in R; destruct (kind_of k), c; cbn in R; congruence). rewrite Hk, Ek in E. destruct a; discriminate. }
    clear Ek. induction l as [|i l IH]; [reflexivity|]. destruct H as [Hi Hl]. rewrite !stage_cons, IH by exact Hl. f_equal.
    destruct i as [x|ds|k v b|k]; cbn [stage1]; try reflexivity.
    + destruct (round_no c); [lia|]. reflexivity.
    + destruct Hi as [Hr _]. apply recog_key in Hr. specialize (R k Hr). destruct (Nat.ltb (rank k) (round_no c)) eqn:R1.
      * apply Nat.ltb_lt in R1. replace (Nat.ltb (rank k) (S (round_no c))) with true by (symmetry; apply Nat.ltb_lt; lia). reflexivity.
      * apply Nat.ltb_ge in R1. replace (Nat.ltb (rank k) (S (round_no c))) with false by (symmetry; apply Nat.ltb_ge; lia). reflexivity.
  - rewrite <- Ek. change (re_sub (round_re c) (command_value (stage (round_no c) l)) (stage (round_no c) l) = stage (S (round_no c)) l).
    rewrite re_sub_at0. apply (round_items c Hn _ l 0 H). reflexivity.
Qed.
