(** C110-C112: the \uXXXX sequences, and the whole conversion. *)
From Coq Require Import List NArith ZArith PeanoNat Lia Bool String.
From Verif Require Import PyStr Regex RegexLemmas RegexHead UnicodeTable UnicodeModel UnicodeSpec UnicodeProofs UnicodeProofs2 UnicodeProofs3 UnicodeProofs4.
Import ListNotations.
Notation length := List.length.
Notation concat := List.concat.
Open Scope list_scope.

Local Opaque unicode_table.

Lemma hex_int_number : forall ds, Forall a_hex ds -> hex_int ds = number ds.
Proof.
  intros ds. unfold hex_int, number. generalize 0%N. induction ds as [|x ds IH]; intros m H; [reflexivity|]. inversion H as [|x0 l0 Hx Hd]; subst.
  cbn [fold_left number_from]. rewrite IH by exact Hd. f_equal. f_equal. unfold hex_digit, digit_value, in_range.
  destruct Hx as [Hx|[Hx|Hx]].
  - replace ((48 <=? x) && (x <=? 57))%N with true by (symmetry; apply andb_true_intro; rewrite !N.leb_le; lia). replace (x <? 58)%N with true by (symmetry; apply N.ltb_lt; lia). reflexivity.
  - replace ((48 <=? x) && (x <=? 57))%N with false by (symmetry; apply Bool.andb_false_intro2; apply N.leb_gt; lia).
    replace ((97 <=? x) && (x <=? 102))%N with true by (symmetry; apply andb_true_intro; rewrite !N.leb_le; lia).
    replace (x <? 58)%N with false by (symmetry; apply N.ltb_ge; lia). replace (x <? 71)%N with false by (symmetry; apply N.ltb_ge; lia). reflexivity.
  - replace ((48 <=? x) && (x <=? 57))%N with false by (symmetry; apply Bool.andb_false_intro2; apply N.leb_gt; lia).
    replace ((97 <=? x) && (x <=? 102))%N with false by (symmetry; apply Bool.andb_false_intro1; apply N.leb_gt; lia).
    replace (x <? 58)%N with false by (symmetry; apply N.ltb_ge; lia). replace (x <? 71)%N with true by (symmetry; apply N.ltb_lt; lia). reflexivity.
Qed.

Lemma hexa_rel : forall t i j, rel hex_re t i j -> j = S i /\ exists x r, skipn i t = x :: r /\ hexa x = true.
Proof.
  intros t i j H. inversion H as [|p t' i' y K1 K2| | | | | | | | | | | |]; subst. split; [reflexivity|]. rewrite nth_error_skipn in K1.
  destruct (skipn i t) as [|z r]; [discriminate|]. injection K1 as ->. eauto.
Qed.
Lemma escape_rel : forall t i j, rel escape_re t i j ->
  exists a b c d r, skipn i t = lit "\u" ++ a :: b :: c :: d :: r /\ hexa a = true /\ hexa b = true /\ hexa c = true /\ hexa d = true.
Proof.
  intros t i j H. unfold escape_re in H. apply rel_rseq2 in H as (j1 & H1 & H). apply rel_rstr in H1 as (-> & r1 & E1). apply rel_grp1 in H.
  apply rel_rseq2 in H as (j2 & H1 & H). apply hexa_rel in H1 as (-> & a & r2 & Ea & Ha).
  apply rel_rseq2 in H as (j3 & H1 & H). apply hexa_rel in H1 as (-> & b & r3 & Eb & Hb).
  apply rel_rseq2 in H as (j4 & H1 & H). apply hexa_rel in H1 as (-> & c & r4 & Ec & Hc).
  apply rel_rseq2 in H as (j5 & H1 & H). apply hexa_rel in H1 as (-> & d & r5 & Ed & Hd).
  pose proof (skipn_more t i (lit "\u") r1 E1) as K. pose proof (skipn_more1 _ _ _ _ Ea) as K2. pose proof (skipn_more1 _ _ _ _ Eb) as K3. pose proof (skipn_more1 _ _ _ _ Ec) as K4.
  exists a, b, c, d, r5. split; [|auto]. rewrite E1. f_equal. rewrite <- K, Ea. f_equal. rewrite <- K2, Eb. f_equal. rewrite <- K3, Ec. f_equal. rewrite <- K4, Ed. reflexivity.
Qed.
Definition starts_escape (s : str) : Prop := exists a b c d r, s = lit "\u" ++ a :: b :: c :: d :: r /\ hexa a = true /\ hexa b = true /\ hexa c = true /\ hexa d = true.
Lemma escape_none : forall t i, i <= length t -> ~ starts_escape (skipn i t) -> re_match_at escape_re t i = None.
Proof.
  intros t i L H. destruct (re_match_at escape_re t i) as [m|] eqn:E; [|reflexivity]. exfalso. apply H. apply re_match_at_some in E; [|exact L].
  destruct E as (_ & E & _). apply escape_rel in E. exact E.
Qed.

(** exactly the digits that are written *)
Lemma fm_hex : forall t i c x r, skipn i t = x :: r -> hexa x = true -> first_match hex_re t i c (S i) c.
Proof. intros t i c x r E H. apply (fm_chr hexa t i c x r E H). Qed.
Definition no_hex (r : str) : Prop := match r with x :: _ => hexa x = false | [] => True end.
Lemma rm_hex_none : forall t i c r, skipn i t = r -> no_hex r -> rm hex_re t i c = [].
Proof. intros t i c r E H. apply rm_chr_none. rewrite E. destruct r; [reflexivity|exact H]. Qed.
Lemma fm_end : forall a t i c, rm a t i c = [] -> first_match (ropt a) t i c i c.
Proof. intros a t i c H. apply fm_alt_right; [exact H|apply fm_eps]. Qed.

Lemma escape_match : forall t i ds r, skipn i t = (lit "\u" ++ ds) ++ r -> Forall a_hex ds -> 4 <= length ds <= 6 -> (length ds < 6 -> no_hex r) ->
  re_match_at escape_re t i = Some {| m_start := i; m_end := i + length (lit "\u" ++ ds); m_caps := [(1, (i + 2, i + 2 + length ds))] |}.
Proof.
  intros t i ds r E H L N. rewrite <- app_assoc in E. apply fm_match. rewrite app_length. change (length (lit "\u")) with 2. rewrite Nat.add_assoc.
  unfold escape_re. eapply fm_seq; [apply (fm_rstr (lit "\u") t i [] (ds ++ r)); exact E|]. change (length (lit "\u")) with 2.
  pose proof (skipn_more t i (lit "\u") (ds ++ r) E) as E0. change (length (lit "\u")) with 2 in E0. apply fm_grp.
  assert (Hx : forall x, In x ds -> hexa x = true) by (intros x X; apply hexa_iff; apply (proj1 (Forall_forall _ _) H x X)).
  destruct ds as [|a [|b [|c [|d ds]]]]; try (cbn in L; lia). cbn [List.app] in E0.
  assert (Ha : hexa a = true) by (apply Hx; left; reflexivity).
  assert (Hb : hexa b = true) by (apply Hx; right; left; reflexivity).
  assert (Hc : hexa c = true) by (apply Hx; do 2 right; left; reflexivity).
  assert (Hd : hexa d = true) by (apply Hx; do 3 right; left; reflexivity).
  pose proof (skipn_more1 _ _ _ _ E0) as E1. pose proof (skipn_more1 _ _ _ _ E1) as E2. pose proof (skipn_more1 _ _ _ _ E2) as E3. pose proof (skipn_more1 _ _ _ _ E3) as E4.
  eapply fm_seq; [apply (fm_hex _ _ _ _ _ E0 Ha)|]. eapply fm_seq; [apply (fm_hex _ _ _ _ _ E1 Hb)|]. eapply fm_seq; [apply (fm_hex _ _ _ _ _ E2 Hc)|].
  eapply fm_seq; [apply (fm_hex _ _ _ _ _ E3 Hd)|].
  destruct ds as [|e ds].
  - replace (i + 2 + length [a; b; c; d]) with (S (S (S (S (i + 2))))) by (cbn; lia). apply fm_end. apply rm_seq_none. apply (rm_hex_none _ _ _ r E4). apply N. cbn. lia.
  - cbn [List.app] in E4. assert (He : hexa e = true) by (apply Hx; do 4 right; left; reflexivity). pose proof (skipn_more1 _ _ _ _ E4) as E5.
    apply fm_alt_left. eapply fm_seq; [apply (fm_hex _ _ _ _ _ E4 He)|]. destruct ds as [|f ds].
    + replace (i + 2 + length [a; b; c; d; e]) with (S (S (S (S (S (i + 2)))))) by (cbn; lia). apply fm_end. apply (rm_hex_none _ _ _ r E5). apply N. cbn. lia.
    + cbn [List.app] in E5. assert (Hf : hexa f = true) by (apply Hx; do 5 right; left; reflexivity). destruct ds as [|g ds]; [|cbn in L; lia].
      replace (i + 2 + length [a; b; c; d; e; f]) with (S (S (S (S (S (S (i + 2))))))) by (cbn; lia). apply fm_alt_left. apply (fm_hex _ _ _ _ _ E5 Hf).
Qed.

Lemma escape_min : 0 < minlen escape_re.
Proof. cbn. lia. Qed.

(** a command does not begin a sequence *)
Lemma command_no_escape : forall k w, begins k (lit "\") -> 2 <= length k -> no_escape k -> ~ starts_escape (k ++ w).
Proof.
  intros k w (m & Ek) L N (a & b & c & d & r & E & Ha & Hb & Hc & Hd). destruct m as [|u m]; [rewrite Ek in L; cbn in L; lia|].
  rewrite Ek in E. injection E as Eu E. subst u. destruct (N m Ek) as (p & x & q & Em & Lp & Hx). rewrite Em in E. rewrite <- app_assoc in E. cbn [List.app] in E.
  apply Hx. apply hexa_iff.
  destruct p as [|p0 [|p1 [|p2 [|p3 p]]]]; [| | | |cbn in Lp; lia]; injection E as E0; subst; congruence.
Qed.
Lemma char_no_escape : forall x s, x <> c_bs -> ~ starts_escape (x :: s).
Proof. intros x s H (a & b & c & d & r & E & _). injection E as E _. contradiction. Qed.

Lemma a_key : exists m : str, In (c_bs :: m) (map fst unicode_table).
Proof. exists (lit "qedhere"). apply (in_map fst unicode_table (lit "\qedhere", [9633%N])). Local Transparent unicode_table. unfold unicode_table. do 2 right. left. reflexivity. Qed.
Local Opaque unicode_table.
Lemma unknown_len : forall k, unknown k -> 2 <= length k.
Proof.
  intros k ((m & Ek) & _ & _ & H). destruct m as [|y m]; [|rewrite Ek; cbn; lia]. exfalso. destruct a_key as (q & Hq). destruct (H _ Hq) as [_ H2].
  rewrite Ek in H2. destruct H2 as (s & x & y & r & E1 & _ & Lx & _); [exists q; reflexivity|].
  destruct s as [|z s]; [|destruct s; discriminate]. cbn in E1. injection E1 as <-. destruct Lx; lia.
Qed.

(** * The first round *)
Section First.
Variable t : str.
Notation go := (sub_at escape_re (escape_value t) t).

Lemma pass0 : forall k w pos, skipn pos t = k ++ w -> (match k with [] => True | x :: r => x <> c_bs \/ (clear k /\ ~ starts_escape (k ++ w)) end) ->
  (forall x r, k = x :: r -> x <> c_bs -> r = []) ->
  go pos = k ++ go (pos + length k).
Proof.
  intros k w pos E H H1. apply (copy escape_re (escape_value t) escape_min k w t pos E). intros a x b Ek.
  assert (Es : skipn (pos + length a) t = x :: b ++ w).
  { apply (skipn_more t pos a). rewrite E, Ek, <- app_assoc. reflexivity. }
  apply escape_none; [apply skipn_cons_lt in Es; lia|]. rewrite Es. destruct a as [|a0 a].
  - cbn [List.app] in Ek. subst k. destruct H as [H|[_ H]]; [apply char_no_escape; exact H|exact H].
  - apply char_no_escape. cbn [List.app] in Ek. subst k. destruct H as [H|[Hc _]].
    + specialize (H1 a0 (a ++ x :: b) eq_refl H). destruct a; discriminate.
    + apply (Hc (a0 :: a) x b eq_refl). discriminate.
Qed.

Lemma slice_part : forall pos (u : str) v rest, skipn pos t = u ++ v ++ rest -> slice (pos + length u) (pos + length u + length v) t = v.
Proof. intros pos u v rest E. unfold slice. rewrite (skipn_more t pos u (v ++ rest) E). replace (pos + length u + length v - (pos + length u)) with (length v) by lia. rewrite firstn_app, Nat.sub_diag, firstn_all. cbn [firstn]. apply app_nil_r. Qed.

Lemma first_items : forall l pos, well l -> skipn pos t = stage 0 l -> go pos = stage 1 l.
Proof.
  induction l as [|i l IH]; intros pos Hw E.
  - apply sub_at_end; [apply escape_min|]. destruct (Nat.lt_ge_cases pos (length t)) as [L|L]; [|exact L]. exfalso. apply (f_equal (@length ch)) in E. rewrite skipn_length in E. cbn in E. lia.
  - destruct Hw as [Hi Hl]. rewrite stage_cons in *.
    assert (Next : forall u, skipn pos t = u ++ stage 0 l -> go (pos + length u) = stage 1 l).
    { intros u Eu. apply IH; [exact Hl|]. apply (skipn_more t pos u). exact Eu. }
    destruct i as [x|ds|k v b|k]; cbn [stage1] in *.
    + rewrite (pass0 [x] (stage 0 l) pos E).
      * rewrite (Next [x] E). reflexivity.
      * left. apply Hi.
      * intros y r Ey _. injection Ey as _ <-. reflexivity.
    + destruct Hi as (Hd & Hx & Hm & Hp & Hn). change (Nat.ltb 0 0) with false in E. change (Nat.ltb 0 1) with true. cbn iota in *.
      assert (M : re_match_at escape_re t pos = Some {| m_start := pos; m_end := pos + length (lit "\u" ++ ds); m_caps := [(1, (pos + 2, pos + 2 + length ds))] |}).
      { apply (escape_match t pos ds (stage 0 l) E Hx Hd). intros L. specialize (Hn L). destruct l as [|i l]; [exact I|]. destruct Hl as [Hi Hl]. rewrite stage_cons.
        destruct i as [y|ds'|k' v' b'|k']; cbn [stage1].
        - cbn [List.app no_hex]. apply Bool.not_true_is_false. rewrite hexa_iff. exact Hn.
        - reflexivity.
        - destruct Hi as [(_ & _ & (m & Hk) & _) _]. change (Nat.ltb (rank k') 0) with false. cbn iota. rewrite Hk. reflexivity.
        - destruct Hi as [((m & Hk) & _) _]. rewrite Hk. reflexivity. }
      assert (L : pos < length t) by (apply (skipn_cons_lt t pos c_bs (117%N :: ds ++ stage 0 l)); exact E).
      rewrite sub_at_step by (try apply escape_min; exact L). rewrite M. cbn [m_end]. rewrite (Next _ E). f_equal.
      unfold escape_value, m_group. cbn [m_caps cap_get Nat.eqb option_map].
      rewrite <- app_assoc in E. pose proof (slice_part pos (lit "\u") ds (stage 0 l) E) as Sl. change (length (lit "\u")) with 2 in Sl. rewrite Sl, (hex_int_number ds Hx).
      replace (N.leb (number ds) 1114111) with true by (symmetry; apply N.leb_le; exact Hm). reflexivity.
    + destruct Hi as [Hr Hrest]. pose proof Hr as (Ht & Hv & Hb & Hc & Hn & _). pose proof (in_map fst _ _ Ht) as Hin. cbn [fst] in Hin.
      change (Nat.ltb (rank k) 0) with false in E. cbn iota in E. change (skipn pos t = (k ++ tail_of b) ++ stage 0 l) in E.
      replace (Nat.ltb (rank k) 1) with false by (symmetry; apply Nat.ltb_ge; apply turn_rank in Hin as [_ Hin]; lia). cbn iota.
      change (go pos = (k ++ tail_of b) ++ stage 1 l). rewrite <- (Next _ E).
      assert (E1 : skipn pos t = k ++ (tail_of b ++ stage 0 l)) by (rewrite E, <- app_assoc; reflexivity).
      rewrite (pass0 k (tail_of b ++ stage 0 l) pos E1).
      * rewrite <- app_assoc, app_length. f_equal. destruct b; cbn [tail_of]; [|cbn [List.app length]; rewrite Nat.add_0_r; reflexivity].
        pose proof (skipn_more t pos k _ E1) as E2. cbn [tail_of] in E2.
        change (lit "{}" ++ stage 0 l) with ([c_lb] ++ ([c_rb] ++ stage 0 l)) in E2. rewrite (pass0 [c_lb] _ _ E2); [|left; discriminate|intros y r Ey _; injection Ey as _ <-; reflexivity].
        pose proof (skipn_more t _ [c_lb] _ E2) as E3. rewrite (pass0 [c_rb] _ _ E3); [|left; discriminate|intros y r Ey _; injection Ey as _ <-; reflexivity].
        change (length (lit "{}")) with 2. cbn [length]. replace (pos + length k + 1 + 1) with (pos + (length k + 2)) by lia. reflexivity.
      * destruct k as [|k0 k]; [exact I|]. right. split; [exact Hc|]. apply command_no_escape; [exact Hb|apply entry_len; exact Hin|exact Hn].
      * intros x r Ek Hx. destruct Hb as (m & Hb). rewrite Hb in Ek. injection Ek as Ek _. exfalso. apply Hx. symmetry. exact Ek.
    + destruct Hi as [Hu _]. pose proof Hu as (Hb & Hc & Hn & _). rewrite (pass0 k (stage 0 l) pos E).
      * rewrite (Next _ E). reflexivity.
      * destruct k as [|k0 k]; [exact I|]. right. split; [exact Hc|]. apply command_no_escape; [exact Hb|apply unknown_len; exact Hu|exact Hn].
      * intros x r Ek Hx. destruct Hb as (m & Hb). rewrite Hb in Ek. injection Ek as Ek _. exfalso. apply Hx. symmetry. exact Ek.
Qed.
End First.

(** * The whole conversion *)
Lemma convert_items : forall l, well l -> convert (written l) = meant l.
Proof.
  intros l H. unfold convert. cbv zeta. rewrite <- (stage_first l).
  assert (E : re_sub escape_re (escape_value (stage 0 l)) (stage 0 l) = stage 1 l) by (rewrite re_sub_at0; apply (first_items _ l 0 H); reflexivity).
  rewrite E. cbn [fold_left].
  replace (round_of Kensuremath (stage 1 l)) with (stage 1 l) by (unfold round_of; rewrite no_ensuremath; reflexivity).
  pose proof (round_stage Ktext l) as R1. pose proof (round_stage Kmath l) as R2. pose proof (round_stage Kfont l) as R3. pose proof (round_stage Kother l) as R4.
  cbn [round_no] in *. rewrite R1, R2, R3, R4 by (try exact H; lia). apply stage_last. exact H.
Qed.
Lemma convert_plain : forall t, (forall x, In x t -> x <> c_bs /\ x <> c_lb) -> convert t = t.
Proof.
  intros t H. assert (W : well (map Ch t) /\ written (map Ch t) = t /\ meant (map Ch t) = t).
  { induction t as [|x t IH]; [repeat split|]. destruct IH as (I1 & I2 & I3); [intros y Y; apply H; right; exact Y|]. cbn [map well].
    split; [split; [|exact I1]|].
    - destruct (H x) as [H1 H2]; [left; reflexivity|]. split; [exact H1|]. intros K. contradiction.
    - unfold written, meant in *. cbn [map concat written1 meant1 List.app]. rewrite I2, I3. auto. }
  destruct W as (W1 & W2 & W3). pose proof (convert_items (map Ch t) W1) as E. rewrite W2, W3 in E. exact E.
Qed.
