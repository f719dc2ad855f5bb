(** C93: the fields are read. *)
From Coq Require Import List NArith PeanoNat Lia Bool String Compare_dec.
From Verif Require TextProofs BibProofs2 DelimFinal LegacyProofs5.
From Verif Require Import PyStr Regex RegexLemmas RegexHead RegexLocal DelimSpec DelimProofs TexUtilsModel CommandSpec ItemSpec EqProofs2 Placeholder KeyvalModel BibModel BibSpec BibProofs BibdivModel BibdivSpec BibdivProofs.
Import ListNotations. Notation length := List.length. Notation concat := List.concat. Open Scope list_scope.
Notation loop := BibdivModel.fields_loop.

Section Fields.
Variable isword : ch -> bool.
Variable lower : str -> str.
Hypothesis W : word_class isword.
Notation add := (add lower).
Lemma word_space : forall x, isword x = true -> isspace x = false. Proof. intros x H. exact (proj1 (W x H)). Qed.
Lemma space_word : forall x, isspace x = true -> isword x = false. Proof. intros x H. apply not_true_iff_false. intros X. rewrite (word_space x X) in H. discriminate. Qed.
Lemma punct_word : forall x, In x (lit "=,@{}\") -> isword x = false. Proof. intros x H. apply not_true_iff_false. intros X. exact (proj1 (proj2 (W x X)) H). Qed.
Lemma nolead : forall x, starts_with isspace x = false -> nlead x = 0. Proof. intros [|x r] H; [reflexivity|]. cbn in H |- *. rewrite H. reflexivity. Qed.
Lemma nlead_app : forall ws r, blank ws -> starts_with isspace r = false -> nlead (ws ++ r) = length ws.
Proof. induction ws as [|x ws IH]; intros r B H; [apply nolead; exact H|]. unfold blank in B. cbn in B. apply andb_prop in B as [B1 B2]. cbn [List.app nlead List.length]. rewrite B1, IH by assumption. reflexivity. Qed.
Lemma head_blank : forall (p : ch -> bool) ws r, blank ws -> (forall x, isspace x = true -> p x = false) -> starts_with p r = false -> starts_with p (ws ++ r) = false.
Proof. intros p [|x ws] r B H H2; [exact H2|]. unfold blank in B. cbn in B. apply andb_prop in B as [B _]. exact (H x B). Qed.
(** a field is recognised *)
Lemma field_hit : forall b name w1 w2 x, blank b -> word isword name -> blank w1 -> blank w2 -> starts_with isspace x = false ->
  let u := b ++ name ++ w1 ++ [c_eq] ++ w2 ++ x in
  re_match_at (field_pattern isword) u 0 = Some {| m_start := 0; m_end := length (b ++ name ++ w1 ++ [c_eq] ++ w2); m_caps := [(1, (length b, length b + length name))] |}.
Proof.
  intros b name w1 w2 x Hb (Nn & Hn) H1 H2 Hx u. apply fm_match.
  assert (E0 : skipn 0 u = b ++ name ++ w1 ++ [c_eq] ++ w2 ++ x) by reflexivity. assert (E1 := skipn_more u 0 b _ E0). assert (E2 := skipn_more u _ name _ E1). assert (E3 := skipn_more u _ w1 _ E2). assert (E4 := skipn_more1 u _ c_eq _ E3).
  unfold field_pattern. cbn [rseq].
  replace (length (b ++ name ++ w1 ++ [c_eq] ++ w2)) with (S (0 + length b + length name + length w1) + length w2) by (rewrite !app_length; cbn [List.length]; lia).
  eapply fm_seq; [eapply fm_star; [exact E0|exact Hb|]|].
  - destruct name as [|y name]; [congruence|]. cbn in Hn |- *. apply andb_prop in Hn as [Hn _]. exact (word_space y Hn).
  - eapply fm_seq; [apply fm_grp; eapply fm_plus; [exact E1|exact Nn|exact Hn|]|].
    + apply (head_blank isword w1); [exact H1|exact space_word|]. exact (punct_word c_eq (or_introl eq_refl)).
    + eapply fm_seq; [eapply fm_star; [exact E2|exact H1|reflexivity]|]. eapply fm_seq; [eapply fm_is_ch; exact E3|]. eapply fm_star; [exact E4|exact H2|exact Hx].
Qed.
(** before a comma there is none *)
Lemma field_miss : forall b x r, blank b -> isspace x = false -> isword x = false -> re_match_at (field_pattern isword) (b ++ x :: r) 0 = None.
Proof.
  intros b x r Hb Sx Wx. apply re_match_at_none; [lia|]. intros j R. unfold field_pattern in R. cbn [rseq] in R. apply rel_rseq2 in R as (k & R1 & R). apply rel_star_chr in R1 as (ws & q & E & Hw & ->).
  apply rel_rseq2 in R as (k & R & _). apply rel_grp1 in R. unfold rplus in R. apply rel_rseq2 in R as (k' & R & _). cbn [skipn plus] in *. apply LegacyProofs5.chr_inv in R as (_ & y & Eq & Hy).
  rewrite E, nth_error_app2 in Eq by lia. rewrite Nat.sub_diag in Eq. destruct q as [|y' q]; [discriminate|]. cbn in Eq. injection Eq as ->.
  destruct (cut_app _ _ _ _ E) as [(e & E1 & E2)|(e & He & E1 & E2)].
  - destruct e as [|z e]; cbn in E2; injection E2 as -> _; [congruence|]. rewrite E1, forallb_app in Hw. cbn in Hw. rewrite Sx in Hw. rewrite andb_false_r in Hw. discriminate.
  - destruct e as [|z e]; [congruence|]. cbn in E2. injection E2 as <- _. unfold blank in Hb. rewrite E1, forallb_app in Hb. cbn in Hb. apply andb_prop in Hb as [_ Hb]. apply andb_prop in Hb as [Hb _]. rewrite (space_word y Hb) in Hy. discriminate.
Qed.
Lemma field_blank : forall b, blank b -> re_match_at (field_pattern isword) b 0 = None.
Proof.
  intros b Hb. apply re_match_at_none; [lia|]. intros j R. unfold field_pattern in R. cbn [rseq] in R. apply rel_rseq2 in R as (k & R1 & R). apply rel_rseq2 in R as (k' & R & _). apply rel_grp1 in R. unfold rplus in R. apply rel_rseq2 in R as (k2 & R & _).
  apply LegacyProofs5.chr_inv in R as (_ & y & Eq & Hy). apply nth_error_In in Eq. unfold blank in Hb. rewrite forallb_forall in Hb. rewrite (space_word y (Hb y Eq)) in Hy. discriminate.
Qed.
Lemma skip1 : forall fuel text pos acc, pos < length text -> re_match_at (field_pattern isword) (skipn pos text) 0 = None -> loop isword lower (S fuel) text pos acc = loop isword lower fuel text (pos + 1) acc.
Proof. intros fuel text pos acc L M. rewrite loop_step, M. rewrite (proj2 (Nat.ltb_lt _ _) L). reflexivity. Qed.
Lemma skip_sep : forall sep, separators sep -> forall text pos y acc, skipn pos text = sep ++ y -> exists a b, sep = a ++ b /\ blank b /\
  (a = [] \/ exists bl r, a = bl ++ c_comma :: r /\ blank bl) /\ forall fuel, loop isword lower (length a + fuel) text pos acc = loop isword lower fuel text (pos + length a) acc.
Proof.
  intros sep. induction sep as [|x sep IH]; intros Hs text pos y acc E.
  - exists [], []. split; [reflexivity|]. split; [reflexivity|]. split; [left; reflexivity|]. intros fuel. cbn [List.length plus]. f_equal. lia.
  - unfold separators in Hs. cbn in Hs. apply andb_prop in Hs as [Hx Hs].
    assert (L : pos < length text). { destruct (le_lt_dec (length text) pos) as [X|X]; [|exact X]. rewrite skipn_all2 in E by exact X. discriminate. }
    destruct (IH Hs text (pos + 1) y acc) as (a & b & Es & Hb & Ha & Hl). { replace (pos + 1) with (S pos) by lia. exact (skipn_more1 text pos x _ E). }
    assert (Done : (exists bl r, x :: a = bl ++ c_comma :: r /\ blank bl) -> exists a0 b0, x :: sep = a0 ++ b0 /\ blank b0 /\ (a0 = [] \/ exists bl r, a0 = bl ++ c_comma :: r /\ blank bl) /\
      forall fuel, loop isword lower (length a0 + fuel) text pos acc = loop isword lower fuel text (pos + length a0) acc).
    { intros (bl & r & Ea & Hbl). exists (x :: a), b. split; [rewrite Es; reflexivity|]. split; [exact Hb|]. split; [right; eauto|]. intros fuel. cbn [List.length plus]. rewrite skip1; [rewrite Hl; f_equal; lia|exact L|].
      rewrite E, Es. cbn [List.app]. change (x :: (a ++ b) ++ y) with (((x :: a) ++ b) ++ y). rewrite Ea, <- !app_assoc. cbn [List.app]. apply field_miss; [exact Hbl|reflexivity|]. apply punct_word. right. left. reflexivity. }
    unfold sep_char in Hx. destruct (isspace x) eqn:Sx.
    + destruct Ha as [->|(bl & r & -> & Hbl)].
      * exists [], (x :: b). split; [rewrite Es; reflexivity|]. split; [unfold blank; cbn; rewrite Sx; exact Hb|]. split; [left; reflexivity|]. intros fuel. cbn [List.length plus]. f_equal. lia.
      * apply Done. exists (x :: bl), r. split; [reflexivity|]. unfold blank. cbn. rewrite Sx. exact Hbl.
    + cbn in Hx. apply N.eqb_eq in Hx. subst x. apply Done. exists [], a. split; reflexivity.
Qed.
Lemma skip_blank : forall b, blank b -> forall text pos acc fuel, skipn pos text = b -> length b < fuel -> loop isword lower fuel text pos acc = Some acc.
Proof.
  induction b as [|x b IH]; intros Hb text pos acc fuel E L; (destruct fuel as [|fuel]; [lia|]).
  - rewrite loop_step. assert (length text <= pos) by (apply (f_equal (@List.length ch)) in E; rewrite skipn_length in E; cbn [List.length] in E; lia). rewrite (proj2 (Nat.ltb_ge _ _)) by assumption. reflexivity.
  - rewrite skip1.
    + apply IH; [unfold blank in *; cbn in Hb; apply andb_prop in Hb; tauto| |cbn [List.length] in L; lia]. replace (pos + 1) with (S pos) by lia. exact (skipn_more1 text pos x _ E).
    + destruct (le_lt_dec (length text) pos) as [X|X]; [|exact X]. rewrite skipn_all2 in E by exact X. discriminate.
    + rewrite E. apply field_blank. exact Hb.
Qed.
Lemma lstrip_sep : forall sep y, separators sep -> starts_with isspace y = false -> exists sep', separators sep' /\ lstrip (sep ++ y) = sep' ++ y.
Proof.
  induction sep as [|x sep IH]; intros y Hs Hy.
  - exists []. split; [reflexivity|]. destruct y as [|x y]; [reflexivity|]. cbn in Hy |- *. rewrite Hy. reflexivity.
  - unfold separators in Hs. cbn in Hs. apply andb_prop in Hs as [Hx Hs]. cbn [List.app lstrip]. destruct (isspace x) eqn:Sx; [apply IH; assumption|].
    exists (x :: sep). split; [unfold separators; cbn; rewrite Hx; exact Hs|reflexivity].
Qed.
Lemma word_start : forall name r, word isword name -> starts_with isspace (name ++ r) = false.
Proof. intros [|x n] r (H & F); [congruence|]. cbn in F |- *. apply andb_prop in F as [F _]. exact (word_space x F). Qed.
Lemma lstrip_fields : forall t fs, fields_text isword t fs -> fields_text isword (lstrip t) fs.
Proof.
  intros t fs F. destruct F as [sep S|sep name w1 w2 v rest fs S N|sep name w1 w2 v rest fs S N|sep name w1 w2 v S N].
  - destruct (lstrip_sep sep [] S eq_refl) as (sep' & S' & E). rewrite !app_nil_r in E. rewrite E. constructor. exact S'.
  - destruct (lstrip_sep sep _ S (word_start name (w1 ++ [c_eq] ++ w2 ++ [c_lb] ++ v ++ [c_rb] ++ rest) N)) as (sep' & S' & E). rewrite E. constructor; assumption.
  - destruct (lstrip_sep sep _ S (word_start name (w1 ++ [c_eq] ++ w2 ++ v ++ [c_comma] ++ rest) N)) as (sep' & S' & E). rewrite E. constructor; assumption.
  - destruct (lstrip_sep sep _ S (word_start name (w1 ++ [c_eq] ++ w2 ++ v) N)) as (sep' & S' & E). rewrite E. constructor; assumption.
Qed.
(** one field *)
Lemma field_step : forall b name w1 w2 x text pos acc fuel, blank b -> word isword name -> blank w1 -> blank w2 -> starts_with isspace x = false ->
  skipn pos text = b ++ name ++ w1 ++ [c_eq] ++ w2 ++ x ->
  loop isword lower (S fuel) text pos acc =
    let start := pos + length (b ++ name ++ w1 ++ [c_eq] ++ w2) in
    let '(fields, pos) :=
      if startswith x [c_lb] then
        match extract_nested_content x c_lb c_rb with
        | (Some value, value_end) => (add acc (name, strip (strip_braces value)), start + value_end)
        | (None, _) => (acc, pos)
        end
      else
        let comma := match find_char c_comma x with Some k => start + k | None => length text end in
        (add acc (name, strip_braces (strip (slice start comma text))), comma + 1) in
    loop isword lower fuel text (pos + nlead (skipn pos text)) fields.
Proof.
  intros b name w1 w2 x text pos acc fuel Hb Hn H1 H2 Hx E.
  assert (L : pos < length text). { destruct (le_lt_dec (length text) pos) as [X|X]; [|exact X]. rewrite skipn_all2 in E by exact X. symmetry in E. apply app_eq_nil in E as [_ E]. apply app_eq_nil in E as [E _]. destruct Hn as [Hn _]. congruence. }
  rewrite loop_step, (proj2 (Nat.ltb_lt _ _) L). rewrite E, (field_hit b name w1 w2 x) by assumption. cbn [m_end]. cbv zeta.
  assert (G : m_group (b ++ name ++ w1 ++ [c_eq] ++ w2 ++ x) 1 {| m_start := 0; m_end := length (b ++ name ++ w1 ++ [c_eq] ++ w2); m_caps := [(1, (length b, length b + length name))] |} = Some name).
  { unfold m_group. cbn [m_caps cap_get Nat.eqb option_map]. f_equal. unfold slice. rewrite DelimFinal.skipn_app_exact by reflexivity. replace (length b + length name - length b) with (length name) by lia. apply DelimFinal.firstn_app_exact. reflexivity. }
  rewrite G. assert (E2 : skipn (pos + length (b ++ name ++ w1 ++ [c_eq] ++ w2)) text = x). { apply skipn_more. rewrite E, <- !app_assoc. reflexivity. }
  rewrite E2. assert (Nl := nolead x Hx). assert (Ls : lstrip x = x) by (destruct x as [|z x]; [reflexivity|]; cbn in Hx |- *; rewrite Hx; reflexivity). rewrite Nl, Nat.add_0_r, E2, Ls. reflexivity.
Qed.
Lemma lstrip_len : forall s : str, length (lstrip s) <= length s.
Proof. intros s. destruct (lead_split s) as (ws & E & _). rewrite E at 2. rewrite app_length. lia. Qed.
Lemma nlead_skip : forall s : str, skipn (nlead s) s = lstrip s.
Proof. intros s. destruct (lead_split s) as (ws & E & _ & L). rewrite <- L. rewrite E at 1. apply DelimFinal.skipn_app_exact. reflexivity. Qed.
Lemma find_comma : forall v r, ~ In c_comma v -> find_char c_comma (v ++ c_comma :: r) = Some (length v).
Proof. intros v r N. apply BibProofs2.find_char_app. exact N. Qed.
Lemma find_no_comma : forall v, ~ In c_comma v -> find_char c_comma v = None.
Proof. induction v as [|x v IH]; intros N; [reflexivity|]. cbn [find_char]. destruct (N.eqb_spec x c_comma) as [->|_]; [exfalso; apply N; left; reflexivity|]. rewrite IH by (intros I; apply N; right; exact I). reflexivity. Qed.
Theorem fields_ok : forall n t fs, length t <= n -> fields_text isword t fs -> forall text pos acc fuel, pos <= length text -> skipn pos text = t -> length t < fuel ->
  loop isword lower fuel text pos acc = Some (fold_left add fs acc).
Proof.
  induction n as [|n IH]; intros t fs Ln F text pos acc fuel Lp E Lf.
  { destruct t; [|cbn in Ln; lia]. inversion F as [sep S|sep name w1 w2 v rest fs0 S N ? ? ? ? ? X|sep name w1 w2 v rest fs0 S N ? ? ? ? ? ? ? X|sep name w1 w2 v S N ? ? ? ? ? ? X]; subst.
    - apply (skip_blank [] eq_refl); assumption.
    - apply app_eq_nil in X as [_ X]. apply app_eq_nil in X as [X _]. destruct N; congruence.
    - apply app_eq_nil in X as [_ X]. apply app_eq_nil in X as [X _]. destruct N; congruence.
    - apply app_eq_nil in X as [_ X]. apply app_eq_nil in X as [X _]. destruct N; congruence. }
  (* the rest of the text after a field *)
  assert (Rest : forall rest fs pos acc fuel, length rest <= n -> fields_text isword rest fs -> pos <= length text -> skipn pos text = rest -> length rest < fuel -> loop isword lower fuel text (pos + nlead (skipn pos text)) acc = Some (fold_left add fs acc)).
  { intros rest fs1 pos1 acc1 fuel1 L1 F1 Lp1 E1 Lf1. rewrite E1. apply (IH (lstrip rest)).
    - assert (X := lstrip_len rest). lia.
    - apply lstrip_fields. exact F1.
    - assert (X := f_equal (@List.length ch) E1). rewrite skipn_length in X. assert (Y : nlead rest <= length rest). { destruct (lead_split rest) as (ws & Ew & _ & Lw). rewrite <- Lw. rewrite Ew at 1. rewrite app_length. lia. } lia.
    - rewrite <- skipn_add, E1. apply nlead_skip.
    - assert (X := lstrip_len rest). lia. }
  (* the separators in front *)
  assert (Front : forall sep y, separators sep -> t = sep ++ y -> forall out, (forall b pos' fuel', blank b -> skipn pos' text = b ++ y -> pos' <= length text -> length b + length y < fuel' -> loop isword lower fuel' text pos' acc = out) -> loop isword lower fuel text pos acc = out).
  { intros sep y S Et out H. rewrite Et in E. destruct (skip_sep sep S text pos y acc E) as (a & b & Es & Hb & _ & Hl).
    assert (Lt : length t = length a + length b + length y) by (rewrite Et, Es, !app_length; lia).
    replace fuel with (length a + (fuel - length a)) by lia. rewrite Hl. apply (H b); [exact Hb| | |lia].
    - rewrite Es, <- app_assoc in E. exact (skipn_more text pos a _ E).
    - assert (X := f_equal (@List.length ch) E). rewrite skipn_length, Es, !app_length in X. lia. }
  destruct F as [sep S|sep name w1 w2 v rest fs S N H1 H2 G Fv F|sep name w1 w2 v rest fs S N H1 H2 C S1 S2 Fv F|sep name w1 w2 v S N H1 H2 C S1 S2 Fv].
  - apply (Front sep []); [exact S|rewrite app_nil_r; reflexivity|]. intros b pos' fuel' Hb E' Lp' Lf'. rewrite app_nil_r in E'. apply (skip_blank b Hb); [exact E'|cbn [List.length] in Lf'; lia].
  - apply (Front sep _ S eq_refl). intros b pos' fuel' Hb E' Lp' Lf'. destruct fuel' as [|fuel']; [lia|].
    rewrite (field_step b name w1 w2 ([c_lb] ++ v ++ [c_rb] ++ rest)) by (auto; reflexivity). cbv zeta. change (startswith ([c_lb] ++ v ++ [c_rb] ++ rest) [c_lb]) with true. cbv iota.
    assert (EX : extract_nested_content ([c_lb] ++ v ++ [c_rb] ++ rest) c_lb c_rb = (Some v, length v + 2)).
    { apply extract_nested_content_iff; [exact delims_curly|]. exists [], rest. split; [reflexivity|]. split; [reflexivity|]. split; [exact (proj1 G)|]. split; [exact (proj2 G)|]. cbn [length]. lia. }
    rewrite EX. rewrite (flat_stripped v Fv). cbn [fold_left].
    assert (ER : skipn (pos' + length (b ++ name ++ w1 ++ [c_eq] ++ w2) + (length v + 2)) text = rest).
    { replace (pos' + length (b ++ name ++ w1 ++ [c_eq] ++ w2) + (length v + 2)) with (pos' + length ((b ++ name ++ w1 ++ [c_eq] ++ w2) ++ [c_lb] ++ v ++ [c_rb])) by (rewrite !app_length; cbn [List.length]; lia).
      apply skipn_more. rewrite E', <- !app_assoc. reflexivity. }
    assert (LT : length rest < fuel' /\ length rest <= n). { repeat rewrite app_length in Ln. repeat rewrite app_length in Lf'. cbn [List.length] in Ln, Lf'. lia. }
    apply (Rest rest); [lia|exact F| |exact ER|lia].
    assert (X := f_equal (@List.length ch) E'). rewrite skipn_length, !app_length in X. cbn [List.length] in X. rewrite !app_length. cbn [List.length]. lia.
  - apply (Front sep _ S eq_refl). intros b pos' fuel' Hb E' Lp' Lf'. destruct fuel' as [|fuel']; [lia|].
    assert (Sx : starts_with isspace (v ++ [c_comma] ++ rest) = false) by (destruct v; [reflexivity|exact S1]).
    rewrite (field_step b name w1 w2 (v ++ [c_comma] ++ rest)) by (auto; reflexivity). cbv zeta.
    assert (Sl : startswith (v ++ [c_comma] ++ rest) [c_lb] = false). { destruct v as [|z v]; [reflexivity|]. cbn [starts_with] in S2. cbn [startswith List.app]. rewrite S2. reflexivity. }
    rewrite Sl. assert (FC : find_char c_comma (v ++ [c_comma] ++ rest) = Some (length v)) by (exact (find_comma v rest C)). rewrite FC. cbn [fold_left].
    set (st := pos' + length (b ++ name ++ w1 ++ [c_eq] ++ w2)).
    assert (Est : skipn st text = v ++ [c_comma] ++ rest) by (apply skipn_more; rewrite E', <- !app_assoc; reflexivity).
    assert (SV : slice st (st + length v) text = v) by (unfold slice; rewrite Est; replace (st + length v - st) with (length v) by lia; apply DelimFinal.firstn_app_exact; reflexivity).
    rewrite SV, (flat_stripped _ Fv).
    assert (ER : skipn (st + length v + 1) text = rest). { replace (st + length v + 1) with (Datatypes.S (st + length v)) by lia. exact (skipn_more1 text _ c_comma rest (skipn_more text st v _ Est)). }
    assert (LT : length rest < fuel' /\ length rest <= n). { repeat rewrite app_length in Ln. repeat rewrite app_length in Lf'. cbn [List.length] in Ln, Lf'. lia. }
    apply (Rest rest); [lia|exact F| |exact ER|lia].
    assert (X := f_equal (@List.length ch) E'). rewrite skipn_length, !app_length in X. cbn [List.length] in X. unfold st. rewrite !app_length. cbn [List.length]. lia.
  - apply (Front sep _ S eq_refl). intros b pos' fuel' Hb E' Lp' Lf'. destruct fuel' as [|fuel']; [lia|].
    rewrite (field_step b name w1 w2 v) by (auto; reflexivity). cbv zeta.
    assert (Sl : startswith v [c_lb] = false). { destruct v as [|z v]; [reflexivity|]. cbn [starts_with] in S2. cbn [startswith List.app]. rewrite S2. reflexivity. }
    rewrite Sl, (find_no_comma v C). cbn [fold_left].
    set (st := pos' + length (b ++ name ++ w1 ++ [c_eq] ++ w2)).
    assert (Est : skipn st text = v) by (apply skipn_more; rewrite E', <- !app_assoc; reflexivity).
    assert (Lst : length text = st + length v). { assert (X := f_equal (@List.length ch) E'). rewrite skipn_length, !app_length in X. cbn [List.length] in X. unfold st. rewrite !app_length. cbn [List.length]. lia. }
    assert (SV : slice st (length text) text = v) by (unfold slice; rewrite Est; apply firstn_all2; lia).
    rewrite SV, (flat_stripped _ Fv). rewrite (skipn_all2 text (n := length text + 1)) by lia. cbn [nlead]. destruct fuel' as [|fuel']; [rewrite !app_length in Lf'; destruct N as [N _]; destruct name; [congruence|]; cbn [List.length] in Lf'; lia|].
    rewrite loop_step, (proj2 (Nat.ltb_ge _ _)) by lia. reflexivity.
Qed.
End Fields.
