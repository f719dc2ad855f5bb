(** Text before the last character in front of a position does not matter. *)
From Coq Require Import List NArith PeanoNat Lia Bool.
From Verif Require Import PyStr Regex.
Import ListNotations.

Section Shift.
Variable q : str.
Notation d := (length q).
Definition shift_caps (c : caps) : caps := map (fun e => (fst e, (d + fst (snd e), d + snd (snd e)))) c.
Definition shift (jc : nat * caps) : nat * caps := (d + fst jc, shift_caps (snd jc)).

Lemma nth_shift : forall (t : str) i, nth_error (q ++ t) (d + i) = nth_error t i.
Proof. intros t i. rewrite nth_error_app2 by lia. f_equal. lia. Qed.
Lemma next_shift : forall p t i, next_is p (q ++ t) (d + i) = next_is p t i.
Proof. intros p t i. unfold next_is. rewrite nth_shift. reflexivity. Qed.
Lemma prev_shift : forall p t i, 1 <= i -> prev_is p (q ++ t) (d + i) = prev_is p t i.
Proof. intros p t [|i] H; [lia|]. unfold prev_is. replace (d + S i) with (S (d + i)) by lia. rewrite nth_shift. reflexivity. Qed.
Lemma skipn_shift : forall (t : str) i, skipn (d + i) (q ++ t) = skipn i t.
Proof. intros t i. rewrite skipn_app, skipn_all2 by lia. replace (d + i - d) with i by lia. reflexivity. Qed.

Lemma star_shift : forall (f g : nat -> caps -> list (nat * caps)) (t : str),
  (forall i c, 1 <= i <= length t -> f (d + i) (shift_caps c) = map shift (g i c)) ->
  (forall i c j c', 1 <= i <= length t -> In (j, c') (g i c) -> j <= length t) ->
  forall gr n i c, 1 <= i <= length t -> star_run f gr n (d + i) (shift_caps c) = map shift (star_run g gr n i c).
Proof.
  intros f g t H B gr. induction n as [|n IH]; intros i c Hi; [reflexivity|]. cbn [star_run]. rewrite H by exact Hi.
  assert (E : flat_map (fun jc => if Nat.ltb (d + i) (fst jc) then star_run f gr n (fst jc) (snd jc) else []) (map shift (g i c)) =
    map shift (flat_map (fun jc => if Nat.ltb i (fst jc) then star_run g gr n (fst jc) (snd jc) else []) (g i c))).
  { assert (A : forall l, (forall j c', In (j, c') l -> j <= length t) ->
      flat_map (fun jc => if Nat.ltb (d + i) (fst jc) then star_run f gr n (fst jc) (snd jc) else []) (map shift l) =
      map shift (flat_map (fun jc => if Nat.ltb i (fst jc) then star_run g gr n (fst jc) (snd jc) else []) l)).
    { induction l as [|[j c'] l IHl]; intros Hl; [reflexivity|]. cbn [map flat_map]. rewrite map_app. f_equal.
      - unfold shift at 1 2 3. cbn [fst snd]. replace (Nat.ltb (d + i) (d + j)) with (Nat.ltb i j).
        2:{ destruct (Nat.ltb i j) eqn:E; symmetry; [apply Nat.ltb_lt in E; apply Nat.ltb_lt; lia|apply Nat.ltb_ge in E; apply Nat.ltb_ge; lia]. }
        destruct (Nat.ltb i j) eqn:E; [|reflexivity]. apply Nat.ltb_lt in E. cbn [fst snd]. apply IH. pose proof (Hl j c' (or_introl eq_refl)). lia.
      - apply IHl. intros j' c'' Hin. eapply Hl. right. exact Hin. }
    apply A. intros j c' Hin. eapply B; [exact Hi|exact Hin]. }
  rewrite E. destruct gr; [rewrite map_app; reflexivity|reflexivity].
Qed.

Lemma rm_shift : forall r t i c, 1 <= i <= length t -> rm r (q ++ t) (d + i) (shift_caps c) = map shift (rm r t i c).
Proof.
  induction r as [|p|a IHa b IHb|a IHa b IHb|g a IHa|n a IHa| | |neg a IHa|neg p|w]; intros t i c Hi; cbn [rm].
  - reflexivity.
  - rewrite next_shift. destruct (next_is p t i); [|reflexivity]. unfold shift. cbn. rewrite Nat.add_succ_r. reflexivity.
  - rewrite IHa by exact Hi. assert (A : forall l, (forall j c', In (j, c') l -> 1 <= j <= length t) ->
      flat_map (fun jc => rm b (q ++ t) (fst jc) (snd jc)) (map shift l) = map shift (flat_map (fun jc => rm b t (fst jc) (snd jc)) l)).
    { induction l as [|[j c'] l IHl]; intros Hl; [reflexivity|]. cbn [map flat_map]. rewrite map_app. f_equal.
      - unfold shift at 1 2. cbn [fst snd]. apply IHb. apply (Hl j c'). left. reflexivity.
      - apply IHl. intros j' c'' Hin. eapply Hl. right. exact Hin. }
    apply A. intros j c' Hin. apply rm_bounds in Hin; [lia|lia].
  - rewrite map_app, IHa, IHb by exact Hi. reflexivity.
  - rewrite app_length. replace (d + length t - (d + i)) with (length t - i) by lia.
    apply (star_shift _ _ t); [intros; apply IHa; assumption|intros j c0 j' c' Hj Hin; apply rm_bounds in Hin; lia|exact Hi].
  - rewrite IHa by exact Hi. rewrite !map_map. apply map_ext. intros [j c']. reflexivity.
  - unfold at_end. rewrite skipn_shift. destruct (skipn i t) as [|x [|y r]]; try reflexivity. destruct (N.eqb x c_nl); reflexivity.
  - replace (Nat.eqb (d + i) 0) with false by (symmetry; apply Nat.eqb_neq; lia). replace (Nat.eqb i 0) with false by (symmetry; apply Nat.eqb_neq; lia). reflexivity.
  - rewrite IHa by exact Hi. destruct (rm a t i c) as [|y l]; cbn [map nilb]; destruct neg; reflexivity.
  - rewrite prev_shift by lia. destruct (xorb neg (prev_is p t i)); reflexivity.
  - rewrite prev_shift, next_shift by lia. destruct (xorb _ _); reflexivity.
Qed.
Lemma match_shift : forall r t i, 1 <= i <= length t ->
  re_match_at r (q ++ t) (d + i) = option_map (fun m => {| m_start := d + m_start m; m_end := d + m_end m; m_caps := shift_caps (m_caps m) |}) (re_match_at r t i).
Proof.
  intros r t i Hi. unfold re_match_at. pose proof (rm_shift r t i [] Hi) as E. change (shift_caps []) with ([] : caps) in E. rewrite E.
  destruct (rm r t i []) as [|[j c] l]; reflexivity.
Qed.
Lemma search_go_shift : forall r t k i, 1 <= i -> i + k = length t ->
  re_search_go r (q ++ t) k (d + i) = option_map (fun m => {| m_start := d + m_start m; m_end := d + m_end m; m_caps := shift_caps (m_caps m) |}) (re_search_go r t k i).
Proof.
  intros r t. induction k as [|k IH]; intros i H1 H2; cbn [re_search_go]; rewrite match_shift by lia; destruct (re_match_at r t i); try reflexivity.
  cbn [option_map]. replace (S (d + i)) with (d + S i) by lia. apply IH; lia.
Qed.
Lemma search_shift : forall r t i, 1 <= i -> i <= length t ->
  re_search_from r (q ++ t) (d + i) = option_map (fun m => {| m_start := d + m_start m; m_end := d + m_end m; m_caps := shift_caps (m_caps m) |}) (re_search_from r t i).
Proof.
  intros r t i H1 H2. unfold re_search_from. rewrite app_length. replace (Nat.leb (d + i) (d + length t)) with true by (symmetry; apply Nat.leb_le; lia).
  replace (Nat.leb i (length t)) with true by (symmetry; apply Nat.leb_le; lia). replace (d + length t - (d + i)) with (length t - i) by lia. apply search_go_shift; lia.
Qed.
End Shift.

(** a search that fails at the first positions *)
Lemma search_from_next : forall r t i, i < length t -> re_match_at r t i = None -> re_search_from r t i = re_search_from r t (S i).
Proof.
  intros r t i Hi E. unfold re_search_from. replace (Nat.leb i (length t)) with true by (symmetry; apply Nat.leb_le; lia).
  replace (Nat.leb (S i) (length t)) with true by (symmetry; apply Nat.leb_le; lia). destruct (length t - i) as [|k] eqn:K; [lia|]. cbn [re_search_go]. rewrite E.
  replace (length t - S i) with k by lia. reflexivity.
Qed.
Lemma search_from_skip : forall r t n i, i + n <= length t -> (forall k, i <= k -> k < i + n -> re_match_at r t k = None) -> re_search_from r t i = re_search_from r t (i + n).
Proof.
  induction n as [|n IH]; intros i H N; [f_equal; lia|]. rewrite search_from_next; [|lia|apply N; lia]. rewrite (IH (S i)); [f_equal; lia|lia|intros; apply N; lia].
Qed.
