(** C89: the patterns of the switches. *)
From Coq Require Import List NArith PeanoNat Lia Bool String Compare_dec.
From Verif Require Import PyStr Regex RegexLemmas RegexHead Json TexUtilsModel DelimSpec DelimProofs EnvSpec EqSpec CommandModel CommandSpec StyleModel StyleSpec StyleProofs EnvHandlerModel ItemModel ItemSpec LegacyModel LegacySpec LegacyProofs.
From Verif Require StyleProofs2 StyleProofs3 ParseCases.
Import ListNotations. Notation length := List.length. Notation concat := List.concat. Open Scope list_scope.

Lemma all_names_eq : all_names = map fst all_switches. Proof. reflexivity. Qed.
Lemma next_ends : forall r, next_letter r = false <-> ends_word r.
Proof.
  intros r. split.
  - intros H x q -> L. exact (proj1 (StyleProofs3.letter_ok x) H L).
  - intros H. destruct r as [|x r]; [reflexivity|]. exact (proj2 (StyleProofs3.letter_ok x) (H x r eq_refl)).
Qed.
Lemma letter_true : forall x, is_letter x = true -> letter x.
Proof. intros x H. unfold is_letter, in_range in H. unfold letter. repeat rewrite Bool.orb_true_iff in H. repeat rewrite Bool.andb_true_iff in H. repeat rewrite N.leb_le in H. lia. Qed.
Definition subset (a b : list str) : bool := forallb (fun x => existsb (str_eqb x) b) a.
Lemma subset_ok : forall a b, subset a b = true -> forall x, In x a -> In x b.
Proof. intros a b H x I. unfold subset in H. rewrite forallb_forall in H. specialize (H x I). apply existsb_exists in H as (y & J & E). apply str_eqb_spec in E as ->. exact J. Qed.

Lemma ralt_names : forall names t i j, names <> [] -> rel (ralt (map (fun n => rstr n) names)) t i j -> exists n, In n names /\ rel (rstr n) t i j.
Proof.
  induction names as [|n names IH]; intros t i j Ne R; [congruence|]. destruct names as [|n2 names].
  - exists n. split; [left; reflexivity|exact R].
  - change (ralt (map (fun n => rstr n) (n :: n2 :: names))) with (RAlt (rstr n) (ralt (map (fun n => rstr n) (n2 :: names)))) in R. apply rel_alt2 in R as [R|R]; [exists n; split; [left; reflexivity|exact R]|].
    destruct (IH t i j ltac:(discriminate) R) as (m & I & Rm). exists m. split; [right; exact I|exact Rm].
Qed.
Lemma ahead_inv : forall t i j, rel (RAhead true (RChr is_letter)) t i j -> j = i /\ next_letter (skipn i t) = false.
Proof.
  intros t i j R. inversion R as [| | | | | | | | | | |a t0 i0 N| | ]; subst. split; [reflexivity|]. specialize (N []). cbn [rm] in N. unfold next_is in N. rewrite nth_error_skipn in N.
  destruct (skipn j t) as [|x r]; [reflexivity|]. cbn in N |- *. destruct (is_letter x); [discriminate|reflexivity].
Qed.

(** * A table of switches *)
Section Table.
Variable mapping : list (str * str).
Notation names := (map fst mapping).
Hypothesis Ne : names <> [].
Hypothesis Cont : continued names.
Hypothesis Nd : NoDup names.

Definition has_brace (rest : str) : nat := match rest with x :: _ => if N.eqb x c_lb then 1 else 0 | [] => 0 end.
Lemma switch_fm : forall t i name ws rest, In name names -> skipn i t = [c_bs] ++ name ++ ws ++ rest -> blank ws -> starts_with isspace rest = false -> ends_word (ws ++ rest) ->
  re_match_at (switch_pattern mapping) t i = Some {| m_start := i; m_end := 1 + i + length name + length ws + has_brace rest; m_caps := [(1, (1 + i, 1 + i + length name))] |}.
Proof.
  intros t i name ws rest I E B Hr Hw. apply fm_match.
  assert (E1 : skipn (1 + i) t = name ++ ws ++ rest) by (eapply skipn_more1; exact E).
  assert (Hi : 1 + i <= length t). { destruct (le_lt_dec (1 + i) (length t)) as [L|L]; [exact L|]. rewrite skipn_all2 in E by lia. discriminate. }
  assert (G : first_match (RSeq (rstar rspace) (ropt (is_ch c_lb))) t (1 + i + length name) [(1, (1 + i, 1 + i + length name))] (1 + i + length name + length ws + has_brace rest) [(1, (1 + i, 1 + i + length name))]).
  { assert (E2 : skipn (1 + i + length name) t = ws ++ rest) by exact (skipn_more t (1 + i) name _ E1).
    eapply fm_seq; [apply (fm_star isspace t _ _ ws rest E2 B); destruct rest; [reflexivity|exact Hr]|].
    pose proof (skipn_more t (1 + i + length name) ws rest E2) as E3. destruct rest as [|x r].
    - cbn [has_brace]. rewrite Nat.add_0_r. apply fm_alt_right; [|apply fm_eps]. apply rm_chr_none. rewrite E3. reflexivity.
    - cbn [has_brace]. destruct (N.eqb_spec x c_lb) as [->|Nx].
      + apply fm_alt_left. rewrite Nat.add_1_r. apply (fm_is_ch c_lb t _ _ r). exact E3.
      + rewrite Nat.add_0_r. apply fm_alt_right; [|apply fm_eps]. apply rm_chr_none. rewrite E3. apply N.eqb_neq. congruence. }
  assert (Hit := names_hit 1 names (RSeq (rstar rspace) (ropt (is_ch c_lb))) t (1 + i) [] name (ws ++ rest) Cont Nd I Hi E1 (proj2 (next_ends _) Hw)).
  unfold switch_pattern. eapply fm_seq; [apply (fm_is_ch c_bs t i [] (name ++ ws ++ rest)); exact E|].
  destruct G as (l & G). exists l. rewrite <- G. exact Hit.
Qed.
Lemma switch_rel : forall t i, i <= length t -> ((exists j, rel (switch_pattern mapping) t i j) <-> command_here names (skipn i t)).
Proof.
  intros t i L. split.
  - intros (j & R). unfold switch_pattern in R. apply rel_rseq2 in R as (k1 & R1 & R). apply rel_is_ch in R1 as (-> & r1 & E1). apply rel_rseq2 in R as (k2 & R2 & R). apply rel_grp1 in R2.
    apply ralt_names in R2 as (n & I & R2); [|exact Ne]. apply rel_rstr in R2 as (-> & r2 & E2). apply rel_rseq2 in R as (k3 & R3 & _). apply ahead_inv in R3 as (_ & R3).
    exists n, r2. split; [exact I|]. pose proof (skipn_more1 _ _ _ _ E1) as F1. split; [rewrite E1; cbn [List.app]; f_equal; congruence|].
    apply next_ends. rewrite (skipn_more _ _ _ _ E2) in R3. exact R3.
  - intros (n & r & I & E & W). destruct (lead_split r) as (ws & Er & B & _). set (rest := lstrip r) in *. rewrite Er in E, W.
    assert (Hr' : starts_with isspace rest = false) by (destruct rest as [|x q] eqn:Eq; [reflexivity|exact (ParseCases.lstrip_head r x q Eq)]).
    pose proof (switch_fm t i n ws rest I E B Hr' W) as M. destruct (re_match_at_some _ _ _ _ L M) as (_ & R & _). cbn [m_start m_end] in R. eexists. exact R.
Qed.
End Table.

Lemma font_cont : continued (map fst LEGACY_FONT_MAPPING). Proof. apply continuedb_ok. vm_compute. reflexivity. Qed.
Lemma font_nodup : NoDup (map fst LEGACY_FONT_MAPPING). Proof. apply StyleProofs2.nodupb_ok. vm_compute. reflexivity. Qed.
Lemma size_cont : continued (map fst LEGACY_SIZE_MAPPING). Proof. apply continuedb_ok. vm_compute. reflexivity. Qed.
Lemma size_nodup : NoDup (map fst LEGACY_SIZE_MAPPING). Proof. apply StyleProofs2.nodupb_ok. vm_compute. reflexivity. Qed.
Lemma font_same : forall x, In x (map fst LEGACY_FONT_MAPPING) <-> In x fonts.
Proof. intros x. split; apply subset_ok; vm_compute; reflexivity. Qed.
Lemma size_same : forall x, In x (map fst LEGACY_SIZE_MAPPING) <-> In x sizes.
Proof. intros x. split; apply subset_ok; vm_compute; reflexivity. Qed.
Lemma here_same : forall a b, (forall x, In x a <-> In x b) -> forall s, command_here a s <-> command_here b s.
Proof. intros a b H s. split; intros (n & r & I & X); exists n, r; (split; [apply H; exact I|exact X]). Qed.
Lemma font_rel : forall t i, i <= length t -> ((exists j, rel FONT_PATTERN t i j) <-> command_here fonts (skipn i t)).
Proof. intros t i L. rewrite <- (here_same _ _ font_same). apply switch_rel; [discriminate|exact font_cont|exact font_nodup|exact L]. Qed.
Lemma size_rel : forall t i, i <= length t -> ((exists j, rel SIZE_PATTERN t i j) <-> command_here sizes (skipn i t)).
Proof. intros t i L. rewrite <- (here_same _ _ size_same). apply switch_rel; [discriminate|exact size_cont|exact size_nodup|exact L]. Qed.

(** * Names that cannot be confused *)
Definition apart (a b : str) : bool := match strip_prefix a b, strip_prefix b a with None, None => true | _, _ => false end.
Lemma apart_ok : forall a b x y, apart a b = true -> a ++ x = b ++ y -> False.
Proof.
  intros a b x y H E. unfold apart in H. destruct (prefixes a b x y E) as [[z ->]|[z ->]].
  - rewrite strip_prefix_app in H. discriminate.
  - rewrite strip_prefix_app in H. destruct (strip_prefix (b ++ z) b); discriminate.
Qed.
Lemma names_apart : forall word, forallb (fun n => apart n word) all_names = true -> forall n x y, In n all_names -> n ++ x = word ++ y -> False.
Proof. intros word H n x y I E. rewrite forallb_forall in H. exact (apart_ok _ _ _ _ (H n I) E). Qed.
Lemma not_here : forall word r names, forallb (fun n => apart n word) all_names = true -> (forall n, In n names -> In n all_names) -> ~ command_here names ([c_bs] ++ word ++ r).
Proof. intros word r names H Sub (n & q & I & E & _). cbn [List.app] in E. injection E as E. exact (names_apart word H n q r (Sub n I) (eq_sym E)). Qed.
Lemma all_cont : continued all_names. Proof. apply continuedb_ok. vm_compute. reflexivity. Qed.
Lemma all_nodup : NoDup all_names. Proof. apply StyleProofs2.nodupb_ok. vm_compute. reflexivity. Qed.
Lemma name_unique : forall a b x y, In a all_names -> In b all_names -> a ++ x = b ++ y -> ends_word x -> ends_word y -> a = b.
Proof.
  intros a b x y Ia Ib E Wx Wy. destruct (prefixes a b x y E) as [[z ->]|[z ->]].
  - destruct z as [|c z]; [rewrite app_nil_r; reflexivity|exfalso]. rewrite <- app_assoc in E. apply app_inv_head in E. subst x.
    apply (Wx c (z ++ y) eq_refl). apply letter_true. apply (all_cont a (a ++ c :: z) c z Ia Ib eq_refl).
  - destruct z as [|c z]; [rewrite app_nil_r; reflexivity|exfalso]. rewrite <- app_assoc in E. apply app_inv_head in E. subst y.
    apply (Wy c (z ++ x) eq_refl). apply letter_true. apply (all_cont b (b ++ c :: z) c z Ib Ia eq_refl).
Qed.
Lemma size_not_font : forall name r, In name sizes -> ends_word r -> ~ command_here fonts ([c_bs] ++ name ++ r).
Proof.
  intros name r I W (n & q & In0 & E & Wq). cbn [List.app] in E. injection E as E.
  assert (X : name = n) by (apply (name_unique name n r q); [apply in_or_app; right; exact I|apply in_or_app; left; exact In0|exact E|exact W|exact Wq]). subst n.
  assert (D : forallb (fun x => negb (existsb (str_eqb x) fonts)) sizes = true) by (vm_compute; reflexivity). rewrite forallb_forall in D. specialize (D name I).
  assert (Y : existsb (str_eqb name) fonts = true) by (apply existsb_exists; exists name; split; [exact In0|apply str_eqb_refl]). rewrite Y in D. discriminate.
Qed.
