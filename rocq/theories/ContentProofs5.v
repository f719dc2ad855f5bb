From Coq Require Import List NArith ZArith PeanoNat Lia Bool String.
From Verif Require Import PyStr Regex RegexLemmas RegexHead Json TexUtilsModel DelimSpec DelimProofs DelimFinal TextProofs EtoolProofs KeyvalProofs ContentModel ContentSpec ContentProofs ContentProofs2 ContentProofs3 ContentSpec2.
Import ListNotations. Notation length := List.length. Notation concat := List.concat. Open Scope list_scope.

(** * Patterns that read a text in front of another *)
Definition runs (p : re) (s r : str) (out : nat -> caps -> caps) : Prop :=
  forall (t : str) i c, skipn i t = s ++ r -> first_match p t i c (i + length s) (out i c).
Definition keep : nat -> caps -> caps := fun _ c => c.
Lemma runs_seq : forall p q s1 s2 r o1 o2, runs p s1 (s2 ++ r) o1 -> runs q s2 r o2 -> runs (RSeq p q) (s1 ++ s2) r (fun i c => o2 (i + length s1) (o1 i c)).
Proof.
  intros p q s1 s2 r o1 o2 H1 H2 t i c E. rewrite <- app_assoc in E. eapply fm_seq; [apply H1; exact E|]. rewrite app_length, Nat.add_assoc. apply H2. exact (skipn_more _ _ _ _ E).
Qed.
Lemma runs_lit : forall s r, runs (rci s) s r keep.
Proof. intros s r t i c E. eapply fm_rci. exact E. Qed.
Lemma runs_ch : forall x r, runs (is_ch x) [x] r keep.
Proof. intros x r t i c E. cbn [length]. rewrite Nat.add_1_r. eapply fm_is_ch. exact E. Qed.
Definition first (p : ch -> bool) (r : str) : bool := match r with x :: _ => p x | [] => false end.
Lemma runs_star : forall b r, first (N.eqb c_star) r = false -> runs ostar (starred b) r keep.
Proof. intros b r H t i c E. eapply fm_ostar; [exact E|exact H]. Qed.
Lemma runs_ws : forall ws r, blank ws -> first isspace r = false -> runs sp ws r keep.
Proof. intros ws r H1 H2 t i c E. eapply fm_sp; [exact E|exact H1|exact H2]. Qed.
Definition opt_caps (n : nat) (o : option str) : nat -> caps -> caps :=
  fun i c => match o with Some a => (n, (S i, S i + length a)) :: c | None => c end.
Lemma runs_opt : forall n o r, good_note o -> (o = None -> first (N.eqb c_lk) r = false) -> runs (opt_brace n) (bracketed o) r (opt_caps n o).
Proof.
  intros n o r H1 H2 t i c E. destruct o as [a|].
  - cbn [bracketed] in E. rewrite <- !app_assoc in E. exact (fm_opt_some n t i c a r E H1).
  - cbn [bracketed List.app length] in *. rewrite Nat.add_0_r. apply fm_opt_none. rewrite E. exact (H2 eq_refl).
Qed.
Lemma runs_cap : forall n a r, flat a -> first (N.eqb c_rb) r = true -> runs (RGrp n (rstar (not_ch c_rb))) a r (fun i c => (n, (i, i + length a)) :: c).
Proof.
  intros n a r H1 H2 t i c E. apply fm_grp. unfold rstar, not_ch. eapply fm_star; [exact E|apply notin_forallb; exact H1|].
  destruct r as [|x r]; [reflexivity|]. cbn [first] in H2. apply N.eqb_eq in H2. subst x. rewrite N.eqb_refl. reflexivity.
Qed.
Lemma runs_left : forall p q s r o, runs p s r o -> runs (RAlt p q) s r o.
Proof. intros p q s r o H t i c E. apply fm_alt_left. apply H, E. Qed.
Lemma runs_right : forall n q s r o, ci_prefix n (s ++ r) = false -> runs q s r o -> runs (RAlt (rci n) q) s r o.
Proof. intros n q s r o N H t i c E. apply fm_alt_right; [rewrite rm_rci, E, N; reflexivity|apply H, E]. Qed.
Lemma runs_skip : forall p r, (forall (t : str) i c, skipn i t = r -> rm p t i c = []) -> runs (ropt p) [] r keep.
Proof. intros p r H t i c E. cbn [length]. rewrite Nat.add_0_r. apply fm_alt_right; [apply H, E|apply fm_eps]. Qed.
Lemma runs_cat : forall n p s r o, runs p s r o -> runs (RGrp n p) s r (fun i c => (n, (i, i + length s)) :: o i c).
Proof. intros n p s r o H t i c E. apply fm_grp. apply H, E. Qed.

(** blanks in front of something *)
Lemma first_ws : forall p ws r, blank ws -> (forall x, isspace x = true -> p x = false) -> first p r = false -> first p (ws ++ r) = false.
Proof. intros p [|x ws] r H Hp Hr; [exact Hr|]. unfold blank in H. cbn in H. apply andb_prop in H as [Hx _]. apply Hp, Hx. Qed.
Lemma space_not : forall y x, isspace y = false -> isspace x = true -> N.eqb y x = false.
Proof. intros y x H1 H2. apply N.eqb_neq. intros ->. congruence. Qed.

(** * A command with a last group *)
Lemma group_command : forall word expand d d' v n k p (head body rest : str) out,
  let t := (head ++ group body) ++ rest in
  first_pattern (firstn n (PATTERNS word)) t = None ->
  nth_error (PATTERNS word) n = Some (k, p) -> k <> Kfootnotemark -> k <> Kappendix ->
  runs p (head ++ [c_lb]) (body ++ [c_rb] ++ rest) out -> closed body ->
  create_token d k t {| m_start := 0; m_end := S (length head); m_caps := out 0 [] |} (expand body) = Ok (d', v) ->
  content_handle word expand d t = Ok (d', (v, length (head ++ group body))).
Proof.
  intros word expand d d' v n k p head body rest out t H1 H2 K1 K2 R B C.
  assert (Et : t = head ++ [c_lb] ++ body ++ [c_rb] ++ rest) by (unfold t, group; rewrite <- !app_assoc; reflexivity).
  assert (M : re_match_at p t 0 = Some {| m_start := 0; m_end := S (length head); m_caps := out 0 [] |}).
  { apply fm_match. replace (S (length head)) with (0 + length (head ++ [c_lb])) by (rewrite app_length; cbn [length]; lia). apply R. cbn [skipn]. rewrite Et, <- app_assoc. reflexivity. }
  assert (P : first_pattern (PATTERNS word) t = Some (k, {| m_start := 0; m_end := S (length head); m_caps := out 0 [] |})).
  { rewrite <- (firstn_skipn n (PATTERNS word)), first_pattern_app by exact H1. apply nth_error_split in H2 as (l1 & l2 & E & L). rewrite E. rewrite <- L, skipn_app, skipn_all, Nat.sub_diag.
    cbn [List.app skipn first_pattern]. rewrite M. reflexivity. }
  unfold content_handle. rewrite P. cbn [m_end]. pose proof (nested_arg t head body rest B Et) as Nn.
  assert (L : S (length head) + (1 + length body + 1) - 1 = length (head ++ group body)) by (unfold group; rewrite !app_length; cbn [length]; lia).
  destruct k; try congruence; rewrite Nn, C; cbn [bind fst snd]; rewrite L; reflexivity.
Qed.
Lemma group_of : forall (t pre a r : str) n i c e, t = pre ++ a ++ r -> i = length pre -> m_group t n {| m_start := 0; m_end := e; m_caps := (n, (i, i + length a)) :: c |} = Some a.
Proof.
  intros t pre a r n i c e -> ->. unfold m_group. cbn [m_caps cap_get]. rewrite Nat.eqb_refl. cbn [option_map]. f_equal. eapply slice_at. rewrite skipn_app, skipn_all, Nat.sub_diag. cbn [skipn List.app]. reflexivity.
Qed.
