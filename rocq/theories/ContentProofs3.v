From Coq Require Import List NArith ZArith PeanoNat Lia Bool String.
From Verif Require Import PyStr Regex RegexLemmas RegexHead RegexLocal Json TexUtilsModel DelimSpec DelimProofs DelimFinal TextProofs TableProofs2 TableCases EtoolProofs KeyvalProofs ContentModel ContentSpec ContentProofs ContentProofs2.
Import ListNotations. Notation length := List.length. Notation concat := List.concat. Open Scope list_scope.

(** * (?:sub)* *)
Lemma times_length : forall n s, length (times n s) = n * length s.
Proof. induction n as [|n IH]; intros s; cbn; [reflexivity|]. rewrite app_length, IH. reflexivity. Qed.
Lemma star_run_S : forall step f i c, star_run step true (S f) i c = flat_map (fun jc => if Nat.ltb i (fst jc) then star_run step true f (fst jc) (snd jc) else []) (step i c) ++ [(i, c)].
Proof. reflexivity. Qed.
Lemma star_sub_go : forall (s t r : str) n fuel i c, s <> [] -> n < fuel -> skipn i t = times n s ++ r -> ci_prefix s r = false ->
  exists l, star_run (rm (rci s) t) true fuel i c = (i + n * length s, c) :: l.
Proof.
  intros s t r. induction n as [|n IH]; intros fuel i c Hs Hf E Hr; destruct fuel as [|f]; try lia; rewrite star_run_S, rm_rci, E.
  - cbn [times List.app]. rewrite Hr. cbn. rewrite Nat.add_0_r. eauto.
  - cbn [times]. rewrite <- app_assoc, ci_prefix_app. cbn [flat_map fst snd].
    assert (L : 0 < length s) by (destruct s; [congruence|cbn; lia]). replace (Nat.ltb i (i + length s)) with true by (symmetry; apply Nat.ltb_lt; lia).
    cbn [times] in E. rewrite <- app_assoc in E. destruct (IH f (i + length s) c Hs ltac:(lia) (skipn_more _ _ _ _ E) Hr) as (l & El). rewrite El. cbn [List.app].
    replace (i + length s + n * length s) with (i + S n * length s) by lia. eauto.
Qed.
Lemma fm_times : forall s t i c n r, s <> [] -> skipn i t = times n s ++ r -> ci_prefix s r = false -> first_match (rstar (rci s)) t i c (i + length (times n s)) c.
Proof.
  intros s t i c n r Hs E Hr. unfold first_match, rstar. cbn [rm]. rewrite times_length. eapply star_sub_go; [exact Hs| |exact E|exact Hr].
  assert (L : 0 < length s) by (destruct s; [congruence|cbn; lia]). apply (f_equal (@length ch)) in E. rewrite skipn_length, app_length, times_length in E. nia.
Qed.
Lemma fm_ostar : forall (t : str) i c b r, skipn i t = starred b ++ r -> (match r with x :: _ => N.eqb c_star x | [] => false end) = false -> first_match ostar t i c (i + length (starred b)) c.
Proof.
  intros t i c b r E Hr. unfold ostar, ropt. destruct b; cbn [starred] in *.
  - apply fm_alt_left. replace (i + length (lit "*")) with (S i) by (cbn; lia). eapply fm_is_ch. exact E.
  - apply fm_alt_right; [|cbn; rewrite Nat.add_0_r; apply fm_eps]. unfold is_ch. apply rm_chr_none. cbn [List.app] in E. rewrite E. exact Hr.
Qed.
Definition head_tail : re := rseq [ostar; sp; lbrace].
Lemma ws_head : forall ws r y, blank ws -> isspace y = false -> y <> c_lb -> (match ws ++ [c_lb] ++ r with x :: _ => N.eqb y x | [] => false end) = false.
Proof.
  intros ws r y H Hy Hy2. destruct ws as [|x ws]; cbn; [apply N.eqb_neq; exact Hy2|]. unfold blank in H. cbn in H. apply andb_prop in H as [Hx _]. apply N.eqb_neq. intros ->. congruence.
Qed.
Lemma fm_head_tail : forall (t : str) i c b ws r, skipn i t = starred b ++ ws ++ [c_lb] ++ r -> blank ws -> first_match head_tail t i c (i + length (starred b ++ ws ++ [c_lb])) c.
Proof.
  intros t i c b ws r E H. unfold head_tail. cbn [rseq]. pose proof (skipn_more _ _ _ _ E) as E1. pose proof (skipn_more _ _ _ _ E1) as E2.
  eapply fm_seq; [eapply fm_ostar; [exact E|apply ws_head; [exact H|reflexivity|discriminate]]|]. eapply fm_seq; [eapply fm_sp; [exact E1|exact H|reflexivity]|].
  match goal with |- first_match _ _ ?p _ ?q _ => replace q with (S p) by (rewrite !app_length; cbn [length]; lia) end. unfold lbrace. eapply fm_is_ch. exact E2.
Qed.

(** * Counting *)
Lemma count_skip : forall (u r : str), count_go (lit "sub") 0 (times 0 u ++ r) = count_go (lit "sub") 0 r.
Proof. reflexivity. Qed.
Lemma count_sub1 : forall r, count_go (lit "sub") 0 (lit "sub" ++ r) = S (count_go (lit "sub") 0 r).
Proof. intros r. reflexivity. Qed.
Lemma count_times : forall n r, count_go (lit "sub") 0 (times n (lit "sub") ++ r) = n + count_go (lit "sub") 0 r.
Proof. induction n as [|n IH]; intros r; [reflexivity|]. cbn [times]. rewrite <- app_assoc, count_sub1, IH. reflexivity. Qed.
Lemma count_other : forall x r, x <> 115%N -> count_go (lit "sub") 0 (x :: r) = count_go (lit "sub") 0 r.
Proof. intros x r H. cbn [count_go]. replace (startswith (x :: r) (lit "sub")) with false; [reflexivity|]. symmetry. cbn. destruct (N.eqb 115 x) eqn:E; [apply N.eqb_eq in E; congruence|reflexivity]. Qed.
Lemma count_clean : forall s, ~ In 115%N s -> count_go (lit "sub") 0 s = 0.
Proof. induction s as [|x s IH]; intros H; [reflexivity|]. rewrite count_other by (intros ->; apply H; left; reflexivity). apply IH. intros C. apply H. right. exact C. Qed.
Lemma blank_notin : forall ws y, blank ws -> isspace y = false -> ~ In y ws.
Proof. intros ws y H Hy C. unfold blank in H. rewrite forallb_forall in H. rewrite (H y C) in Hy. discriminate Hy. Qed.
Lemma tail_clean : forall b ws y, blank ws -> isspace y = false -> y <> c_star -> y <> c_lb -> ~ In y (starred b ++ ws ++ [c_lb]).
Proof.
  intros b ws y H Hy N1 N2 C. apply in_app_iff in C as [C|C]; [destruct b; cbn in C; [destruct C as [C|[]]; apply N1; symmetry; exact C|destruct C]|].
  apply in_app_iff in C as [C|[C|[]]]; [exact (blank_notin ws y H Hy C)|congruence].
Qed.

(** * Section commands *)
Lemma fm_level : forall cmd t n star ws title rest, ci_prefix (lit "sub") (lit cmd ++ starred star ++ ws ++ [c_lb] ++ title ++ [c_rb] ++ rest) = false -> blank ws ->
  t = level_command n cmd star ws title rest ->
  first_match (RSeq bs (RSeq (rstar #"sub") (RSeq (rci (lit cmd)) head_tail))) t 0 [] (S (length ([c_bs] ++ times n (lit "sub") ++ lit cmd ++ starred star ++ ws))) [].
Proof.
  intros cmd t n star ws title rest Hc Hw Et. set (r := title ++ [c_rb] ++ rest) in *.
  assert (E1 : skipn 1 t = times n (lit "sub") ++ lit cmd ++ starred star ++ ws ++ [c_lb] ++ r) by (rewrite Et; reflexivity).
  pose proof (skipn_more _ _ _ _ E1) as E2. pose proof (skipn_more _ _ _ _ E2) as E3.
  eapply fm_seq; [unfold bs; eapply fm_is_ch; rewrite Et; reflexivity|]. eapply fm_seq; [eapply fm_times; [discriminate|exact E1|exact Hc]|].
  eapply fm_seq; [eapply fm_rci; exact E2|]. 
  match goal with |- first_match _ _ ?p _ ?q _ => replace q with (p + length (starred star ++ ws ++ [c_lb])) by (rewrite !app_length; cbn [length]; lia) end.
  eapply fm_head_tail; [exact E3|exact Hw].
Qed.
Lemma group0_at : forall (t a r : str) c, t = a ++ r -> m_group0 t {| m_start := 0; m_end := length a; m_caps := c |} = a.
Proof. intros t a r c ->. unfold m_group0, slice. cbn [m_start m_end skipn]. rewrite Nat.sub_0_r, firstn_app, Nat.sub_diag, firstn_all. cbn. apply app_nil_r. Qed.
Lemma level_head : forall n cmd star ws title rest, level_command n cmd star ws title rest = ([c_bs] ++ times n (lit "sub") ++ lit cmd ++ starred star ++ ws ++ [c_lb]) ++ title ++ [c_rb] ++ rest.
Proof. intros. unfold level_command. rewrite <- !app_assoc. reflexivity. Qed.
Lemma star_absent : forall n ws, blank ws -> ~ In c_star ([c_bs] ++ times n (lit "sub") ++ lit "section" ++ starred false ++ ws ++ [c_lb]).
Proof.
  intros n ws H C. apply in_app_iff in C as [[C|[]]|C]; [discriminate C|]. apply in_app_iff in C as [C|C].
  - induction n as [|n IH]; [destruct C|]. cbn [times] in C. apply in_app_iff in C as [C|C]; [|exact (IH C)]. cbn in C. repeat (destruct C as [C|C]; [discriminate C|]). destruct C.
  - apply in_app_iff in C as [C|C]; [cbn in C; repeat (destruct C as [C|C]; [discriminate C|]); destruct C|]. cbn [starred List.app] in C.
    apply in_app_iff in C as [C|[C|[]]]; [exact (blank_notin ws _ H (eq_refl : isspace c_star = false) C)|discriminate C].
Qed.
Theorem section_command : forall word expand d n star ws title rest, blank ws -> closed title ->
  content_handle word expand d (level_command n "section" star ws title rest) =
    Ok (d, (VDict [(lit "type", VStr (lit "section")); (lit "title", VStr (strip (expand title))); (lit "level", VInt (Z.of_nat n + 1)); (lit "numbered", VBool (negb star))],
            length (level_command n "section" star ws title []))).
Proof.
  intros word expand d n star ws title rest Hw Ht. set (t := level_command n "section" star ws title rest).
  set (head := [c_bs] ++ times n (lit "sub") ++ lit "section" ++ starred star ++ ws). set (g := [c_bs] ++ times n (lit "sub") ++ lit "section" ++ starred star ++ ws ++ [c_lb]).
  assert (Hg : length g = S (length head)) by (unfold g, head; rewrite !app_length; cbn [length]; lia).
  assert (M : re_match_at P_section t 0 = Some {| m_start := 0; m_end := S (length head); m_caps := [] |}).
  { apply fm_match. change P_section with (RSeq bs (RSeq (rstar #"sub") (RSeq #"section" head_tail))). apply (fm_level "section" t n star ws title rest); [reflexivity|exact Hw|reflexivity]. }
  assert (A : re_match_at P_abstract t 0 = None) by (unfold t, level_command; destruct n; reflexivity).
  unfold content_handle. cbn [PATTERNS first_pattern]. rewrite A, M. cbn [m_end].
  rewrite (nested_arg t head title rest Ht) by (unfold t, level_command, head; rewrite <- !app_assoc; reflexivity).
  unfold create_token. rewrite <- Hg, (group0_at t g (title ++ [c_rb] ++ rest)) by (unfold t, g; apply level_head). change (kind_name Ksection) with (lit "section"). cbn [bind fst snd section_level].
  assert (Cn : str_count (lit "sub") g = n).
  { unfold str_count, g. cbn [List.app]. rewrite count_other by discriminate. rewrite count_times.
    change (count_go (lit "sub") 0 (lit "section" ++ ?u)) with (count_go (lit "sub") 0 u). rewrite count_clean by (apply tail_clean; [exact Hw|reflexivity|discriminate|discriminate]). lia. }
  assert (St : contains (lit "section" ++ [c_star]) g = star).
  { destruct star.
    - apply occurs_dec. exists ([c_bs] ++ times n (lit "sub")), (ws ++ [c_lb]). unfold g. cbn [starred]. rewrite <- !app_assoc. reflexivity.
    - apply not_true_iff_false. intros C. apply occurs_dec in C as (p & q & E). apply (star_absent n ws Hw). unfold g in E. rewrite E. rewrite !in_app_iff. right. left. right. left. reflexivity. }
  rewrite Cn, St. do 3 f_equal. rewrite Hg. unfold head, level_command. rewrite !app_length. cbn [length]. lia.
Qed.
