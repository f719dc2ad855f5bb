(** The weight of a text with acyclic macros. *)
From Coq Require Import List NArith ZArith PeanoNat Lia Bool String.
From Verif Require Import PyStr Regex RegexLemmas TexUtilsModel DelimSpec DelimProofs CommentProofs Json BuilderModel TokensModel CommandModel CommandSpec CommandProofs CommandProofs5 ParseModel ParseSpec ParseProofs.
Import ListNotations. Notation length := List.length. Notation concat := List.concat. Open Scope list_scope.

Lemma used_b_spec : forall name t, used_b name t = true <-> exists r, use_at name t r.
Proof.
  intros name t. unfold used_b. rewrite andb_true_iff. split.
  - intros [E H]. apply startswith_spec in E as (r & ->). exists r. split; [rewrite <- app_assoc; reflexivity|].
    apply word_end_head. apply negb_true_iff in H. change (S (length name)) with (length ([c_bs] ++ name)) in H. rewrite skipn_app, skipn_all, Nat.sub_diag in H. exact H.
  - intros (r & -> & H). change ([c_bs] ++ name ++ r) with (([c_bs] ++ name) ++ r). rewrite startswith_app. split; [reflexivity|].
    apply negb_true_iff. change (S (length name)) with (length ([c_bs] ++ name)). rewrite skipn_app, skipn_all, Nat.sub_diag. apply word_end_head. exact H.
Qed.
(** before a text that does not continue a word, uses are those of the first part *)
Lemma used_app : forall name x (s r : str), word name -> word_end r -> used_b name ((x :: s) ++ r) = used_b name (x :: s).
Proof.
  intros name x s r Wn Hr.
  assert (A : forall a b : bool, (a = true <-> b = true) -> a = b) by (intros [|] [|] [H1 H2]; auto; try (symmetry; auto)).
  apply A. rewrite !used_b_spec. split.
  - intros (q & E & Hq). destruct (Nat.le_gt_cases (S (length name)) (length (x :: s))) as [L|L].
    + exists (skipn (S (length name)) (x :: s)).
      assert (E1 : firstn (S (length name)) (x :: s) = [c_bs] ++ name).
      { transitivity (firstn (S (length name)) ((x :: s) ++ r)); [rewrite firstn_app; replace (S (length name) - length (x :: s)) with 0 by lia; rewrite firstn_O, app_nil_r; reflexivity|].
        rewrite E. change ([c_bs] ++ name ++ q) with (([c_bs] ++ name) ++ q). change (S (length name)) with (length ([c_bs] ++ name)). rewrite firstn_app, firstn_all, Nat.sub_diag, firstn_O, app_nil_r. reflexivity. }
      split.
      * rewrite app_assoc. rewrite <- E1. symmetry. apply firstn_skipn.
      * assert (E2 : q = skipn (S (length name)) (x :: s) ++ r).
        { transitivity (skipn (S (length name)) ((x :: s) ++ r)); [|rewrite skipn_app; replace (S (length name) - length (x :: s)) with 0 by lia; reflexivity].
          rewrite E. change ([c_bs] ++ name ++ q) with (([c_bs] ++ name) ++ q). change (S (length name)) with (length ([c_bs] ++ name)). rewrite skipn_app, skipn_all, Nat.sub_diag. reflexivity. }
        destruct (skipn (S (length name)) (x :: s)) as [|y z]; [intros ? ? D; discriminate D|]. subst q. intros y' z' [= <- <-]. apply (Hq y (z ++ r)). reflexivity.
    + exfalso. cbn [app] in E. injection E as -> E. cbn [length] in L.
      assert (Es : r = skipn (length s) name ++ q).
      { transitivity (skipn (length s) (s ++ r)); [rewrite skipn_app, skipn_all, Nat.sub_diag; reflexivity|]. rewrite E. rewrite skipn_app. replace (length s - length name) with 0 by lia. reflexivity. }
      destruct (skipn (length s) name) as [|y z] eqn:En; [assert (LL : length (skipn (length s) name) = 0) by (rewrite En; reflexivity); rewrite skipn_length in LL; lia|].
      apply word_forallb in Wn. rewrite <- (firstn_skipn (length s) name), forallb_app, En in Wn. apply andb_prop in Wn as [_ Wn]. cbn in Wn. apply andb_prop in Wn as [Wn _].
      apply word_end_head in Hr. rewrite Es in Hr. cbn in Hr. congruence.
  - intros (q & E & Hq). exists (q ++ r). split; [rewrite E, <- !app_assoc; reflexivity|].
    destruct q as [|y z]; [exact Hr|]. intros y' z' [= <- <-]. apply (Hq y z). reflexivity.
Qed.

Section Fix.
Variable cost : str -> nat.
Variable ms : list (str * str).
Hypothesis Hw : forall n b, In (n, b) ms -> word n.
Notation W := (text_weight cost ms).
Lemma charge_app : forall x (s r : str), word_end r -> charge cost ms ((x :: s) ++ r) = charge cost ms (x :: s).
Proof.
  intros x s r Hr. unfold charge. f_equal. apply map_ext_in. intros [n b] H. cbn [fst]. rewrite (used_app n x s r (Hw n b H) Hr). reflexivity.
Qed.
Lemma weight_app : forall (s r : str), word_end r -> W (s ++ r) = W s + W r.
Proof.
  induction s as [|x s IH]; intros r Hr; [reflexivity|]. change ((x :: s) ++ r) with (x :: (s ++ r)). cbn [text_weight].
  rewrite IH by exact Hr. change (x :: s ++ r) with ((x :: s) ++ r). rewrite charge_app by exact Hr. lia.
Qed.
Lemma weight_drop : forall n t, n <= length t -> W (skipn n t) + n <= W t.
Proof. induction n as [|n IH]; intros [|x t] L; cbn in L; cbn [skipn text_weight]; try lia. specialize (IH t). lia. Qed.
Lemma charge_other : forall x t, x <> c_bs -> charge cost ms (x :: t) = 0.
Proof.
  intros x t H. unfold charge. clear Hw. induction ms as [|[n b] l IH]; [reflexivity|]. cbn [map fst]. unfold list_sum in *. cbn [fold_right].
  rewrite IH. replace (used_b n (x :: t)) with false; [reflexivity|]. symmetry. destruct (used_b n (x :: t)) eqn:E; [|reflexivity].
  apply used_b_spec in E as (r & E & _). cbn in E. injection E as E _. contradiction.
Qed.
Lemma nonword_end : forall x r, name_ch x = false -> word_end (x :: r).
Proof. intros x r H. apply word_end_head. exact H. Qed.
Lemma space_break : forall b, isbreak b = true -> isspace b = true.
Proof.
  intros b. unfold isbreak, isspace, in_range. rewrite !orb_true_iff, !andb_true_iff, !N.leb_le, !N.eqb_eq. lia.
Qed.
Lemma weight_line : forall line, W (strip_line line) <= W line.
Proof.
  intros line. unfold strip_line. rewrite slc_line_cut. destruct (cutf_prefix line false) as (rest & Hr & Hc).
  destruct (trail_split (cutf false line)) as (ws & Hs & Hb).
  set (o := rstrip (cutf false line)) in *. clearbody o. rewrite Hr, Hs, <- app_assoc.
  rewrite weight_app; [lia|]. destruct ws as [|x ws].
  - cbn [app]. destruct Hc as [-> | (r & -> & _)]; [intros ? ? D; discriminate D|]. apply nonword_end. reflexivity.
  - cbn [app]. apply nonword_end, space_not_name. cbn in Hb. apply andb_prop in Hb. apply Hb.
Qed.
Lemma weight_join : forall out outs, W (join [c_nl] (out :: outs)) <= W out + 1 + W (join [c_nl] outs).
Proof.
  intros out [|o2 outs]; [cbn; lia|]. rewrite join_cons by discriminate. cbn [app]. rewrite weight_app by (apply nonword_end; reflexivity).
  cbn [text_weight]. rewrite charge_other by discriminate. lia.
Qed.
Lemma weight_lines : forall text lines, lines_of text lines -> W (join [c_nl] (map strip_line lines)) <= W text.
Proof.
  induction 1 as [|l N0 B|l s ls B L IH|l b s ls B Hb Hcr L IH].
  - cbn. lia.
  - cbn [map join]. apply weight_line.
  - cbn [map]. pose proof (weight_join (strip_line l) (map strip_line ls)). pose proof (weight_line l).
    rewrite weight_app by (apply nonword_end; reflexivity). cbn [text_weight]. lia.
  - cbn [map]. pose proof (weight_join (strip_line l) (map strip_line ls)). pose proof (weight_line l).
    rewrite weight_app by (apply nonword_end, space_not_name, space_break; exact Hb). cbn [text_weight]. lia.
Qed.
Lemma weight_strip : forall t, W (strip_latex_comments t) <= W t.
Proof. intros t. rewrite strip_latex_comments_eq. apply weight_lines, splitlines_lines. Qed.
Lemma weight_ok : weight W.
Proof.
  split.
  - exact weight_drop.
  - intros t inner e E. apply (extract_nested_content_iff c_lb c_rb t inner e delims_curly) in E.
    destruct E as (ws & rest & -> & _). pose proof (weight_strip inner).
    pose proof (weight_drop (length ws) (ws ++ c_lb :: inner ++ c_rb :: rest) ltac:(rewrite app_length; lia)) as D.
    rewrite skipn_app, skipn_all, Nat.sub_diag in D. cbn [skipn app] in D.
    assert (E : W (c_lb :: inner ++ c_rb :: rest) = S (W inner + W (c_rb :: rest))).
    { cbn [text_weight]. rewrite charge_other by discriminate. rewrite weight_app by (apply nonword_end; reflexivity). reflexivity. }
    lia.
Qed.
Lemma charge_use : forall n b t r, In (n, b) ms -> use_at n t r -> cost n <= charge cost ms t.
Proof.
  intros n b t r H U. assert (E : used_b n t = true) by (apply used_b_spec; eauto). clear Hw. unfold charge, list_sum.
  induction ms as [|[m c] l IH]; [destruct H|]. cbn [map fold_right fst]. destruct H as [[= -> ->]|H]; [rewrite E; lia|]. specialize (IH H). lia.
Qed.
Lemma weight_use : forall n b t r, In (n, b) ms -> use_at n t r -> S (length n) + cost n + W r <= W t.
Proof.
  intros n b t r H U. pose proof (charge_use n b t r H U) as C. destruct U as [-> _].
  change ([c_bs] ++ n ++ r) with (c_bs :: (n ++ r)) in *. cbn [text_weight].
  pose proof (weight_drop (length n) (n ++ r) ltac:(rewrite app_length; lia)) as D. rewrite skipn_app, skipn_all, Nat.sub_diag in D. cbn [skipn app] in D. lia.
Qed.
End Fix.

Lemma weight_ext : forall c1 c2 ms t, (forall n b, In (n, b) ms -> uses n t -> c1 n = c2 n) -> text_weight c1 ms t = text_weight c2 ms t.
Proof.
  intros c1 c2 ms. induction t as [|x t IH]; intros H; [reflexivity|]. cbn [text_weight].
  rewrite IH; [f_equal; f_equal|].
  - unfold charge. f_equal. apply map_ext_in. intros [n b] Hn. cbn [fst]. destruct (used_b n (x :: t)) eqn:E; [|reflexivity].
    apply (H n b Hn). apply used_b_spec in E as (r & E). exists [], (x :: t), r. auto.
  - intros n b Hn (p & q & r & E & U). apply (H n b Hn). exists (x :: p), q, r. split; [rewrite E; reflexivity|exact U].
Qed.
Lemma sum_unique : forall (ms : list (str * str)) n b (f : str -> nat), NoDup (map fst ms) -> In (n, b) ms ->
  list_sum (map (fun nb => if str_eqb (fst nb) n then f (snd nb) else 0) ms) = f b.
Proof.
  intros ms n b f. unfold list_sum. induction ms as [|[m c] l IH]; intros Nd H; [destruct H|]. cbn [map fold_right fst snd] in *.
  inversion Nd as [|? ? Nm Nl]; subst. destruct H as [[= -> ->]|H].
  - rewrite str_eqb_refl. assert (Z : forall l', ~ In n (map fst l') -> fold_right Nat.add 0 (map (fun nb : str * str => if str_eqb (fst nb) n then f (snd nb) else 0) l') = 0).
    { induction l' as [|[m c] l' IH']; intros N'; [reflexivity|]. cbn [map fold_right fst snd In] in *. rewrite IH' by tauto.
      destruct (str_eqb m n) eqn:E; [apply str_eqb_spec in E; subst; tauto|reflexivity]. }
    rewrite Z by exact Nm. lia.
  - rewrite IH by assumption. destruct (str_eqb m n) eqn:E; [|lia]. apply str_eqb_spec in E. subst m. exfalso. apply Nm. change n with (fst (n, b)). apply in_map. exact H.
Qed.
Section Cost.
Variable ms : list (str * str).
Variable rank : str -> nat.
Hypothesis Nd : NoDup (map fst ms).
Hypothesis Ac : acyclic ms rank.
Lemma cost_stable : forall k n b, In (n, b) ms -> rank n < k -> cost_upto ms k n = cost_upto ms (S (rank n)) n.
Proof.
  induction k as [k IH] using (well_founded_induction Wf_nat.lt_wf). intros n b Hn L. destruct k as [|k]; [lia|].
  cbn [cost_upto]. rewrite !(sum_unique ms n b _ Nd Hn). apply weight_ext. intros m c Hm U.
  pose proof (Ac n b m c Hn Hm U) as R. destruct (Nat.eq_dec k (rank n)) as [->|Ne]; [reflexivity|].
  rewrite (IH k ltac:(lia) m c Hm) by lia. rewrite (IH (rank n) ltac:(lia) m c Hm) by lia. reflexivity.
Qed.
Lemma cost_body : forall n b, In (n, b) ms -> cost_upto ms (S (rank n)) n = macro_weight ms rank b.
Proof.
  intros n b Hn. cbn [cost_upto]. rewrite (sum_unique ms n b _ Nd Hn). apply weight_ext. intros m c Hm U.
  apply (cost_stable (rank n) m c Hm). eapply Ac; eauto.
Qed.
End Cost.

Lemma handle_table : forall isalpha ms t out e, (forall n b, In (n, b) ms -> word n) -> handle_command isalpha {| c_cmds := table ms; c_lets := [] |} t = Some (out, e) ->
  exists n b r, In (n, b) ms /\ use_at n t r /\ e = S (length n) /\ (out = b \/ out = []).
Proof.
  intros isalpha ms t out e. unfold handle_command, all_commands. cbn [c_lets c_cmds fold_left].
  induction ms as [|[n b] ms IH]; intros Hw H; [discriminate H|]. cbn [table map handle_go fst snd] in H. cbn [ce_math plain_entry ce_pat ce_kind] in H.
  destruct (usage_at n t 0 (Hw n b (or_introl eq_refl)) ltac:(lia)) as [Y N0]. destruct (use_dec n t) as [(r & U)|U].
  - rewrite (Y r U) in H. cbn [run_handler get_definition m_end Nat.add] in H. exists n, b, r. split; [left; reflexivity|]. split; [exact U|].
    destruct (str_eqb _ b); injection H as <- <-; auto.
  - rewrite (N0 U) in H. destruct (IH (fun n b H => Hw n b (or_intror H)) H) as (n' & b' & r' & I1 & I2). exists n', b', r'. split; [right; exact I1|exact I2].
Qed.

(** replacing a macro of an acyclic table makes the text lighter *)
Lemma macros_shrink : forall St (mac : St -> cstate) ms rank, (forall n b, In (n, b) ms -> word n) -> NoDup (map fst ms) -> acyclic ms rank ->
  replacing_shrinks St (macro_weight ms rank) (fun s => mac s = {| c_cmds := table ms; c_lets := [] |})
    (fun s t => Ok (option_map (fun p => (fst p, Z.of_nat (snd p))) (handle_command letter (mac s) t))).
Proof.
  intros St mac ms rank Hw Nd Ac s t r e Is Nt E L. rewrite Is in E. destruct (handle_command letter _ t) as [[out k]|] eqn:Eh; [|discriminate E].
  cbn in E. injection E as <- <-. destruct (handle_table letter ms t out k Hw Eh) as (n & b & q & Hn & U & -> & Ho).
  pose proof (weight_use (fun n => cost_upto ms (S (rank n)) n) ms n b t q Hn U) as Wu. cbv beta in Wu.
  pose proof (cost_body ms rank Nd Ac n b Hn) as Cb. rewrite Cb in Wu.
  rewrite from_nat by lia. rewrite Nat2Z.id. destruct U as [-> Hq]. change ([c_bs] ++ n ++ q) with (([c_bs] ++ n) ++ q) in *.
  assert (Sk : skipn (S (length n)) (([c_bs] ++ n) ++ q) = q) by (change (S (length n)) with (length ([c_bs] ++ n)); rewrite skipn_app, skipn_all, Nat.sub_diag; reflexivity). rewrite Sk.
  unfold macro_weight in *. rewrite (weight_app _ ms Hw out q Hq). destruct Ho as [-> | ->]; [lia|]. change (text_weight (fun n0 : str => cost_upto ms (S (rank n0)) n0) ms []) with 0. lia.
Qed.
