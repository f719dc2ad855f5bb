From Coq Require Import List NArith ZArith PeanoNat Lia Bool Permutation String.
From Verif Require Import PyStr Regex RegexLemmas RegexLocal RegexHead Json TexUtilsModel DelimSpec DelimProofs DelimFinal BuilderModel FactoryModel TableModel Placeholder PlaceModel.
Import ListNotations.
Notation length := List.length.
Notation concat := List.concat.
Open Scope list_scope.

(** * Keys *)
Lemma digits_cut : forall a b (x y : ch) r s, forallb isdigit a = true -> forallb isdigit b = true -> isdigit x = false -> isdigit y = false ->
  a ++ x :: r = b ++ y :: s -> a = b.
Proof.
  induction a as [|u a IH]; intros [|v b] x y r s Ha Hb Hx Hy E; cbn [app forallb] in *.
  - reflexivity.
  - exfalso. assert (x = v) by congruence. subst v. rewrite Hx in Hb. discriminate Hb.
  - exfalso. assert (y = u) by congruence. subst u. rewrite Hy in Ha. discriminate Ha.
  - assert (u = v) by congruence. subst v. apply andb_true_iff in Ha as [_ Ha]. apply andb_true_iff in Hb as [_ Hb]. f_equal.
    eapply (IH b x y r s); try assumption. congruence.
Qed.
Lemma num_cut : forall i j (x y : ch) r s, isdigit x = false -> isdigit y = false -> str_of_nat i ++ x :: r = str_of_nat j ++ y :: s -> i = j.
Proof. intros i j x y r s Hx Hy E. apply str_of_nat_inj. eapply digits_cut in E; eauto; apply uint_str_digits. Qed.
Lemma num_digit : forall n (x : ch), In x (str_of_nat n) -> isdigit x = true.
Proof. intros n x H. pose proof (uint_str_digits (Nat.to_uint n)) as D. rewrite forallb_forall in D. apply D. exact H. Qed.

Lemma occurs_head_out : forall (x : ch) u w s, ~ In x w -> occurs (x :: u) (w ++ s) -> occurs (x :: u) s.
Proof.
  induction w as [|y w IH]; intros s H O; [exact O|]. cbn [app] in O. apply occurs_cons in O as [P|O].
  - exfalso. apply H. left. destruct P as (q & P). cbn in P. injection P as -> _. reflexivity.
  - apply IH; [intros C; apply H; right; exact C|exact O].
Qed.
Lemma occurs_app_l : forall u a b, occurs u a -> occurs u (a ++ b).
Proof. intros u a b (p & q & ->). exists p, (q ++ b). rewrite <- !app_assoc. reflexivity. Qed.
Lemma occurs_app_r : forall u a b, occurs u b -> occurs u (a ++ b).
Proof. intros u a b (p & q & ->). exists (a ++ p), q. rewrite <- !app_assoc. reflexivity. Qed.
Lemma absent_app : forall u a b, ~ occurs u (a ++ b) -> ~ occurs u a /\ ~ occurs u b.
Proof. intros u a b H. split; intros C; apply H; [apply occurs_app_l|apply occurs_app_r]; exact C. Qed.
Lemma occurs_suffix : forall a u s, occurs (a ++ u) s -> occurs u s.
Proof. intros a u s (p & q & ->). exists (p ++ a), q. rewrite <- !app_assoc. reflexivity. Qed.

(** * Verbatim *)
Definition vW := lit "__VERBATIM_BLOCK".
Definition vkey (i : nat) : str := lit "__" ++ str_of_nat i ++ lit "__".
Definition vclean (t : str) : Prop := ~ occurs (lit "VERBATIM_BLOCK") t.
Lemma verbatim_key_split : forall i, verbatim_key i = placeholder vW vkey i.
Proof. intros i. unfold verbatim_key, placeholder, vkey. rewrite app_assoc. reflexivity. Qed.
Lemma vkey_prefix : forall i j r s, vkey i ++ r = vkey j ++ s -> i = j.
Proof.
  intros i j r s E. unfold vkey in E. rewrite <- !app_assoc in E. apply app_inv_head in E. cbn [lit list_ascii_of_string map app] in E.
  eapply num_cut in E; [exact E|reflexivity|reflexivity].
Qed.
Lemma vclean_gap : forall i t, vclean t -> ~ occurs vW (vkey i ++ t).
Proof.
  intros i t H O. apply H. apply (occurs_suffix (lit "__")) in O. eapply occurs_head_out; [|exact O].
  unfold vkey. intros C. apply in_app_or in C as [C|C]; [cbn in C; intuition discriminate|]. apply in_app_or in C as [C|C]; [|cbn in C; intuition discriminate].
  apply num_digit in C. discriminate.
Qed.
Lemma vclean_text : forall t, vclean t -> ~ occurs vW t.
Proof. intros t H O. apply H. apply (occurs_suffix (lit "__")) in O. exact O. Qed.

(** * The loop *)
Definition good (p : searcher) : Prop := forall t pos s e, p t pos = Some (s, e) -> pos <= s /\ s < e /\ e <= length t.
Lemma of_re_good : forall r, 0 < minlen r -> good (of_re r).
Proof.
  intros r Hm t pos s e H. unfold of_re in H. destruct (re_search_from r t pos) as [m|] eqn:E; [|discriminate]. cbn in H. injection H as <- <-.
  apply re_search_some in E as (H1 & H2 & H3 & _). apply minlen_ok in H3. lia.
Qed.
Lemma verb_close_len : forall d s n, verb_close d s = Some n -> 0 < n <= length s.
Proof.
  induction s as [|x s IH]; intros n H; cbn in H; [discriminate|]. destruct (N.eqb x d); [injection H as <-; cbn; lia|].
  destruct (N.eqb x c_nl); [discriminate|]. destruct (verb_close d s) as [k|]; [|discriminate]. cbn in H. injection H as <-. specialize (IH k eq_refl). cbn. lia.
Qed.
Lemma verb_body_len : forall s n, verb_body s = Some n -> 0 < n <= length s.
Proof.
  intros [|d s] n H; cbn in H; [discriminate|]. destruct (ascii_letter d); [discriminate|]. destruct (verb_close d s) as [k|] eqn:E; [|discriminate].
  cbn in H. injection H as <-. apply verb_close_len in E. cbn. lia.
Qed.
Lemma verb_match_len : forall s n, verb_match s = Some n -> 0 < n <= length s.
Proof.
  intros s n H. unfold verb_match in H. destruct (startswith s (lit "\verb")) eqn:E; [|discriminate]. apply startswith_spec in E as (r & ->).
  change (skipn 5 (lit "\verb" ++ r)) with r in H. rewrite app_length. change (length (lit "\verb")) with 5.
  assert (B : option_map (fun n => 5 + n) (verb_body r) = Some n -> 0 < n <= 5 + length r).
  { intros B. destruct (verb_body r) as [k|] eqn:Ek; [|discriminate]. injection B as <-. apply verb_body_len in Ek. lia. }
  destruct r as [|x q]; [apply B; exact H|]. destruct (N.eqb x 42); [|apply B; exact H].
  destruct (verb_body q) as [k|] eqn:Ek; [|apply B; exact H]. cbn [option_map] in H. injection H as <-. apply verb_body_len in Ek. cbn [length]. lia.
Qed.
Lemma verb_find_range : forall s i a b, verb_find s i = Some (a, b) -> i <= a /\ a < b /\ b <= i + length s.
Proof.
  induction s as [|x s IH]; intros i a b H; cbn [verb_find] in H.
  - change (verb_match []) with (@None nat) in H. discriminate.
  - destruct (verb_match (x :: s)) as [n|] eqn:E.
    + injection H as <- <-. apply verb_match_len in E. lia.
    + apply IH in H. cbn [length]. lia.
Qed.
Lemma verb_good : good verb_search.
Proof.
  intros t pos s e H. unfold verb_search in H. apply verb_find_range in H. rewrite skipn_length in H.
  destruct (Nat.le_gt_cases pos (length t)); [lia|]. lia.
Qed.
Lemma all_good : Forall good ALL_VERBATIM_PATTERNS.
Proof.
  unfold ALL_VERBATIM_PATTERNS. repeat (apply Forall_cons; [first [exact verb_good|apply of_re_good; vm_compute; lia]|]). apply Forall_nil.
Qed.

Lemma earliest_good : forall patterns content pos s e, Forall good patterns -> earliest_match patterns content pos = Some (s, e) ->
  pos <= s /\ s < e /\ e <= length content.
Proof.
  intros patterns content pos s e G. unfold earliest_match.
  assert (H : forall st : nat * option (nat * nat), (forall a b, snd st = Some (a, b) -> pos <= a /\ a < b /\ b <= length content) ->
    snd (fold_left (fun (st : nat * option (nat * nat)) (p : searcher) =>
         match p content pos with Some (s, e) => if Nat.ltb s (fst st) then (s, Some (s, e)) else st | None => st end) patterns st) = Some (s, e) ->
    pos <= s /\ s < e /\ e <= length content).
  { induction G as [|p l Hp _ IH]; intros st Hst; cbn [fold_left]; [apply Hst|]. apply IH. intros a b Hab.
    destruct (p content pos) as [[s' e']|] eqn:E; [|apply Hst; exact Hab]. destruct (Nat.ltb s' (fst st)); [|apply Hst; exact Hab].
    cbn in Hab. injection Hab as -> ->. eapply Hp. exact E. }
  apply H. intros a b C. discriminate C.
Qed.

(** the gaps, blocks and keys *)
Fixpoint keys_from (i : nat) (segs : list (nat * str * str)) : Prop :=
  match segs with [] => True | s :: r => fst (fst s) = i /\ keys_from (S i) r end.
Lemma with_placeholders_app : forall W key t0 segs a, with_placeholders W key (a ++ t0) segs = a ++ with_placeholders W key t0 segs.
Proof. intros W key t0 [|[[i b] t] segs] a; cbn [with_placeholders]; [reflexivity|]. rewrite <- app_assoc. reflexivity. Qed.
Lemma verbatim_segs : forall patterns content, Forall good patterns -> forall fuel index pos, length content - pos < fuel -> pos <= length content ->
  exists t0 segs, verbatim_loop fuel patterns content index pos =
      (with_placeholders vW vkey t0 segs, map (fun s => (verbatim_key (fst (fst s)), snd (fst s))) segs) /\
    with_blocks t0 segs = skipn pos content /\ keys_from index segs.
Proof.
  intros patterns content G. induction fuel as [|f IH]; intros index pos Hf Hp; [lia|]. cbn [verbatim_loop].
  destruct (Nat.ltb pos (length content)) eqn:L.
  - apply Nat.ltb_lt in L. destruct (earliest_match patterns content pos) as [[s e]|] eqn:E.
    + apply earliest_good in E as (E1 & E2 & E3); [|exact G].
      destruct (IH (S index) e ltac:(lia) ltac:(lia)) as (t0 & segs & Eq & Hb & Hk). rewrite Eq.
      exists (slice pos s content), ((index, slice s e content, t0) :: segs). split; [|split].
      * cbn [with_placeholders map fst snd]. rewrite verbatim_key_split. reflexivity.
      * cbn [with_blocks]. rewrite Hb. unfold slice.
        rewrite <- (firstn_skipn (s - pos) (skipn pos content)) at 2. f_equal. rewrite skipn_add. replace (pos + (s - pos)) with s by lia.
        rewrite <- (firstn_skipn (e - s) (skipn s content)) at 2. f_equal. rewrite skipn_add. replace (s + (e - s)) with e by lia. reflexivity.
      * cbn. split; [reflexivity|exact Hk].
    + exists (skipn pos content), []. split; [reflexivity|]. split; [reflexivity|exact I].
  - apply Nat.ltb_ge in L. exists [], []. split; [reflexivity|]. split; [|exact I]. cbn. symmetry. apply skipn_all2. exact L.
Qed.
Lemma keys_from_seq : forall segs i, keys_from i segs -> map (fun s => fst (fst s)) segs = seq i (length segs).
Proof. induction segs as [|s r IH]; intros i H; [reflexivity|]. destruct H as [E H]. cbn [map length seq]. rewrite E, (IH (S i) H). reflexivity. Qed.

(** Restoring a family of placeholders whose keys are W ++ key i *)
Theorem verbatim_restore : forall t0 segs blocks, vclean (with_blocks t0 segs) -> NoDup (map (fun s => fst (fst s)) segs) ->
  Permutation (map (fun s => (fst (fst s), snd (fst s))) segs) blocks ->
  restore_placeholder_blocks (with_placeholders vW vkey t0 segs) (map (fun ib => (verbatim_key (fst ib), snd ib)) blocks) = with_blocks t0 segs.
Proof.
  intros t0 segs blocks Hc ND P.
  assert (ND' : NoDup (map fst blocks)).
  { eapply Permutation_NoDup; [apply Permutation_map; exact P|]. rewrite map_map. cbn. exact ND. }
  rewrite <- (restore_all vW (borderless_ok vW eq_refl) ltac:(discriminate) vkey vkey_prefix vclean (fun a b H => absent_app _ a b H) vclean_gap vclean_text blocks t0 segs P ND' Hc).
  unfold restore, restore_placeholder_blocks. reflexivity.
Qed.
Theorem verbatim_round_trip : forall content out blocks, ~ occurs (lit "VERBATIM_BLOCK") content ->
  extract_verbatim_blocks content = (out, blocks) -> restore_placeholder_blocks out blocks = content.
Proof.
  intros content out blocks Hc E. unfold extract_verbatim_blocks in E.
  destruct (verbatim_segs ALL_VERBATIM_PATTERNS content all_good (S (length content)) 0 0 ltac:(lia) ltac:(lia)) as (t0 & segs & Eq & Hb & Hk).
  rewrite Eq in E. injection E as <- <-. cbn [skipn] in Hb. rewrite <- Hb.
  assert (Em : map (fun s => (verbatim_key (fst (fst s)), snd (fst s))) segs =
     map (fun ib : nat * str => (verbatim_key (fst ib), snd ib)) (map (fun s : nat * str * str => (fst (fst s), snd (fst s))) segs)) by (rewrite map_map; reflexivity).
  rewrite Em. apply verbatim_restore; [rewrite Hb; exact Hc| |apply Permutation_refl].
  rewrite (keys_from_seq segs 0 Hk). apply seq_NoDup.
Qed.
