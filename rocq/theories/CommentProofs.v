(** Proofs about comment stripping (supports PropsDelims.v). *)
From Coq Require Import List NArith PeanoNat Bool Lia.
From Verif Require Import PyStr TexUtilsModel DelimSpec DelimProofs.
Import ListNotations.

Fixpoint cutf (e : bool) (s : str) : str :=
  match s with
  | [] => []
  | x :: r => if N.eqb x c_pct && negb e then [] else x :: cutf (N.eqb x c_bs && negb e) r
  end.

Lemma slc_line_cutf : forall rest pre,
  slc_line (pre ++ rest) (length pre) rest = cutf (esc_end false pre) rest.
Proof.
  induction rest as [|x rest IH]; intros pre; [reflexivity|].
  assert (Hs : slc_line (pre ++ x :: rest) (S (length pre)) rest =
               cutf (N.eqb x c_bs && negb (esc_end false pre)) rest).
  { specialize (IH (pre ++ [x])). rewrite <- app_assoc in IH. cbn [app] in IH.
    rewrite app_length in IH. cbn [length] in IH. rewrite Nat.add_1_r in IH.
    rewrite esc_end_app in IH. exact IH. }
  cbn [slc_line cutf]. rewrite is_escaped_pre. destruct (N.eqb x c_pct) eqn:Ex; cbn [andb].
  - apply N.eqb_eq in Ex. subst x. destruct (esc_end false pre); cbn [negb]; [|reflexivity].
    rewrite Hs. reflexivity.
  - rewrite Hs. reflexivity.
Qed.

Lemma slc_line_cut : forall line, slc_line line 0 line = cutf false line.
Proof. intros line. apply (slc_line_cutf line []). Qed.

Definition unescaped_from (e : bool) (s : str) : Prop :=
  exists p q, s = p ++ c_pct :: q /\ esc_end e p = false.

Lemma unescaped_cons : forall e x r,
  unescaped_from e (x :: r) <-> (x = c_pct /\ e = false) \/ unescaped_from (N.eqb x c_bs && negb e) r.
Proof.
  intros e x r. split.
  - intros (p & q & H & He). destruct p as [|y p]; cbn in H.
    + injection H as -> ->. left. auto.
    + injection H as -> ->. right. exists p, q. auto.
  - intros [[-> ->]|(p & q & -> & He)].
    + exists [], r. auto.
    + exists (x :: p), q. auto.
Qed.

Lemma cutf_none : forall s e, ~ unescaped_from e (cutf e s).
Proof.
  induction s as [|x s IH]; intros e H; cbn in H.
  - destruct H as (p & q & H & _). destruct p; discriminate.
  - destruct (N.eqb x c_pct && negb e) eqn:E.
    + destruct H as (p & q & H & _). destruct p; discriminate.
    + apply unescaped_cons in H. destruct H as [[-> ->]|H].
      * rewrite N.eqb_refl in E. discriminate.
      * exact (IH _ H).
Qed.

Lemma cutf_prefix : forall s e, exists rest, s = cutf e s ++ rest /\
  (rest = [] \/ exists r, rest = c_pct :: r /\ esc_end e (cutf e s) = false).
Proof.
  induction s as [|x s IH]; intros e; cbn.
  - exists []. auto.
  - destruct (N.eqb x c_pct && negb e) eqn:E.
    + apply andb_true_iff in E. destruct E as [E1 E2]. apply N.eqb_eq in E1. apply negb_true_iff in E2. subst.
      exists (c_pct :: s). split; auto. right. exists s. auto.
    + destruct (IH (N.eqb x c_bs && negb e)) as (rest & H1 & H2). exists rest. split.
      * cbn. rewrite H1 at 1. reflexivity.
      * exact H2.
Qed.

Lemma cutf_id : forall s e, ~ unescaped_from e s -> cutf e s = s.
Proof.
  induction s as [|x s IH]; intros e H; cbn; auto.
  destruct (N.eqb x c_pct && negb e) eqn:E.
  - exfalso. apply H. apply unescaped_cons. left.
    apply andb_true_iff in E. destruct E as [E1 E2]. apply N.eqb_eq in E1. apply negb_true_iff in E2. auto.
  - rewrite IH; auto. intros Hu. apply H. apply unescaped_cons. right. exact Hu.
Qed.

Lemma has_unescaped_iff : forall s, has_unescaped_pct s <-> unescaped_from false s.
Proof.
  intros s. unfold has_unescaped_pct, unescaped_from. split; intros (p & q & -> & H); exists p, q; split; auto;
   apply closes_after_esc; auto.
Qed.

Lemma uncommented_slc : forall line, uncommented line (slc_line line 0 line).
Proof.
  intros line. rewrite slc_line_cut. destruct (cutf_prefix line false) as (rest & H1 & H2).
  exists rest. split; auto. split.
  - destruct H2 as [H2|(r & H2 & H3)]; auto. right. exists r. split; auto. apply closes_after_esc. exact H3.
  - intros p q H Hc. apply (cutf_none line false). rewrite H. exists p, q. split; auto.
    apply closes_after_esc. exact Hc.
Qed.

Lemma uncommented_fun : forall line a b, uncommented line a -> uncommented line b -> a = b.
Proof.
  assert (Hlt : forall line a b ra rb : str, line = a ++ ra -> line = b ++ rb -> length a < length b ->
     exists x m, b = a ++ x :: m /\ ra = (x :: m) ++ rb).
  { intros line a b ra rb H1 H2 Hl. rewrite H1 in H2. clear H1.
    revert b Hl H2. induction a as [|x a IH]; intros b Hl H2.
    - destruct b as [|y b]; [cbn in Hl; lia|]. exists y, b. auto.
    - destruct b as [|y b]; [cbn in Hl; lia|]. cbn in H2. injection H2 as -> H2.
      destruct (IH b) as (z & m & -> & ->); [cbn in Hl; lia|exact H2|]. exists z, m. auto. }
  assert (Hno : forall line a b, uncommented line a -> uncommented line b -> ~ length a < length b).
  { intros line a b (ra & H1 & H2 & H3) (rb & K1 & K2 & K3) Hl.
    destruct (Hlt _ _ _ _ _ H1 K1 Hl) as (x & m & -> & ->).
    destruct H2 as [H2|(r & H2 & Hc)]; [discriminate|]. cbn in H2. injection H2 as -> _.
    exact (K3 a m eq_refl Hc). }
  intros line a b Ha Hb.
  assert (Hl : length a = length b).
  { pose proof (Hno _ _ _ Ha Hb). pose proof (Hno _ _ _ Hb Ha). lia. }
  destruct Ha as (ra & H1 & _). destruct Hb as (rb & H2 & _). rewrite H1 in H2.
  apply (f_equal (firstn (length a))) in H2.
  rewrite firstn_app, Nat.sub_diag, firstn_all in H2. cbn in H2. rewrite app_nil_r in H2.
  rewrite Hl in H2. rewrite firstn_app, Nat.sub_diag, firstn_all in H2. cbn in H2. rewrite app_nil_r in H2. exact H2.
Qed.

(* ------------------------------------------------------------------ *)
(** * splitlines *)

Lemma nobreak_cons : forall x l, nobreak (x :: l) <-> isbreak x = false /\ nobreak l.
Proof. intros x l. unfold nobreak. cbn. rewrite andb_true_iff, negb_true_iff. reflexivity. Qed.

Lemma nobreak_app : forall a b, nobreak (a ++ b) <-> nobreak a /\ nobreak b.
Proof. intros a b. unfold nobreak. rewrite forallb_app, andb_true_iff. reflexivity. Qed.

Lemma nobreak_rev : forall a, nobreak (rev a) <-> nobreak a.
Proof.
  induction a as [|x a IH]; [reflexivity|]. cbn. rewrite nobreak_app, IH, !nobreak_cons.
  unfold nobreak at 2. cbn. tauto.
Qed.

Lemma splitlines_go_lines : forall n s, length s <= n -> forall cur, nobreak cur ->
  lines_of (rev cur ++ s) (splitlines_go cur s).
Proof.
  induction n as [|n IH]; intros s Hs cur Hcur.
  - destruct s; [|cbn in Hs; lia]. cbn. rewrite app_nil_r. destruct cur as [|y cur]; [constructor|].
    apply lo_last; [|apply nobreak_rev; exact Hcur].
    intros H. apply (f_equal (@length ch)) in H. rewrite rev_length in H. discriminate.
  - destruct s as [|x s]; [apply (IH []); [cbn; lia|exact Hcur]|].
    cbn [splitlines_go]. cbn [length] in Hs. destruct (isbreak x) eqn:Ex.
    + assert (Hr : nobreak (rev cur)) by (apply nobreak_rev; exact Hcur).
      destruct s as [|y s].
      * apply lo_break; auto; [discriminate|constructor].
      * destruct (N.eqb x c_cr && N.eqb y c_nl) eqn:E.
        -- apply andb_true_iff in E. destruct E as [E1 E2]. apply N.eqb_eq in E1. apply N.eqb_eq in E2. subst.
           apply lo_crlf; auto. apply (IH s ltac:(cbn in Hs; lia) []). reflexivity.
        -- apply lo_break; auto.
           ++ intros -> s' H. injection H as -> ->. discriminate E.
           ++ apply (IH (y :: s) ltac:(cbn in Hs |- *; lia) []). reflexivity.
    + replace (rev cur ++ x :: s) with (rev (x :: cur) ++ s) by (cbn; rewrite <- app_assoc; reflexivity).
      apply IH; [lia|]. apply nobreak_cons. auto.
Qed.

Lemma splitlines_lines : forall s, lines_of s (splitlines s).
Proof. intros s. apply (splitlines_go_lines (length s) s (le_n _) []). reflexivity. Qed.

Lemma splitlines_go_nobreak : forall l cur s, nobreak l -> splitlines_go cur (l ++ s) = splitlines_go (rev l ++ cur) s.
Proof.
  induction l as [|x l IH]; intros cur s H; [reflexivity|].
  apply nobreak_cons in H. destruct H as [H1 H2]. cbn [app splitlines_go rev]. rewrite H1, IH by exact H2.
  rewrite <- app_assoc. reflexivity.
Qed.

Lemma lines_of_splitlines : forall s ls, lines_of s ls -> splitlines s = ls.
Proof.
  induction 1 as [|l Hne Hnb|l s ls Hnb H IH|l b s ls Hnb Hb Hcr H IH]; unfold splitlines in *.
  - reflexivity.
  - rewrite <- (app_nil_r l) at 1. rewrite splitlines_go_nobreak by exact Hnb. rewrite app_nil_r. cbn.
    destruct (rev l) eqn:E.
    + exfalso. apply Hne. rewrite <- (rev_involutive l), E. reflexivity.
    + rewrite <- E, rev_involutive. reflexivity.
  - rewrite splitlines_go_nobreak by exact Hnb. rewrite app_nil_r. cbn [splitlines_go].
    change (isbreak c_cr) with true. cbv iota. rewrite rev_involutive, !N.eqb_refl. cbn [andb]. rewrite IH. reflexivity.
  - rewrite splitlines_go_nobreak by exact Hnb. rewrite app_nil_r. cbn [splitlines_go]. rewrite Hb, rev_involutive.
    f_equal. destruct s as [|y s]; [inversion H; subst; auto; destruct l0; discriminate|].
    destruct (N.eqb b c_cr && N.eqb y c_nl) eqn:E; [|exact IH].
    apply andb_true_iff in E. destruct E as [E1 E2]. apply N.eqb_eq in E1. apply N.eqb_eq in E2. subst.
    exfalso. eapply Hcr; reflexivity.
Qed.

Lemma lines_of_nobreak : forall s ls, lines_of s ls -> Forall nobreak ls.
Proof. induction 1; constructor; auto. Qed.

(** drop a trailing empty line *)
Fixpoint drop_last_empty (ls : list str) : list str :=
  match ls with
  | [] => []
  | [[]] => []
  | l :: r => l :: drop_last_empty r
  end.

Lemma splitlines_join : forall ls, Forall nobreak ls -> splitlines (join [c_nl] ls) = drop_last_empty ls.
Proof.
  intros ls H. apply lines_of_splitlines. induction H as [|l ls Hl Hls IH]; [constructor|].
  destruct ls as [|l2 ls].
  - cbn. destruct l; [constructor|]. apply lo_last; [discriminate|exact Hl].
  - rewrite join_cons by discriminate. cbn [app].
    replace (drop_last_empty (l :: l2 :: ls)) with (l :: drop_last_empty (l2 :: ls)) by (destruct l; reflexivity).
    apply lo_break; auto. discriminate.
Qed.

Lemma drop_last_empty_cases : forall ls, drop_last_empty ls = ls \/ ls = drop_last_empty ls ++ [[]].
Proof.
  induction ls as [|l ls IH]; [left; reflexivity|].
  destruct ls as [|l2 ls].
  - destruct l; [right; reflexivity|left; reflexivity].
  - replace (drop_last_empty (l :: l2 :: ls)) with (l :: drop_last_empty (l2 :: ls)) by (destruct l; reflexivity).
    destruct IH as [IH|IH]; [left; rewrite IH; reflexivity|right; cbn [app]; rewrite <- IH; reflexivity].
Qed.

(* ------------------------------------------------------------------ *)
Definition strip_line (line : str) : str := rstrip (slc_line line 0 line).

Lemma unescaped_app_l : forall a b e, unescaped_from e a -> unescaped_from e (a ++ b).
Proof. intros a b e (p & q & -> & H). exists p, (q ++ b). rewrite <- app_assoc. auto. Qed.

Lemma strip_line_clean : forall line, ~ unescaped_from false (strip_line line).
Proof.
  intros line H. unfold strip_line in H. rewrite slc_line_cut in H.
  destruct (trail_split (cutf false line)) as (ws & Hs & _).
  apply (cutf_none line false). rewrite Hs. apply unescaped_app_l. exact H.
Qed.

Lemma strip_line_fix : forall line, strip_line (strip_line line) = strip_line line.
Proof.
  intros line. unfold strip_line at 1. rewrite slc_line_cut, cutf_id by apply strip_line_clean.
  unfold strip_line. apply rstrip_idem.
Qed.

Lemma strip_line_nobreak : forall line, nobreak line -> nobreak (strip_line line).
Proof.
  intros line H. unfold strip_line. rewrite slc_line_cut.
  destruct (trail_split (cutf false line)) as (ws & Hs & _).
  destruct (cutf_prefix line false) as (rest & Hr & _).
  rewrite Hr in H. apply nobreak_app in H. destruct H as [H _].
  rewrite Hs in H. apply nobreak_app in H. apply H.
Qed.

Lemma strip_latex_comments_eq : forall text,
  strip_latex_comments text = join [c_nl] (map strip_line (splitlines text)).
Proof. reflexivity. Qed.

Lemma map_strip_line_nobreak : forall ls, Forall nobreak ls -> Forall nobreak (map strip_line ls).
Proof. induction 1; constructor; auto. apply strip_line_nobreak. assumption. Qed.

Lemma map_drop : forall ls, map strip_line (drop_last_empty (map strip_line ls)) = drop_last_empty (map strip_line ls).
Proof.
  intros ls. assert (H : forall xs, Forall (fun x => strip_line x = x) xs -> map strip_line (drop_last_empty xs) = drop_last_empty xs).
  { induction 1 as [|x xs Hx Hxs IH]; [reflexivity|].
    destruct xs as [|y xs].
    - destruct x; [reflexivity|]. cbn [drop_last_empty map]. rewrite Hx. reflexivity.
    - replace (drop_last_empty (x :: y :: xs)) with (x :: drop_last_empty (y :: xs)) by (destruct x; reflexivity).
      cbn [map]. rewrite Hx, IH. reflexivity. }
  apply H. induction ls; constructor; auto. apply strip_line_fix.
Qed.

Lemma strip_strip : forall text,
  strip_latex_comments (strip_latex_comments text) =
  join [c_nl] (drop_last_empty (map strip_line (splitlines text))).
Proof.
  intros text. rewrite (strip_latex_comments_eq (strip_latex_comments text)).
  rewrite strip_latex_comments_eq, splitlines_join.
  - rewrite map_drop. reflexivity.
  - apply map_strip_line_nobreak. eapply lines_of_nobreak. apply splitlines_lines.
Qed.

Lemma join_snoc_nil : forall ls, join [c_nl] (ls ++ [[]]) = match ls with [] => [] | _ => join [c_nl] ls ++ [c_nl] end.
Proof.
  induction ls as [|l ls IH]; [reflexivity|]. cbn [app]. rewrite join_cons by (destruct ls; discriminate).
  rewrite IH. destruct ls as [|l2 ls].
  - reflexivity.
  - rewrite (join_cons _ l (l2 :: ls)) by discriminate. rewrite <- !app_assoc. reflexivity.
Qed.

Lemma strip_idem_cases : forall text, let s := strip_latex_comments text in
  strip_latex_comments s = s \/ s = strip_latex_comments s ++ [c_nl].
Proof.
  intros text s. unfold s. rewrite strip_strip, strip_latex_comments_eq.
  set (outs := map strip_line (splitlines text)).
  destruct (drop_last_empty_cases outs) as [H|H].
  - left. rewrite H. reflexivity.
  - rewrite H at 2 3. rewrite join_snoc_nil. destruct (drop_last_empty outs) eqn:E.
    + left. reflexivity.
    + right. reflexivity.
Qed.

Lemma join_clean : forall ls, Forall (fun l => ~ unescaped_from false l) ls ->
  ~ unescaped_from false (join [c_nl] ls).
Proof.
  assert (Hsp : forall a b e, unescaped_from e (a ++ c_nl :: b) -> unescaped_from e a \/ unescaped_from false b).
  { induction a as [|x a IH]; intros b e H; cbn [app] in H; apply unescaped_cons in H.
    - destruct H as [[H _]|H]; [discriminate H|]. right. exact H.
    - destruct H as [[-> ->]|H]; [left; apply unescaped_cons; auto|].
      apply IH in H. destruct H as [H|H]; [left; apply unescaped_cons; auto|right; exact H]. }
  induction 1 as [|l ls Hl Hls IH].
  - intros (p & q & H & _). destruct p; discriminate.
  - destruct ls as [|l2 ls]; [exact Hl|]. rewrite join_cons by discriminate. cbn [app].
    intros H. apply Hsp in H. destruct H as [H|H]; [exact (Hl H)|exact (IH H)].
Qed.

Lemma strip_no_comment : forall text, ~ has_unescaped_pct (strip_latex_comments text).
Proof.
  intros text H. apply has_unescaped_iff in H. rewrite strip_latex_comments_eq in H.
  revert H. apply join_clean. apply Forall_forall. intros l Hl. apply in_map_iff in Hl.
  destruct Hl as (x & <- & _). apply strip_line_clean.
Qed.

Lemma strip_comments_lines : forall text, exists lines outs,
  lines_of text lines /\
  Forall2 (fun line out => exists cut, uncommented line cut /\ out = rstrip cut) lines outs /\
  strip_latex_comments text = join [c_nl] outs.
Proof.
  intros text. exists (splitlines text), (map strip_line (splitlines text)).
  split; [apply splitlines_lines|]. split; [|reflexivity].
  induction (splitlines text) as [|l ls IH]; cbn; constructor; auto.
  exists (slc_line l 0 l). split; [apply uncommented_slc|reflexivity].
Qed.

(** text without breaks, percent signs at all, ... is a fixed point *)

(* ------------------------------------------------------------------ *)
(** * has_comment_on_sameline *)

Lemma line_start_le : forall content pos, line_start_of content pos <= pos.
Proof.
  intros content. induction pos as [|p IH]; [cbn; lia|]. cbn [line_start_of].
  destruct (nth_error content p) as [x|]; [destruct (N.eqb x c_nl)|]; lia.
Qed.

Lemma slice_snoc : forall s i p x, i <= p -> nth_error s p = Some x -> slice i (S p) s = slice i p s ++ [x].
Proof.
  intros s i p x Hi Hx. unfold slice.
  assert (Hp : p < length s) by (apply nth_error_Some; congruence).
  replace (S p - i) with (p - i + 1) by lia.
  rewrite <- (firstn_skipn (p - i) (skipn i s)) at 1.
  rewrite firstn_app. rewrite (firstn_all2 (n := p - i + 1)) by (rewrite firstn_length; lia).
  f_equal. rewrite firstn_length, skipn_length. rewrite Nat.min_l by lia.
  replace (p - i + 1 - (p - i)) with 1 by lia. rewrite skipn_add. replace (i + (p - i)) with p by lia.
  clear - Hx. revert s Hx. induction p as [|p IH]; intros [|y s] H; try discriminate; cbn in *.
  - congruence.
  - apply IH. exact H.
Qed.

Lemma firstn_snoc : forall (s : str) p x, nth_error s p = Some x -> firstn (S p) s = firstn p s ++ [x].
Proof.
  intros s. induction s as [|y s IH]; intros [|p] x H; try discriminate; cbn in *.
  - congruence.
  - f_equal. apply IH. exact H.
Qed.

Lemma line_start_last : forall content pos, pos <= length content ->
  last_line (firstn pos content) (slice (line_start_of content pos) pos content).
Proof.
  intros content. induction pos as [|p IH]; intros Hp.
  - cbn. unfold last_line, slice. cbn. auto.
  - cbn [line_start_of]. destruct (nth_error content p) as [x|] eqn:E.
    2:{ apply nth_error_None in E. lia. }
    rewrite (firstn_snoc _ _ _ E). destruct (N.eqb x c_nl) eqn:Ex.
    + apply N.eqb_eq in Ex. subst x. unfold slice. rewrite Nat.sub_diag. cbn [firstn]. split; [auto|].
      right. exists (firstn p content). reflexivity.
    + rewrite slice_snoc with (x := x) by (auto; apply line_start_le).
      apply N.eqb_neq in Ex. specialize (IH ltac:(lia)). destruct IH as [Hn Hs]. split.
      * rewrite in_app_iff. intros [H|[H|[]]]; [exact (Hn H)|congruence].
      * destruct Hs as [Hs|(q & Hs)]; [left; rewrite Hs; reflexivity|right; exists q; rewrite Hs].
        rewrite <- app_assoc. reflexivity.
Qed.

Lemma last_line_fun : forall s a b, last_line s a -> last_line s b -> a = b.
Proof.
  assert (H1 : forall p a, ~ In c_nl (p ++ c_nl :: a) -> False).
  { intros p a H. apply H. rewrite in_app_iff. right. left. reflexivity. }
  intros s a b [Ha [->|(p & ->)]] [Hb [E|(q & E)]].
  - exact E.
  - exfalso. rewrite E in Ha. eapply H1; eauto.
  - exfalso. rewrite <- E in Hb. eapply H1; eauto.
  - revert q E. induction p as [|x p IH]; intros [|y q] E; cbn in E.
    + congruence.
    + injection E as <- ->. exfalso. eapply H1; eauto.
    + injection E as -> <-. exfalso. eapply H1; eauto.
    + injection E as -> E. eauto.
Qed.

Definition pct_after_nonbs (prev : option ch) (s : str) : Prop :=
  exists p q, s = p ++ c_pct :: q /\
    match rev p with [] => (match prev with None => True | Some x => x <> c_bs end) | y :: _ => y <> c_bs end.

Lemma hcs_loop_iff : forall s prev, hcs_loop prev s = true <-> pct_after_nonbs prev s.
Proof.
  induction s as [|x s IH]; intros prev; cbn [hcs_loop].
  - split; [discriminate|]. intros (p & q & H & _). destruct p; discriminate.
  - assert (Hcons : pct_after_nonbs prev (x :: s) <->
        (x = c_pct /\ match prev with None => True | Some y => y <> c_bs end) \/ pct_after_nonbs (Some x) s).
    { split.
      - intros (p & q & H & Hp). destruct p as [|y p]; cbn in H.
        + injection H as -> ->. left. auto.
        + injection H as -> ->. right. exists p, q. split; auto. cbn in Hp.
          destruct (rev p) eqn:E; cbn in Hp; auto.
      - intros [[-> Hp]|(p & q & -> & Hp)].
        + exists [], s. auto.
        + exists (x :: p), q. split; auto. cbn. destruct (rev p); cbn; auto. }
    destruct (N.eqb x c_pct) eqn:Ex; cbn [andb].
    + apply N.eqb_eq in Ex. destruct prev as [y|].
      * destruct (N.eqb y c_bs) eqn:Ey; cbn [negb].
        -- rewrite IH, Hcons. apply N.eqb_eq in Ey. split; [tauto|]. intros [[_ H]|H]; [contradiction|exact H].
        -- apply N.eqb_neq in Ey. rewrite Hcons. split; auto.
      * rewrite Hcons. split; auto.
    + apply N.eqb_neq in Ex. rewrite IH, Hcons. split; [tauto|]. intros [[H _]|H]; [contradiction|exact H].
Qed.

Lemma pct_after_nonbs_sound : forall s, pct_after_nonbs None s -> has_unescaped_pct s.
Proof.
  intros s (p & q & -> & Hp). exists p, q. split; auto. apply closes_after_esc.
  destruct p as [|y p _] using rev_ind; [reflexivity|].
  rewrite rev_app_distr in Hp. cbn in Hp. rewrite esc_end_app. cbn. apply N.eqb_neq in Hp. rewrite Hp. reflexivity.
Qed.

(** no two adjacent backslashes *)
Definition no_double_bs (s : str) : Prop := forall p q, s <> p ++ c_bs :: c_bs :: q.

Lemma pct_after_nonbs_complete : forall s, no_double_bs s -> has_unescaped_pct s -> pct_after_nonbs None s.
Proof.
  intros s Hnd (p & q & -> & Hc). exists p, q. split; auto. apply closes_after_esc in Hc.
  destruct p as [|y p _] using rev_ind; [exact I|]. rewrite rev_app_distr. cbn. intros ->.
  rewrite esc_end_app in Hc. cbn in Hc. rewrite N.eqb_refl in Hc. cbn in Hc. apply negb_false_iff in Hc.
  destruct p as [|z p _] using rev_ind; [discriminate|]. rewrite esc_end_app in Hc. cbn in Hc.
  apply andb_true_iff in Hc. destruct Hc as [Hc _]. apply N.eqb_eq in Hc. subst z.
  apply (Hnd p (c_pct :: q)). rewrite <- !app_assoc. reflexivity.
Qed.

Lemma has_comment_sound : forall content pos, pos <= length content ->
  has_comment_on_sameline content pos = true ->
  exists cur, last_line (firstn pos content) cur /\ has_unescaped_pct cur.
Proof.
  intros content pos Hp H. exists (slice (line_start_of content pos) pos content).
  split; [apply line_start_last; exact Hp|]. apply pct_after_nonbs_sound. apply hcs_loop_iff. exact H.
Qed.

Lemma has_comment_complete : forall content pos cur, pos <= length content ->
  last_line (firstn pos content) cur -> no_double_bs cur -> has_unescaped_pct cur ->
  has_comment_on_sameline content pos = true.
Proof.
  intros content pos cur Hp Hl Hnd Hu.
  pose proof (line_start_last content pos Hp) as Hl2. rewrite (last_line_fun _ _ _ Hl Hl2) in *.
  apply hcs_loop_iff. apply pct_after_nonbs_complete; auto.
Qed.
