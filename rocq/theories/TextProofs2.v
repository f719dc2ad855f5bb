From Coq Require Import List NArith PeanoNat Lia Bool String Wf_nat.
From Verif Require Import PyStr Regex RegexLemmas RegexLocal TextModel DelimSpec TextSpec TextProofs.
Import ListNotations.
Notation length := List.length.
Notation concat := List.concat.
Open Scope list_scope.

Lemma blank_all : forall s, blank s -> forall x, In x s -> isspace x = true.
Proof. intros s H. apply forallb_forall. exact H. Qed.

Lemma sq_blank : forall ws s b, blank ws -> squeeze isspace [c_sp] b (ws ++ s) =
  (if b then [] else match ws with [] => [] | _ => [c_sp] end) ++ squeeze isspace [c_sp] (b || negb (nilb ws)) s.
Proof.
  induction ws as [|x ws IH]; intros s b H; cbn [app].
  - cbn. rewrite orb_false_r. destruct b; reflexivity.
  - unfold blank in H. cbn in H. apply andb_true_iff in H. destruct H as [H1 H2]. cbn [squeeze]. rewrite H1.
    rewrite IH by exact H2. cbn. rewrite orb_true_r. destruct b; reflexivity.
Qed.
Lemma sq_word : forall w s b, (forall x, In x w -> isspace x = false) -> w <> [] -> squeeze isspace [c_sp] b (w ++ s) = w ++ squeeze isspace [c_sp] false s.
Proof.
  induction w as [|x w IH]; intros s b H Hn; [congruence|]. cbn [app squeeze]. rewrite (H x (or_introl eq_refl)).
  f_equal. destruct w as [|y w]; [reflexivity|]. apply IH; [|discriminate]. intros z Hz. apply H. right. exact Hz.
Qed.

Lemma words_tail : forall s l, words_of s l -> (forall x r, s = x :: r -> isspace x = true) ->
  exists b, blank b /\ squeeze isspace [c_sp] false s = concat (map (fun w => c_sp :: w) l) ++ b.
Proof.
  induction 1 as [ws Hb|ws w s l Hb Hw Hns Hs H IH]; intros Hh.
  - exists (match ws with [] => [] | _ => [c_sp] end). split; [destruct ws; reflexivity|].
    rewrite <- (app_nil_r ws) at 1. rewrite sq_blank by exact Hb. cbn [squeeze]. rewrite app_nil_r. reflexivity.
  - destruct (IH Hs) as (b & Hb1 & Hb2). exists b. split; [exact Hb1|]. rewrite sq_blank by exact Hb.
    rewrite sq_word by assumption. rewrite Hb2. destruct ws as [|x ws].
    + destruct w as [|x w]; [congruence|]. specialize (Hh x (w ++ s) eq_refl). rewrite (Hns x (or_introl eq_refl)) in Hh. discriminate.
    + cbn [map concat app]. rewrite app_assoc. reflexivity.
Qed.

Lemma join_sp : forall w l, join [c_sp] (w :: l) = w ++ concat (map (fun w => c_sp :: w) l).
Proof.
  intros w l. revert w. induction l as [|v l IH]; intros w; [cbn; rewrite app_nil_r; reflexivity|].
  rewrite join_cons by discriminate. rewrite IH. reflexivity.
Qed.
Lemma words_nonempty : forall s l, words_of s l -> forall w, In w l -> w <> [] /\ forall x, In x w -> isspace x = false.
Proof. induction 1 as [|ws w s l Hb Hw Hns Hs H IH]; intros v Hv; [destruct Hv|]. destruct Hv as [<-|Hv]; auto. Qed.

Lemma strip_app_blank : forall a s b, blank a -> blank b -> trimmed s -> strip (a ++ s ++ b) = s.
Proof.
  intros a s b Ha Hb Ht. destruct s as [|x s].
  - cbn [app]. assert (H : blank (a ++ b)) by (unfold blank in *; rewrite forallb_app, Ha, Hb; reflexivity).
    destruct (strip (a ++ b)) as [|y r] eqn:E; [reflexivity|]. pose proof (strip_head_nospace _ _ _ E) as K.
    destruct (strip_split (a ++ b)) as (p & q & Hpq & _). rewrite E in Hpq.
    assert (isspace y = true) by (apply (blank_all _ H); rewrite Hpq, in_app_iff; right; left; reflexivity). congruence.
  - unfold strip. assert (Hl : lstrip (a ++ (x :: s) ++ b) = (x :: s) ++ b).
    { assert (Hx : isspace x = false) by (apply Ht with (r := s); reflexivity). clear Ht. induction a as [|y a IH]; cbn [app].
      - apply lstrip_id. exact Hx.
      - unfold blank in Ha. cbn in Ha. apply andb_true_iff in Ha as [H1 H2]. cbn. rewrite H1. apply IH. exact H2. }
    rewrite Hl. unfold rstrip. rewrite rev_app_distr.
    destruct (exists_last (l := x :: s) ltac:(discriminate)) as (p & y & E). rewrite E.
    assert (Hy : isspace y = false) by (destruct Ht as [_ Ht]; eapply Ht; exact E).
    assert (Hr : forallb isspace (rev b) = true) by (apply forallb_forall; intros z Hz; apply in_rev in Hz; exact (blank_all b Hb z Hz)).
    revert Hr. generalize (rev b). induction l as [|z l IH]; cbn; intros Hr.
    + rewrite rev_app_distr. cbn. rewrite Hy. cbn. rewrite rev_involutive. reflexivity.
    + apply andb_true_iff in Hr as [H1 H2]. rewrite H1. apply IH. exact H2.
Qed.

Lemma join_trimmed : forall l, (forall w, In w l -> w <> [] /\ forall x, In x w -> isspace x = false) -> trimmed (join [c_sp] l).
Proof.
  intros [|w l] H; [split; [discriminate|intros [|? ?]; discriminate]|]. split.
  - intros x r E. rewrite join_sp in E. destruct (H w (or_introl eq_refl)) as [H1 H2]. destruct w as [|y w]; [congruence|].
    injection E as -> _. apply H2. left. reflexivity.
  - revert w H. induction l as [|v l IH]; intros w H p x E.
    + cbn in E. destruct (H w (or_introl eq_refl)) as [_ H2]. apply H2. rewrite E, in_app_iff. right. left. reflexivity.
    + rewrite join_cons in E by discriminate. assert (Hv : forall u, In u (v :: l) -> u <> [] /\ forall x, In x u -> isspace x = false) by (intros u Hu; apply H; right; exact Hu).
      destruct (exists_last (l := join [c_sp] (v :: l))) as (p' & y & E').
      { rewrite join_sp. destruct (Hv v (or_introl eq_refl)) as [Hn _]. destruct v; [congruence|discriminate]. }
      rewrite E' in E. rewrite !app_assoc in E. apply app_inj_tail in E as [_ <-]. eapply IH; [exact Hv|exact E'].
Qed.

Lemma squeeze_words : forall s l, words_of s l -> strip (squeeze isspace [c_sp] false s) = join [c_sp] l.
Proof.
  intros s l H. destruct H as [ws Hb|ws w s l Hb Hw Hns Hs H].
  - rewrite <- (app_nil_r ws). rewrite sq_blank by exact Hb. cbn [squeeze]. rewrite app_nil_r. destruct ws; reflexivity.
  - rewrite sq_blank by exact Hb. rewrite sq_word by assumption. destruct (words_tail _ _ H Hs) as (b & Hb1 & ->).
    rewrite (app_assoc w), <- join_sp. apply strip_app_blank; [destruct ws; reflexivity|exact Hb1|].
    apply join_trimmed. intros v [<-|Hv]; [auto|]. eapply words_nonempty; eauto.
Qed.

Lemma words_exist : forall s, exists l, words_of s l.
Proof.
  intros s. induction s as [s IH] using (induction_ltof1 _ (@length ch)); unfold ltof in IH.
  set (k := runlen isspace s).
  assert (E : s = firstn k s ++ skipn k s) by (symmetry; apply firstn_skipn).
  assert (Hb : blank (firstn k s)).
  { unfold k. clear. unfold blank. induction s as [|x s IH]; [reflexivity|]. cbn. destruct (isspace x) eqn:Ex; [|reflexivity]. cbn. rewrite Ex. exact IH. }
  destruct (skipn k s) as [|x r] eqn:Er.
  { rewrite app_nil_r in E. exists []. rewrite E. constructor. exact Hb. }
  assert (Hx : isspace x = false).
  { revert Er. unfold k. clear. induction s as [|y s IH]; cbn; [discriminate|]. destruct (isspace y) eqn:Ey; cbn; [exact IH|]. congruence. }
  set (j := runlen (fun y => negb (isspace y)) (x :: r)).
  assert (E2 : x :: r = firstn j (x :: r) ++ skipn j (x :: r)) by (symmetry; apply firstn_skipn).
  assert (Hj : 0 < j) by (unfold j; cbn; rewrite Hx; cbn; lia).
  destruct (IH (skipn j (x :: r))) as (l & Hl).
  { rewrite skipn_length. apply (f_equal (@length ch)) in E. rewrite app_length in E. cbn [length] in *. lia. }
  exists (firstn j (x :: r) :: l). rewrite E. clear E Er.
  replace (words_of (firstn k s ++ x :: r)) with (words_of (firstn k s ++ firstn j (x :: r) ++ skipn j (x :: r))) by (rewrite <- E2; reflexivity).
  apply wo_cons; auto.
  - destruct j; [lia|]. cbn. discriminate.
  - unfold j. clear. generalize (x :: r). intros s. induction s as [|y s IH]; cbn; [intros ? []|].
    destruct (isspace y) eqn:Ey; cbn; [intros ? []|]. intros z [<-|Hz]; auto.
  - unfold j. clear. generalize (x :: r). intros s. induction s as [|y s IH]; cbn; [discriminate|].
    destruct (isspace y) eqn:Ey; cbn; [intros ? ? [= <- _]; exact Ey|exact IH].
Qed.

Lemma squeeze_ext_nl : forall s b, squeeze isspace [c_sp] b (map (fun x => if N.eqb c_nl x then c_sp else x) s) = squeeze isspace [c_sp] b s.
Proof.
  induction s as [|x s IH]; intros b; [reflexivity|]. cbn [map squeeze]. destruct (N.eqb c_nl x) eqn:E.
  - apply N.eqb_eq in E. subst x. cbn [isspace]. rewrite IH. reflexivity.
  - rewrite !IH. reflexivity.
Qed.

Lemma breaks_subs : forall s o, subs_to linebreak_pattern [c_sp] s o -> breaks_to_spaces s o.
Proof.
  induction 1 as [|s k out Hne Hk Hb H IH|c s out Hn H IH].
  - constructor.
  - unfold mlen, linebreak_pattern in Hk.
    change (rm (RAlt (rstr (lit "\\")) (rstr (lit "\newline"))) s 0 []) with (rm (rstr (lit "\\")) s 0 [] ++ rm (rstr (lit "\newline")) s 0 []) in Hk.
    rewrite !rm_rstr in Hk. cbn [skipn] in Hk.
    destruct (startswith s (lit "\\")) eqn:E1.
    + cbn in Hk. injection Hk as <-. apply startswith_spec in E1 as (r & ->). apply (bs_double r). exact IH.
    + destruct (startswith s (lit "\newline")) eqn:E2; [|discriminate]. cbn in Hk. injection Hk as <-.
      apply startswith_spec in E2 as (r & ->). apply (bs_newline r). exact IH.
  - apply linebreak_mlen in Hn as [H1 H2]. apply bs_other; [intros r E; apply H1; exists r; exact E|intros r E; apply H2; exists r; exact E|exact IH].
Qed.

Lemma breaks_fun : forall s o, breaks_to_spaces s o -> forall o', breaks_to_spaces s o' -> o = o'.
Proof.
  induction 1 as [|s o H IH|s o H IH|c s o H1 H2 H IH]; intros o' H'.
  - inversion H'; reflexivity.
  - inversion H' as [|s' p K E1 E2|s' p K E1 E2|c s' p K1 K2 K E1 E2]; subst.
    + f_equal. apply IH. exact K.
    + exfalso. exact (K1 s eq_refl).
  - inversion H' as [|s' p K E1 E2|s' p K E1 E2|c s' p K1 K2 K E1 E2]; subst.
    + f_equal. apply IH. exact K.
    + exfalso. exact (K2 s eq_refl).
  - inversion H' as [|s' p K E1 E2|s' p K E1 E2|c' s' p K1 K2 K E1 E2]; subst.
    + exfalso. exact (H1 s' eq_refl).
    + exfalso. exact (H2 s' eq_refl).
    + f_equal. apply IH. exact K.
Qed.

Lemma sln_words : forall t, exists o l, breaks_to_spaces t o /\ words_of o l /\ strip_latex_newlines t = join [c_sp] l.
Proof.
  intros t. unfold strip_latex_newlines. cbv zeta. unfold rspace. rewrite re_sub_squeeze, replace_nl_map, squeeze_ext_nl.
  assert (H : subs_to linebreak_pattern [c_sp] t (re_sub linebreak_pattern (fun _ => [c_sp]) t)) by (apply re_sub_subs_to; [reflexivity|cbn; lia]).
  apply breaks_subs in H. destruct (words_exist (re_sub linebreak_pattern (fun _ => [c_sp]) t)) as (l & Hl).
  exists (re_sub linebreak_pattern (fun _ => [c_sp]) t), l. split; [exact H|]. split; [exact Hl|]. apply squeeze_words. exact Hl.
Qed.
