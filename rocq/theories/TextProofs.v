From Coq Require Import List NArith PeanoNat Lia Bool String Wf_nat.
From Verif Require Import PyStr Regex RegexLemmas RegexLocal TextModel.
Import ListNotations.
Notation length := List.length.
Notation concat := List.concat.
Open Scope list_scope.

(* ------------------------------------------------------------------ *)
(** * strip *)
Lemma strip_split : forall s, exists a b, s = a ++ strip s ++ b /\ forallb isspace a = true /\ forallb isspace b = true.
Proof.
  intros s. destruct (lead_split s) as (a & H1 & H2 & _). destruct (trail_split (lstrip s)) as (b & H3 & H4).
  exists a, b. split; [|auto]. unfold strip. rewrite <- H3. exact H1.
Qed.

Lemma rstrip_last_nospace : forall s p x, rstrip s = p ++ [x] -> isspace x = false.
Proof. exact rstrip_last. Qed.

Lemma rstrip_nospace_head : forall x r, isspace x = false -> exists r', rstrip (x :: r) = x :: r'.
Proof.
  intros x r Hx. destruct (trail_split (x :: r)) as (b & H & Hb). destruct (rstrip (x :: r)) as [|y r'] eqn:E.
  - cbn in H. subst b. cbn in Hb. rewrite Hx in Hb. discriminate.
  - cbn in H. injection H as <- _. eauto.
Qed.

Lemma strip_head_nospace : forall s x r, strip s = x :: r -> isspace x = false.
Proof.
  intros s x r H. unfold strip in H. destruct (lstrip s) as [|y l] eqn:E; [discriminate|].
  pose proof (lstrip_head _ _ _ E) as Hy. destruct (rstrip_nospace_head y l Hy) as (r' & Hr). rewrite Hr in H. congruence.
Qed.
Lemma strip_last_nospace : forall s p x, strip s = p ++ [x] -> isspace x = false.
Proof. intros s p x H. eapply rstrip_last. exact H. Qed.

(** trimmed text is unchanged by strip *)
Lemma rstrip_id : forall p x, isspace x = false -> rstrip (p ++ [x]) = p ++ [x].
Proof. intros p x H. unfold rstrip. rewrite rev_app_distr. cbn. rewrite H. cbn. rewrite rev_involutive. reflexivity. Qed.

Definition trimmed (s : str) : Prop :=
  (forall x r, s = x :: r -> isspace x = false) /\ (forall p x, s = p ++ [x] -> isspace x = false).

Lemma strip_trimmed : forall s, trimmed (strip s).
Proof. intros s. split; [apply strip_head_nospace|apply strip_last_nospace]. Qed.

Lemma trimmed_strip : forall s, trimmed s -> strip s = s.
Proof.
  intros s [H1 H2]. unfold strip. destruct s as [|x r]; [reflexivity|].
  rewrite lstrip_id by (eapply H1; reflexivity).
  destruct (exists_last (l := x :: r)) as (p & y & E); [discriminate|]. rewrite E in *. apply rstrip_id. eapply H2. reflexivity.
Qed.

Lemma occurs_strip : forall u s, occurs u (strip s) -> occurs u s.
Proof.
  intros u s (p & q & H). destruct (strip_split s) as (a & b & Hs & _). rewrite H in Hs.
  exists (a ++ p), (q ++ b). rewrite Hs, <- !app_assoc. reflexivity.
Qed.

(** adjacent whitespace *)
Definition single_spaced (s : str) : Prop := forall p x y q, s = p ++ x :: y :: q -> isspace x = true -> isspace y = true -> False.
Definition only_spaces (s : str) : Prop := forall x, In x s -> isspace x = true -> x = c_sp.

Lemma single_spaced_strip : forall s, single_spaced s -> single_spaced (strip s).
Proof.
  intros s H p x y q E. destruct (strip_split s) as (a & b & Hs & _). rewrite E in Hs.
  apply (H (a ++ p) x y (q ++ b)). rewrite Hs, <- !app_assoc. reflexivity.
Qed.
Lemma only_spaces_strip : forall s, only_spaces s -> only_spaces (strip s).
Proof.
  intros s H x Hin. apply H. destruct (strip_split s) as (a & b & Hs & _). rewrite Hs, !in_app_iff. auto.
Qed.

Lemma squeeze_head : forall s x r b, squeeze isspace [c_sp] b s = x :: r -> isspace x = true -> b = false.
Proof.
  induction s as [|y s IH]; intros x r b H Hx; cbn in H; [discriminate|].
  destruct (isspace y) eqn:Ey.
  - destruct b; [|reflexivity]. cbn in H. apply IH in H; [discriminate|exact Hx].
  - injection H as -> _. congruence.
Qed.

Lemma squeeze_single : forall s b, single_spaced (squeeze isspace [c_sp] b s).
Proof.
  induction s as [|z s IH]; intros b p x y q E Hx Hy; cbn in E.
  - destruct p; discriminate.
  - destruct (isspace z) eqn:Ez.
    + destruct b; [cbn in E; eapply IH; eauto|]. cbn in E. destruct p as [|p0 p]; cbn in E.
      * injection E as <- E. apply squeeze_head in E; [discriminate|exact Hy].
      * injection E as _ E. eapply IH; eauto.
    + destruct p as [|p0 p]; cbn in E; injection E as -> E; [congruence|]. eapply IH; eauto.
Qed.

Lemma squeeze_only : forall s b, only_spaces (squeeze isspace [c_sp] b s).
Proof.
  induction s as [|z s IH]; intros b x Hin Hx; cbn in Hin; [destruct Hin|].
  destruct (isspace z) eqn:Ez.
  - apply in_app_iff in Hin. destruct Hin as [Hin|Hin]; [destruct b; [destruct Hin|destruct Hin as [<-|[]]; reflexivity]|].
    eapply IH; eauto.
  - destruct Hin as [->|Hin]; [congruence|eapply IH; eauto].
Qed.

Lemma single_spaced_tail : forall x s, single_spaced (x :: s) -> single_spaced s.
Proof. intros x s H p a b q E. apply (H (x :: p) a b q). rewrite E. reflexivity. Qed.
Lemma only_spaces_tail : forall x s, only_spaces (x :: s) -> only_spaces s.
Proof. intros x s H y Hy. apply H. right. exact Hy. Qed.

Lemma squeeze_id : forall s b, single_spaced s -> only_spaces s ->
  (b = true -> forall x r, s = x :: r -> isspace x = false) -> squeeze isspace [c_sp] b s = s.
Proof.
  induction s as [|x s IH]; intros b H1 H2 Hb; [reflexivity|]. cbn. destruct (isspace x) eqn:Ex.
  - destruct b; [rewrite (Hb eq_refl x s eq_refl) in Ex; discriminate|].
    rewrite IH; [|eapply single_spaced_tail; eauto|eapply only_spaces_tail; eauto|].
    + rewrite (H2 x (or_introl eq_refl) Ex). reflexivity.
    + intros _ y r ->. destruct (isspace y) eqn:Ey; [|reflexivity]. exfalso. apply (H1 [] x y r); auto.
  - rewrite IH; [reflexivity|eapply single_spaced_tail; eauto|eapply only_spaces_tail; eauto|discriminate].
Qed.

(** one-character replace is a map *)
Lemma replace_nl_map : forall s, replace [c_nl] [c_sp] s = map (fun x => if N.eqb c_nl x then c_sp else x) s.
Proof.
  unfold replace. induction s as [|x s IH]; [reflexivity|]. cbn [replace_go startswith map]. rewrite andb_true_r.
  destruct (N.eqb c_nl x); cbn [length Nat.sub app]; rewrite IH; reflexivity.
Qed.

Lemma prefix_map_nl : forall u s, ~ In c_sp u -> prefix u (map (fun x => if N.eqb c_nl x then c_sp else x) s) -> prefix u s.
Proof.
  induction u as [|x u IH]; intros s Hu Hp; [exists s; reflexivity|].
  apply prefix_cons in Hp. destruct Hp as (s' & E & Hp). destruct s as [|y s]; [discriminate|]. cbn in E.
  apply prefix_cons. exists s. injection E as E1 <-. split.
  - destruct (N.eqb c_nl y); [exfalso; apply Hu; left; auto|]. rewrite E1. reflexivity.
  - apply IH; [|exact Hp]. intros Hin. apply Hu. right. exact Hin.
Qed.
Lemma occurs_map_nl : forall u s, u <> [] -> ~ In c_sp u -> occurs u (map (fun x => if N.eqb c_nl x then c_sp else x) s) -> occurs u s.
Proof.
  intros u s Hu Hs. induction s as [|x s IH]; intros H; [exact H|]. cbn [map] in H. apply occurs_cons in H.
  apply occurs_cons. destruct H as [H|H]; [left|right; auto].
  apply prefix_map_nl; [exact Hs|]. exact H.
Qed.

Definition no_break_commands (s : str) : Prop := ~ occurs (lit "\\") s /\ ~ occurs (lit "\newline") s.

Lemma prefix_startswith : forall u s, prefix u s <-> startswith s u = true.
Proof. intros u s. rewrite startswith_spec. reflexivity. Qed.

Lemma linebreak_mlen : forall s, mlen linebreak_pattern s = None <-> ~ prefix (lit "\\") s /\ ~ prefix (lit "\newline") s.
Proof.
  intros s. unfold mlen, linebreak_pattern.
  change (rm (RAlt (rstr (lit "\\")) (rstr (lit "\newline"))) s 0 []) with (rm (rstr (lit "\\")) s 0 [] ++ rm (rstr (lit "\newline")) s 0 []).
  rewrite !rm_rstr. cbn [skipn]. rewrite !prefix_startswith.
  destruct (startswith s (lit "\\")); destruct (startswith s (lit "\newline")); cbn; split; try discriminate; try tauto; try (intros [? ?]; congruence).
  intros _. split; discriminate.
Qed.

Lemma sln_s1_clean : forall t, no_break_commands (re_sub linebreak_pattern (fun _ => [c_sp]) t).
Proof.
  intros t. assert (H : subs_to linebreak_pattern [c_sp] t (re_sub linebreak_pattern (fun _ => [c_sp]) t)) by (apply re_sub_subs_to; [reflexivity|cbn; lia]).
  assert (Hn : forall u, u = lit "\\" \/ u = lit "\newline" -> u <> [] /\ ~ In c_sp u /\ forall s', prefix u s' -> mlen linebreak_pattern s' <> None).
  { intros u Hu. split; [destruct Hu as [->| ->]; discriminate|]. split.
    - destruct Hu as [->| ->]; cbn; intros K; repeat destruct K as [K|K]; try discriminate; exact K.
    - intros s' Hp E. apply linebreak_mlen in E. destruct Hu as [->| ->]; tauto. }
  split; eapply subs_to_removed; try exact H; apply Hn; auto.
Qed.

Lemma sln_clean : forall t, no_break_commands (strip_latex_newlines t).
Proof.
  intros t. unfold strip_latex_newlines. cbv zeta. unfold rspace. rewrite re_sub_squeeze, replace_nl_map.
  destruct (sln_s1_clean t) as [H1 H2].
  set (s1 := re_sub linebreak_pattern (fun _ => [c_sp]) t) in *.
  assert (Hx : forall u, u <> [] -> ~ In c_sp u -> occurs u (strip (squeeze isspace [c_sp] false (map (fun x => if N.eqb c_nl x then c_sp else x) s1))) -> occurs u s1).
  { intros u Hu Hc Ho. apply occurs_strip in Ho. apply occurs_map_nl; auto.
    eapply subs_to_occurs; [apply subs_to_squeeze|exact Hu| |exact Ho]. intros x [<-|[]]. exact Hc. }
  split; intros Ho; [apply H1|apply H2]; apply Hx; try exact Ho; try discriminate;
   cbn; intros K; repeat destruct K as [K|K]; try discriminate; exact K.
Qed.

Lemma sln_single : forall t, single_spaced (strip_latex_newlines t) /\ only_spaces (strip_latex_newlines t) /\ trimmed (strip_latex_newlines t).
Proof.
  intros t. unfold strip_latex_newlines. cbv zeta. unfold rspace. rewrite re_sub_squeeze.
  split; [apply single_spaced_strip, squeeze_single|]. split; [apply only_spaces_strip, squeeze_only|]. apply strip_trimmed.
Qed.

Lemma sln_fixed : forall s, no_break_commands s -> single_spaced s -> only_spaces s -> trimmed s -> strip_latex_newlines s = s.
Proof.
  intros s [H1 H2] H3 H4 H5. unfold strip_latex_newlines. cbv zeta. unfold rspace. rewrite re_sub_squeeze, replace_nl_map.
  replace (re_sub linebreak_pattern (fun _ => [c_sp]) s) with s.
  - assert (Hm : map (fun x => if N.eqb c_nl x then c_sp else x) s = s).
    { clear - H4. induction s as [|x s IH]; [reflexivity|]. cbn. rewrite IH by (eapply only_spaces_tail; eauto).
      destruct (N.eqb c_nl x) eqn:E; [|reflexivity]. apply N.eqb_eq in E. subst x. specialize (H4 c_nl (or_introl eq_refl) eq_refl). discriminate. }
    rewrite Hm, squeeze_id by (auto; discriminate). apply trimmed_strip. exact H5.
  - eapply subs_to_fun; [|apply re_sub_subs_to; [reflexivity|cbn; lia]]. apply subs_to_id.
    intros p x q E. apply linebreak_mlen. split; intros (r & Hr); [apply H1|apply H2]; exists p, r; rewrite E, Hr; reflexivity.
Qed.

Lemma sln_idem : forall t, strip_latex_newlines (strip_latex_newlines t) = strip_latex_newlines t.
Proof. intros t. destruct (sln_single t) as (H1 & H2 & H3). apply sln_fixed; auto. apply sln_clean. Qed.

(** nothing but line break commands and whitespace is lost *)

(* ------------------------------------------------------------------ *)
(** * normalize_whitespace_and_lines *)
Definition nonspace (s : str) : str := filter (fun x => negb (isspace x)) s.

Lemma nonspace_app : forall a b, nonspace (a ++ b) = nonspace a ++ nonspace b.
Proof. intros. apply filter_app. Qed.
Lemma nonspace_blank : forall a, Forall (fun x => isspace x = true) a -> nonspace a = [].
Proof. induction 1 as [|x a Hx H IH]; [reflexivity|]. cbn. rewrite Hx. exact IH. Qed.
Lemma nonspace_strip : forall s, nonspace (strip s) = nonspace s.
Proof.
  intros s. destruct (strip_split s) as (a & b & H & Ha & Hb). rewrite H at 2. rewrite !nonspace_app.
  rewrite (nonspace_blank a), (nonspace_blank b), app_nil_r; [reflexivity| |]; apply Forall_forall; apply forallb_forall; assumption.
Qed.

(** texts with markers as single tokens *)
Definition tok := option ch.
Definition ren (b : str) (x : list tok) : str := concat (map (fun t => match t with None => b | Some c => [c] end) x).
Definition nsx (x : list tok) : str := nonspace (ren [] x).
Definition nomark (x : list tok) : Prop := forall p q, x <> p ++ map Some marker ++ q.

Lemma ren_cons : forall b t x, ren b (t :: x) = (match t with None => b | Some c => [c] end) ++ ren b x.
Proof. reflexivity. Qed.
Lemma ren_app : forall b x y, ren b (x ++ y) = ren b x ++ ren b y.
Proof. intros. unfold ren. rewrite map_app, concat_app. reflexivity. Qed.
Lemma ren_some : forall b s, ren b (map Some s) = s.
Proof. intros b. induction s as [|c s IH]; [reflexivity|]. cbn [map]. rewrite ren_cons, IH. reflexivity. Qed.

Definition wsp (x : ch) : Prop := isspace x = true.

Lemma sptab_space : forall x, N.eqb x c_sp || N.eqb x c_tab = true -> wsp x.
Proof. intros x H. apply orb_true_iff in H. destruct H as [H|H]; apply N.eqb_eq in H; subst; reflexivity. Qed.
Lemma nl_space : forall x, N.eqb c_nl x = true -> wsp x.
Proof. intros x H. apply N.eqb_eq in H. subst. reflexivity. Qed.

Lemma newline_chars : chars_in wsp newline_pattern.
Proof. cbn. repeat split; auto using sptab_space, nl_space. Qed.
Lemma para_chars : chars_in wsp para_pattern.
Proof. unfold para_pattern. repeat (split; [apply newline_chars|]). apply newline_chars. Qed.
Lemma sptab_chars : chars_in wsp (rplus sptab).
Proof. cbn. split; exact sptab_space. Qed.

(** step 1: newline runs become tokens *)
Lemma step1 : forall s out, subs_to para_pattern marker s out ->
  exists x, out = ren marker x /\ nsx x = nonspace s /\
    (forall u q, x = map Some u ++ q -> prefix u s) /\ (forall u p q, x = p ++ map Some u ++ q -> u <> [] -> occurs u s).
Proof.
  induction 1 as [|s k out Hne Hk Hb H IH|c s out Hn H IH].
  - exists []. repeat split; auto.
    + intros u q E. destruct u; [exists []; reflexivity|discriminate].
    + intros u p q E Hu. destruct p, u; try discriminate. congruence.
  - destruct IH as (x & -> & H1 & H2 & H3). exists (None :: x). repeat split.
    + unfold nsx in *. rewrite ren_cons. cbn [app]. rewrite H1. rewrite <- (firstn_skipn k s) at 2. rewrite nonspace_app.
      rewrite (nonspace_blank (firstn k s)); [reflexivity|]. apply (mlen_chars wsp) in Hk; [exact Hk|exact para_chars].
    + intros u q E. destruct u; [exists s; reflexivity|discriminate].
    + intros u p q E Hu. destruct p as [|t p]; cbn in E.
      * destruct u; [congruence|discriminate].
      * injection E as _ E. eapply occurs_skipn. eapply H3; eauto.
  - destruct IH as (x & -> & H1 & H2 & H3). exists (Some c :: x). repeat split.
    + unfold nsx in *. rewrite ren_cons, nonspace_app, H1. change (c :: s) with ([c] ++ s). rewrite nonspace_app. reflexivity.
    + intros u q E. destruct u as [|y u]; [exists (c :: s); reflexivity|]. cbn in E. injection E as -> E.
      apply prefix_cons. exists s. split; [reflexivity|eauto].
    + intros u p q E Hu. apply occurs_cons. destruct p as [|t p]; cbn in E.
      * left. destruct u as [|y u]; [congruence|]. cbn in E. injection E as -> E. apply prefix_cons. exists s. split; [reflexivity|eauto].
      * injection E as _ E. right. eauto.
Qed.

Lemma marker_chars : forall x, In x marker -> ~ wsp x.
Proof. intros x H. cbn in H. unfold wsp. repeat (destruct H as [<-|H]; [discriminate|]). destruct H. Qed.

(** steps 2 and 3: whitespace patterns replaced by a space leave markers alone *)
Lemma subs_to_copy_run : forall r w m s out, chars_in wsp r -> 0 < minlen r -> (forall x, In x m -> ~ wsp x) ->
  subs_to r w (m ++ s) out -> exists out', out = m ++ out' /\ subs_to r w s out'.
Proof.
  intros r w m s out Hc Hm. revert out. induction m as [|x m IH]; intros out Hx H; [exists out; auto|].
  assert (E : mlen r ((x :: m) ++ s) = None) by (apply (mlen_head_out wsp); auto; apply Hx; left; reflexivity).
  inversion H as [|s' k o' Hne Hk Hb H'|c s' o' Hn H']; subst.
  - congruence.
  - destruct (IH o') as (out' & -> & K); [intros y Hy; apply Hx; right; exact Hy|exact H'|]. exists out'. auto.
Qed.

Lemma step23 : forall r, chars_in wsp r -> 0 < minlen r -> local r = true ->
  forall n x, length x <= n -> forall out, subs_to r [c_sp] (ren marker x) out ->
  exists x', out = ren marker x' /\ nsx x' = nsx x /\
    (forall u q, ~ In c_sp u -> x' = map Some u ++ q -> exists q', x = map Some u ++ q') /\
    (forall u p q, u <> [] -> ~ In c_sp u -> x' = p ++ map Some u ++ q -> exists p' q', x = p' ++ map Some u ++ q').
Proof.
  intros r Hc Hm Hl. induction n as [|n IH]; intros x Hx out H.
  { destruct x; [|cbn in Hx; lia]. cbn in H. inversion H; subst; try congruence. exists []. repeat split; auto.
    - intros u q _ E. eauto.
    - intros u p q _ _ E. exists p, q. exact E. }
  destruct x as [|[c|] x].
  - cbn in H. inversion H; subst; try congruence. exists []. repeat split; auto.
    + intros u q _ E. eauto.
    + intros u p q _ _ E. exists p, q. exact E.
  - rewrite ren_cons in H. cbn [app] in H.
    inversion H as [|s' k o' Hne Hk Hb H' E1|c' s' o' Hn H']; subst.
    + (* a match: its characters are whitespace, hence all tokens it covers are Some *)
      pose proof (mlen_chars wsp _ _ _ Hc Hk) as Hws.
      assert (Hspl : exists y z, Some c :: x = map Some y ++ z /\ length y = k /\ Forall wsp y /\ skipn k (c :: ren marker x) = ren marker z).
      { clear - Hws Hb. change (c :: ren marker x) with (ren marker (Some c :: x)) in *. revert Hws Hb. generalize (Some c :: x). clear.
        induction k as [|k IHk]; intros x Hws Hb.
        - lia.
        - destruct k as [|k].
          + destruct x as [|[c|] x]; cbn in Hb; try lia.
            * exists [c], x. rewrite ren_cons in *. cbn in *. inversion Hws; subst. repeat split; auto.
            * exfalso. rewrite ren_cons in Hws. cbn in Hws. inversion Hws; subst. match goal with K : wsp _ |- _ => cbn in K; discriminate K end.
          + destruct x as [|[c|] x]; [cbn in Hb; lia| |].
            * rewrite ren_cons in *. cbn [app] in *. cbn [firstn length] in *. inversion Hws as [|? ? Hw1 Hw2]; subst.
              assert (Hb' : 0 < S k <= length (ren marker x)) by (change str with (list N) in *; lia).
              destruct (IHk x Hw2 Hb') as (y & z & E1 & E2 & E3 & E4).
              exists (c :: y), z. cbn [map app length]. rewrite <- E1, E2. split; [reflexivity|]. split; [reflexivity|]. split; [constructor; assumption|exact E4].
            * exfalso. rewrite ren_cons in Hws. cbn in Hws. inversion Hws; subst. match goal with K : wsp _ |- _ => cbn in K; discriminate K end. }
      destruct Hspl as (y & z & E1 & E2 & E3 & E4). change (option ch) with tok in *. rewrite E4 in H'.
      assert (Hz : length z <= n).
      { apply (f_equal (@length tok)) in E1. rewrite app_length, map_length in E1. cbn in E1, Hx. lia. }
      destruct (IH z Hz _ H') as (x' & -> & H1 & H2 & H3). exists (Some c_sp :: x').
      rewrite E1. split; [reflexivity|]. split.
      { unfold nsx in *. rewrite ren_app, ren_some, ren_cons, !nonspace_app, H1, (nonspace_blank y E3). reflexivity. }
      split.
      * intros u q Hu E. destruct u as [|w u]; [eexists; reflexivity|]. cbn in E. injection E as <- _. exfalso. apply Hu. left. reflexivity.
      * intros u p q Hne' Hu E. destruct p as [|t p]; cbn in E.
        -- destruct u as [|w u]; [congruence|]. cbn in E. injection E as <- _. exfalso. apply Hu. left. reflexivity.
        -- injection E as _ E. destruct (H3 u p q Hne' Hu E) as (p' & q' & ->). exists (map Some y ++ p'), q'. rewrite <- app_assoc. reflexivity.
    + destruct (IH x ltac:(cbn in Hx; lia) _ H') as (x' & -> & H1 & H2 & H3). exists (Some c :: x'). split; [reflexivity|]. split.
      { unfold nsx in *. rewrite !ren_cons, !nonspace_app, H1. reflexivity. }
      assert (G : forall u q, ~ In c_sp u -> Some c :: x' = map Some u ++ q -> exists q', Some c :: x = map Some u ++ q').
      { intros u q Hu E. destruct u as [|w u]; [eexists; reflexivity|]. cbn in E. injection E as -> E. destruct (H2 u q) as (q' & ->); [intros K; apply Hu; right; exact K|exact E|].
        exists q'. reflexivity. }
      split; [exact G|]. intros u p q Hne' Hu E. destruct p as [|t p]; cbn in E.
      * destruct (G u q Hu E) as (q' & E'). exists [], q'. exact E'.
      * injection E as _ E. destruct (H3 u p q Hne' Hu E) as (p' & q' & ->). exists (Some c :: p'), q'. reflexivity.
  - rewrite ren_cons in H. destruct (subs_to_copy_run _ _ _ _ _ Hc Hm marker_chars H) as (o' & -> & H').
    destruct (IH x ltac:(cbn in Hx; lia) _ H') as (x' & -> & H1 & H2 & H3). exists (None :: x'). split; [reflexivity|]. split.
    { unfold nsx in *. rewrite !ren_cons. exact H1. }
    split.
    + intros u q Hu E. destruct u as [|w u]; [eexists; reflexivity|discriminate].
    + intros u p q Hne' Hu E. destruct p as [|t p]; cbn in E.
      * destruct u; [congruence|discriminate].
      * injection E as _ E. destruct (H3 u p q Hne' Hu E) as (p' & q' & ->). exists (None :: p'), q'. reflexivity.
Qed.

(** step 4 *)
Lemma starts_marker_some : forall m x, ~ In 60%N m -> startswith (ren marker x) m = true -> exists q, x = map Some m ++ q.
Proof.
  induction m as [|c m IH]; intros x Hm H; [exists x; reflexivity|].
  destruct x as [|[d|] x]; cbn in H; try discriminate.
  - apply andb_true_iff in H. destruct H as [H1 H2]. apply N.eqb_eq in H1. subst d.
    destruct (IH x) as (q & ->); [intros K; apply Hm; right; exact K|exact H2|]. exists q. reflexivity.
  - apply andb_true_iff in H. destruct H as [H1 _]. apply N.eqb_eq in H1. exfalso. apply Hm. left. exact H1.
Qed.

Lemma replace_skip : forall p q k a s, length a = k -> replace_go p q k (a ++ s) = replace_go p q 0 s.
Proof. intros p q k a. revert k. induction a as [|x a IH]; intros k s <-; [reflexivity|]. cbn. apply IH. reflexivity. Qed.

Lemma replace_marker : forall x, nomark x -> replace marker [c_nl] (ren marker x) = ren [c_nl] x.
Proof.
  unfold replace. induction x as [|[c|] x IH]; intros Hn; [reflexivity| |].
  - rewrite !ren_cons. cbn [app]. cbn [replace_go].
    destruct (startswith (c :: ren marker x) marker) eqn:E.
    + exfalso. cbn in E. apply andb_true_iff in E. destruct E as [E1 E2]. apply N.eqb_eq in E1. subst c.
      destruct (starts_marker_some (tl marker) x) as (q & ->); [|exact E2|].
      * cbn. intros K. repeat destruct K as [K|K]; try discriminate. exact K.
      * apply (Hn [] q). reflexivity.
    + rewrite IH; [reflexivity|]. intros p q ->. apply (Hn (Some c :: p) q). reflexivity.
  - rewrite !ren_cons. change (marker ++ ren marker x) with (60%N :: tl marker ++ ren marker x).
    cbn [replace_go]. replace (startswith (60%N :: tl marker ++ ren marker x) marker) with true.
    2:{ symmetry. apply (startswith_app marker (ren marker x)). }
    rewrite replace_skip by reflexivity. rewrite IH; [reflexivity|]. intros p q ->. apply (Hn (None :: p) q). reflexivity.
Qed.

Lemma nsx_nl : forall x, nonspace (ren [c_nl] x) = nsx x.
Proof.
  unfold nsx. induction x as [|[c|] x IH]; [reflexivity| |]; rewrite !ren_cons, !nonspace_app, IH; reflexivity.
Qed.

Lemma normalize_nonspace : forall text, ~ occurs marker text ->
  nonspace (normalize_whitespace_and_lines text) = nonspace text.
Proof.
  intros text Hno. unfold normalize_whitespace_and_lines. cbv zeta.
  assert (H1 : subs_to para_pattern marker text (re_sub para_pattern (fun _ => marker) text)) by (apply re_sub_subs_to; [reflexivity|cbn; lia]).
  destruct (step1 _ _ H1) as (x1 & E1 & N1 & _ & O1). rewrite E1.
  assert (H2 := re_sub_subs_to newline_pattern [c_sp] (ren marker x1) eq_refl ltac:(cbn; lia)).
  destruct (step23 newline_pattern newline_chars ltac:(cbn; lia) eq_refl (length x1) x1 (le_n _) _ H2) as (x2 & E2 & N2 & _ & O2). rewrite E2.
  assert (H3 := re_sub_subs_to (rplus sptab) [c_sp] (ren marker x2) eq_refl ltac:(cbn; lia)).
  destruct (step23 (rplus sptab) sptab_chars ltac:(cbn; lia) eq_refl (length x2) x2 (le_n _) _ H3) as (x3 & E3 & N3 & _ & O3). rewrite E3.
  assert (Hsp : ~ In c_sp marker) by (cbn; intros K; repeat destruct K as [K|K]; try discriminate; exact K).
  rewrite replace_marker.
  - rewrite nonspace_strip, nsx_nl. congruence.
  - intros p q E. destruct (O3 marker p q ltac:(discriminate) Hsp E) as (p' & q' & E').
    destruct (O2 marker p' q' ltac:(discriminate) Hsp E') as (p'' & q'' & E'').
    apply Hno. eapply O1; [exact E''|discriminate].
Qed.

Lemma normalize_refuted : exists text, nonspace (normalize_whitespace_and_lines text) <> nonspace text.
Proof. exists marker. vm_compute. discriminate. Qed.

(** no tab and no double space in the result *)

(* ------------------------------------------------------------------ *)
(** * flatten *)
Inductive leaves_of {A} : list (nested A) -> list A -> Prop :=
| lv_nil : leaves_of [] []
| lv_leaf : forall a r l, leaves_of r l -> leaves_of (Leaf a :: r) (a :: l)
| lv_node : forall n r l1 l2, leaves_of n l1 -> leaves_of r l2 -> leaves_of (Node n :: r) (l1 ++ l2).

Fixpoint nsize {A} (x : nested A) : nat :=
  match x with Leaf _ => 1 | Node l => S ((fix go l := match l with [] => 0 | y :: r => nsize y + go r end) l) end.

Lemma flatten_cons : forall A (x : nested A) r, flatten (x :: r) = flatten_item x ++ flatten r.
Proof. reflexivity. Qed.

Lemma flatten_leaves : forall A (l : list (nested A)), leaves_of l (flatten l).
Proof.
  intros A. assert (H : forall n (l : list (nested A)), nsize (Node l) <= n -> leaves_of l (flatten l)).
  2:{ intros l. apply (H (nsize (Node l))). lia. }
  induction n as [|n IH]; intros l Hl; [cbn in Hl; lia|].
  destruct l as [|x r]; [constructor|]. rewrite flatten_cons.
  assert (Hx : 0 < nsize x) by (destruct x; cbn; lia).
  assert (Hr : nsize (Node r) <= n) by (cbn in Hl |- *; lia).
  destruct x as [a|m].
  - cbn. apply lv_leaf. apply IH. exact Hr.
  - apply lv_node; [|apply IH; exact Hr]. apply IH. cbn in Hl |- *. lia.
Qed.

Lemma leaves_fun : forall A (l : list (nested A)) l1, leaves_of l l1 -> forall l2, leaves_of l l2 -> l1 = l2.
Proof.
  induction 1 as [|a r l H IH|n r l1 l2 H1 IH1 H2 IH2]; intros l' H'; inversion H'; subst; auto.
  - f_equal. auto.
  - f_equal; auto.
Qed.

Lemma flatten_idem : forall A (l : list (nested A)), flatten (map Leaf (flatten l)) = flatten l.
Proof. intros A l. generalize (flatten l). clear l. induction l as [|a l IH]; [reflexivity|]. cbn [map]. rewrite flatten_cons, IH. reflexivity. Qed.
