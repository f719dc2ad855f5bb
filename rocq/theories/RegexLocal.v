(** Patterns without look-around: what they match depends only on the text
    from the current position on.  [re.sub] with a constant replacement. *)
From Coq Require Import List NArith PeanoNat Lia Bool.
From Verif Require Import PyStr Regex RegexLemmas.
Import ListNotations.

Fixpoint local (r : re) : bool :=
  match r with
  | REps | RChr _ => true
  | RSeq a b | RAlt a b => local a && local b
  | RStar _ a | RGrp _ a => local a
  | _ => false
  end.

Lemma rm_shift : forall r, local r = true -> forall t i k c c',
  map fst (rm r t (i + k) c) = map (Nat.add i) (map fst (rm r (skipn i t) k c')).
Proof.
  assert (Hfm : forall i (f g : nat * caps -> list (nat * caps)) l1 l2,
     (forall j c c', map fst (f (i + j, c)) = map (Nat.add i) (map fst (g (j, c')))) ->
     map fst l1 = map (Nat.add i) (map fst l2) ->
     map fst (flat_map f l1) = map (Nat.add i) (map fst (flat_map g l2))).
  { intros i f g l1. induction l1 as [|[j c] l1 IH]; intros [|[j2 c2] l2] Hfg H; cbn in H; try discriminate; auto.
    injection H as -> H. cbn [flat_map]. rewrite !map_app, (IH l2 Hfg H), (Hfg j2 c c2). reflexivity. }
  assert (Hlen : forall (t : str) i k, length t - (i + k) = length (skipn i t) - k) by (intros; rewrite skipn_length; lia).
  induction r as [|p|a IHa b IHb|a IHa b IHb|g a IHa|n a IHa| | |neg a IHa|neg p|w]; intros Hl t i k c c'; cbn [local] in Hl; try discriminate.
  - reflexivity.
  - cbn [rm]. unfold next_is. rewrite (nth_error_skipn t), (nth_error_skipn (skipn i t)), skipn_add.
    destruct (skipn (i + k) t) as [|x r]; [reflexivity|]. destruct (p x); [|reflexivity]. cbn. rewrite Nat.add_succ_r. reflexivity.
  - apply andb_true_iff in Hl. destruct Hl as [Hla Hlb]. cbn [rm]. apply Hfm; [|apply IHa; exact Hla].
    intros j c1 c2. cbn [fst snd]. apply IHb. exact Hlb.
  - apply andb_true_iff in Hl. destruct Hl as [Hla Hlb]. cbn [rm]. rewrite !map_app, (IHa Hla t i k c c'), (IHb Hlb t i k c c'). reflexivity.
  - cbn [rm]. rewrite Hlen. generalize (S (length (skipn i t) - k)). intros fuel. revert k c c'.
    induction fuel as [|f IHf]; intros k c c'; [reflexivity|].
    assert (E : map fst (flat_map (fun jc => if Nat.ltb (i + k) (fst jc) then star_run (rm a t) g f (fst jc) (snd jc) else []) (rm a t (i + k) c)) =
       map (Nat.add i) (map fst (flat_map (fun jc => if Nat.ltb k (fst jc) then star_run (rm a (skipn i t)) g f (fst jc) (snd jc) else []) (rm a (skipn i t) k c')))).
    { apply Hfm; [|apply IHa; exact Hl]. intros j c1 c2. cbn [fst snd].
      replace (Nat.ltb (i + k) (i + j)) with (Nat.ltb k j).
      - destruct (Nat.ltb k j); [apply IHf|reflexivity].
      - apply eq_true_iff_eq. rewrite !Nat.ltb_lt. lia. }
    cbn [star_run]. destruct g.
    + rewrite !map_app, E. reflexivity.
    + cbn [map]. rewrite E. reflexivity.
  - cbn [rm]. rewrite !map_map. cbn [fst]. rewrite <- (map_map fst (Nat.add i)). apply IHa. exact Hl.
Qed.

(** length of the first match at the start of a text *)
Definition mlen (r : re) (s : str) : option nat :=
  match rm r s 0 [] with [] => None | (j, _) :: _ => Some j end.

Lemma re_match_at_mlen : forall r t i, local r = true ->
  match re_match_at r t i with Some m => m_start m = i /\ exists k, mlen r (skipn i t) = Some k /\ m_end m = i + k
                             | None => mlen r (skipn i t) = None end.
Proof.
  intros r t i Hl. unfold re_match_at, mlen.
  pose proof (rm_shift r Hl t i 0 [] []) as H. rewrite Nat.add_0_r in H.
  destruct (rm r t i []) as [|[j c] l], (rm r (skipn i t) 0 []) as [|[j' c'] l']; cbn in H; try discriminate; auto.
  injection H as -> _. cbn. split; auto. exists j'. auto.
Qed.

(** [re.sub(r, w, s)] *)
Inductive subs_to (r : re) (w : str) : str -> str -> Prop :=
| st_nil : subs_to r w [] []
| st_match : forall s k out, s <> [] -> mlen r s = Some k -> 0 < k <= length s -> subs_to r w (skipn k s) out -> subs_to r w s (w ++ out)
| st_copy : forall c s out, mlen r (c :: s) = None -> subs_to r w s out -> subs_to r w (c :: s) (c :: out).

Lemma sub_at_subs_to : forall r w, local r = true -> 0 < minlen r -> forall t n pos, length t - pos <= n ->
  subs_to r w (skipn pos t) (sub_at r (fun _ => w) t pos).
Proof.
  intros r w Hl Hm t. induction n as [|n IH]; intros pos Hn.
  - rewrite skipn_all2 by lia. rewrite sub_at_end by (auto; lia). constructor.
  - destruct (Nat.lt_ge_cases pos (length t)) as [L|L].
    2:{ rewrite skipn_all2 by lia. rewrite sub_at_end by (auto; lia). constructor. }
    rewrite sub_at_step by assumption. pose proof (re_match_at_mlen r t pos Hl) as H.
    destruct (re_match_at r t pos) as [m|] eqn:E.
    + destruct H as (H1 & k & H2 & H3). apply re_match_at_some in E; [|lia]. destruct E as (_ & E2 & E3). apply minlen_ok in E2.
      apply st_match with (k := k); auto.
      * intros Hs. apply (f_equal (@length ch)) in Hs. rewrite skipn_length in Hs. cbn in Hs. lia.
      * rewrite skipn_length. lia.
      * rewrite skipn_add, <- H3. apply IH. lia.
    + destruct (skipn pos t) as [|x s] eqn:Es; [apply (f_equal (@length ch)) in Es; rewrite skipn_length in Es; cbn in Es; lia|].
      unfold slice. rewrite Es. replace (S pos - pos) with 1 by lia. cbn [firstn app].
      apply st_copy; [exact H|]. rewrite <- (skipn_S_tl _ _ _ _ Es). apply IH. lia.
Qed.

Lemma re_sub_subs_to : forall r w t, local r = true -> 0 < minlen r -> subs_to r w t (re_sub r (fun _ => w) t).
Proof. intros r w t Hl Hm. apply (sub_at_subs_to r w Hl Hm t (length t) 0). lia. Qed.

Lemma subs_to_fun : forall r w s o1, subs_to r w s o1 -> forall o2, subs_to r w s o2 -> o1 = o2.
Proof.
  induction 1 as [|s k out Hne Hk Hb H IH|c s out Hn H IH]; intros o2 H2.
  - inversion H2; subst; auto. congruence.
  - inversion H2; subst; try congruence.
    match goal with K : mlen r s = Some ?k2, K2 : subs_to r w (skipn ?k2 s) _ |- _ => rewrite Hk in K; injection K as <-; rewrite (IH _ K2); reflexivity end.
  - inversion H2; subst; try congruence. f_equal. auto.
Qed.

(** matches consist of characters of the pattern's classes *)
Fixpoint chars_in (P : ch -> Prop) (r : re) : Prop :=
  match r with
  | REps => True
  | RChr p => forall x, p x = true -> P x
  | RSeq a b | RAlt a b => chars_in P a /\ chars_in P b
  | RStar _ a | RGrp _ a => chars_in P a
  | _ => False
  end.

Lemma slice_split : forall (t : str) i j k, i <= j -> j <= k -> slice i k t = slice i j t ++ slice j k t.
Proof.
  intros t i j k H1 H2. unfold slice. replace (skipn j t) with (skipn (j - i) (skipn i t)) by (rewrite skipn_add; f_equal; lia).
  generalize (skipn i t). intros s. replace (k - i) with ((j - i) + (k - j)) by lia. generalize (j - i) (k - j). clear.
  intros a b. revert s. induction a as [|a IH]; intros s; [reflexivity|]. destruct s; cbn; [destruct b; reflexivity|]. rewrite IH. reflexivity.
Qed.

Lemma chars_in_rel : forall P r t i j, rel r t i j -> chars_in P r -> i <= length t -> Forall P (slice i j t).
Proof.
  intros P r t i j H. assert (Hsame : forall i, Forall P (slice i i t)) by (intros i0; unfold slice; rewrite Nat.sub_diag; constructor).
  revert Hsame. induction H; intros Hsame Hc Hi; cbn [chars_in] in Hc; try contradiction; auto.
  - unfold slice. replace (S i - i) with 1 by lia. rewrite nth_error_skipn in H. destruct (skipn i t) as [|y l]; [discriminate|].
    injection H as ->. cbn. constructor; auto.
  - destruct Hc as [Hc1 Hc2]. pose proof (rel_bounds _ _ _ _ H Hi). pose proof (rel_bounds _ _ _ _ H0 ltac:(lia)).
    rewrite (slice_split t i j k) by lia. apply Forall_app. split; [auto|apply IHrel2; auto; lia].
  - destruct Hc as [Hc1 Hc2]. auto.
  - destruct Hc as [Hc1 Hc2]. auto.
  - pose proof (rel_bounds _ _ _ _ H Hi). pose proof (rel_bounds _ _ _ _ H1 ltac:(lia)).
    rewrite (slice_split t i j k) by lia. apply Forall_app. split; [auto|apply IHrel2; auto; lia].
Qed.

Lemma mlen_chars : forall P r s k, chars_in P r -> mlen r s = Some k -> Forall P (firstn k s).
Proof.
  intros P r s k Hc H. unfold mlen in H. destruct (rm r s 0 []) as [|[j c] l] eqn:E; [discriminate|]. injection H as ->.
  assert (Hin : In (k, c) (rm r s 0 [])) by (rewrite E; left; reflexivity).
  apply rm_sound in Hin; [|lia]. apply (chars_in_rel P) in Hin; [|exact Hc|lia]. unfold slice in Hin. rewrite Nat.sub_0_r in Hin. exact Hin.
Qed.

Lemma mlen_none_rel : forall r s, mlen r s = None <-> forall j, ~ rel r s 0 j.
Proof.
  intros r s. rewrite <- (re_match_at_none r s 0) by lia. unfold mlen, re_match_at. destruct (rm r s 0 []) as [|[j c] l]; split; congruence.
Qed.
Lemma mlen_some_rel : forall r s k, mlen r s = Some k -> rel r s 0 k /\ k <= length s.
Proof.
  intros r s k H. unfold mlen in H. destruct (rm r s 0 []) as [|[j c] l] eqn:E; [discriminate|]. injection H as ->.
  assert (Hin : In (k, c) (rm r s 0 [])) by (rewrite E; left; reflexivity).
  split; [eapply rm_sound; [|exact Hin]; lia|eapply rm_bounds in Hin; lia].
Qed.

(** a text that starts with a character outside the classes is not matched *)
Lemma mlen_head_out : forall P r x s, chars_in P r -> 0 < minlen r -> ~ P x -> mlen r (x :: s) = None.
Proof.
  intros P r x s Hc Hm Hx. destruct (mlen r (x :: s)) as [k|] eqn:E; [|reflexivity]. exfalso.
  pose proof (mlen_some_rel _ _ _ E) as [Hr _]. apply minlen_ok in Hr. apply (mlen_chars P) in E; [|exact Hc].
  destruct k as [|k]; [lia|]. cbn in E. inversion E. auto.
Qed.

(** an occurrence in the output that avoids the replacement text was already in
    the input *)
Definition prefix (u s : str) : Prop := exists q, s = u ++ q.
Definition occurs (u s : str) : Prop := exists p q, s = p ++ u ++ q.

Lemma prefix_cons : forall x u s, prefix (x :: u) s <-> exists s', s = x :: s' /\ prefix u s'.
Proof.
  intros x u s. split.
  - intros (q & ->). exists (u ++ q). split; [reflexivity|exists q; reflexivity].
  - intros (s' & -> & q & ->). exists q. reflexivity.
Qed.

Lemma subs_to_prefix : forall r c0 w0 s out, subs_to r (c0 :: w0) s out -> forall u, ~ In c0 u -> prefix u out -> prefix u s.
Proof.
  induction 1 as [|s k out Hne Hk Hb H IH|c s out Hn H IH]; intros u Hu Hp.
  - exact Hp.
  - destruct u as [|x u]; [exists s; reflexivity|]. apply prefix_cons in Hp. destruct Hp as (s' & E & _).
    cbn in E. injection E as -> _. exfalso. apply Hu. left. reflexivity.
  - destruct u as [|x u]; [exists (c :: s); reflexivity|]. apply prefix_cons in Hp. destruct Hp as (s' & E & Hp).
    injection E as -> ->. apply prefix_cons. exists s. split; [reflexivity|]. apply IH; [|exact Hp]. intros Hin. apply Hu. right. exact Hin.
Qed.

Lemma occurs_cons : forall u x s, occurs u (x :: s) <-> prefix u (x :: s) \/ occurs u s.
Proof.
  intros u x s. split.
  - intros (p & q & H). destruct p as [|y p]; cbn in H.
    + left. exists q. exact H.
    + injection H as -> ->. right. exists p, q. reflexivity.
  - intros [(q & H)|(p & q & ->)]; [exists [], q; exact H|exists (x :: p), q; reflexivity].
Qed.

Lemma occurs_skipn : forall u k s, occurs u (skipn k s) -> occurs u s.
Proof.
  intros u k s (p & q & H). exists (firstn k s ++ p), q. rewrite <- app_assoc, <- H. symmetry. apply firstn_skipn.
Qed.

Lemma occurs_app_out : forall u w s, (forall x, In x w -> ~ In x u) -> u <> [] -> occurs u (w ++ s) -> occurs u s.
Proof.
  intros u w s Hw Hu. induction w as [|x w IH]; intros H; [exact H|]. cbn in H. apply occurs_cons in H. destruct H as [(q & H)|H].
  - destruct u as [|y u]; [congruence|]. cbn in H. injection H as <- _. exfalso. apply (Hw x); left; reflexivity.
  - apply IH; [|exact H]. intros y Hy. apply Hw. right. exact Hy.
Qed.

Lemma subs_to_occurs : forall r c0 w0 s out, subs_to r (c0 :: w0) s out -> forall u, u <> [] ->
  (forall x, In x (c0 :: w0) -> ~ In x u) -> occurs u out -> occurs u s.
Proof.
  intros r c0 w0 s out H. induction H as [|s k out Hne Hk Hb H IH|c s out Hn H IH]; intros u Hu Hw Ho.
  - exact Ho.
  - apply occurs_app_out in Ho; [|exact Hw|exact Hu]. apply IH in Ho; auto. eapply occurs_skipn. exact Ho.
  - apply occurs_cons in Ho. destruct Ho as [Ho|Ho].
    + apply occurs_cons. left. eapply subs_to_prefix with (u := u); [apply st_copy; eassumption| |exact Ho].
      apply Hw. left. reflexivity.
    + apply occurs_cons. right. apply IH; auto.
Qed.

(** the output of [sub] with a literal pattern contains no occurrence of it *)
Lemma subs_to_removed : forall r c0 s out, subs_to r [c0] s out -> forall u, u <> [] -> ~ In c0 u ->
  (forall s', prefix u s' -> mlen r s' <> None) -> ~ occurs u out.
Proof.
  intros r c0 s out H u Hu Hc Hm. induction H as [|s k out Hne Hk Hb H IH|c s out Hn H IH]; intros Ho.
  - destruct Ho as (p & q & E). destruct p, u; cbn in E; try discriminate; congruence.
  - apply IH. apply (occurs_app_out u [c0]); auto. intros x [->|[]]. exact Hc.
  - apply occurs_cons in Ho. destruct Ho as [Ho|Ho]; [|exact (IH Ho)].
    apply (Hm (c :: s)); [|exact Hn]. eapply subs_to_prefix with (w0 := []); [apply st_copy; eassumption|exact Hc|exact Ho].
Qed.

(** nothing to replace: identity *)
Lemma subs_to_id : forall r w s, (forall p x q, s = p ++ x :: q -> mlen r (x :: q) = None) -> subs_to r w s s.
Proof.
  intros r w. induction s as [|x s IH]; intros H; [constructor|]. apply st_copy; [apply (H [] x s eq_refl)|].
  apply IH. intros p y q E. apply (H (x :: p) y q). rewrite E. reflexivity.
Qed.

(** [re.sub(r"[class]+", w, s)] *)
Fixpoint squeeze (p : ch -> bool) (w : str) (inrun : bool) (s : str) : str :=
  match s with
  | [] => []
  | x :: r => if p x then (if inrun then [] else w) ++ squeeze p w true r else x :: squeeze p w false r
  end.

Lemma mlen_rplus : forall p s, mlen (rplus (RChr p)) s = match runlen p s with O => None | S k => Some (S k) end.
Proof.
  intros p s. unfold mlen. rewrite rm_rplus_chr. cbn [skipn]. destruct (runlen p s) as [|k]; [reflexivity|].
  rewrite downto_hd. reflexivity.
Qed.

Lemma subs_to_squeeze : forall p w s, subs_to (rplus (RChr p)) w s (squeeze p w false s).
Proof.
  intros p w s. assert (H : forall n s, length s <= n -> subs_to (rplus (RChr p)) w s (squeeze p w false s)).
  2:{ apply (H (length s)). lia. }
  induction n as [|n IH]; intros t Ht.
  - destruct t; [constructor|cbn in Ht; lia].
  - destruct t as [|x t]; [constructor|]. cbn [squeeze]. destruct (p x) eqn:Ep.
    + assert (E : forall t, squeeze p w true t = squeeze p w false (skipn (runlen p t) t)).
      { clear. induction t as [|y t IHt]; [reflexivity|]. cbn. destruct (p y) eqn:Ey; [exact IHt|]. cbn. rewrite Ey. reflexivity. }
      rewrite E. apply st_match with (k := S (runlen p t)).
      * discriminate.
      * rewrite mlen_rplus. cbn. rewrite Ep. reflexivity.
      * cbn. pose proof (runlen_le p t). lia.
      * cbn [skipn]. apply IH. rewrite skipn_length. cbn in Ht. lia.
    + apply st_copy; [|apply IH; cbn in Ht; lia]. rewrite mlen_rplus. cbn. rewrite Ep. reflexivity.
Qed.

Lemma re_sub_squeeze : forall p w s, re_sub (rplus (RChr p)) (fun _ => w) s = squeeze p w false s.
Proof.
  intros p w s. eapply subs_to_fun; [apply re_sub_subs_to; [reflexivity|cbn; lia]|apply subs_to_squeeze].
Qed.
