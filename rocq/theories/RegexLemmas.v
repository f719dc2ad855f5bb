(** Facts about particular pattern shapes. *)
From Coq Require Import List NArith PeanoNat Lia Bool.
From Verif Require Import PyStr Regex.
Import ListNotations.

Lemma nth_error_skipn : forall (t : str) i, nth_error t i = match skipn i t with [] => None | x :: _ => Some x end.
Proof. induction t as [|y t IH]; destruct i; cbn; auto. Qed.

Lemma skipn_S_tl : forall (t : str) i x r, skipn i t = x :: r -> skipn (S i) t = r.
Proof. intros t i x r H. replace (S i) with (i + 1) by lia. rewrite <- skipn_add. rewrite H. reflexivity. Qed.

Lemma skipn_cons_lt : forall (t : str) i x r, skipn i t = x :: r -> i < length t.
Proof.
  intros t i x r H. destruct (Nat.lt_ge_cases i (length t)) as [L|L]; [exact L|]. rewrite skipn_all2 in H by exact L. discriminate.
Qed.

Lemma rel_is_ch : forall x t i j, rel (is_ch x) t i j <-> j = S i /\ exists r, skipn i t = x :: r.
Proof.
  intros x t i j. split.
  - intros H. inversion H as [|p t' i' y K1 K2| | | | | | | | | | | |]; subst. split; auto.
    apply N.eqb_eq in K2. subst y. rewrite nth_error_skipn in K1. destruct (skipn i t); [discriminate|]. injection K1 as ->. eauto.
  - intros [-> (r & H)]. apply rel_chr with (x := x); [rewrite nth_error_skipn, H; reflexivity|apply N.eqb_refl].
Qed.

Lemma rel_rseq2 : forall a b t i k, rel (RSeq a b) t i k <-> exists j, rel a t i j /\ rel b t j k.
Proof.
  intros a b t i k. split.
  - intros H. inversion H as [| |a' b' t' i' j k' K1 K2| | | | | | | | | | |]; subst. eauto.
  - intros (j & H1 & H2). econstructor; eauto.
Qed.

Lemma rel_alt2 : forall a b t i k, rel (RAlt a b) t i k <-> rel a t i k \/ rel b t i k.
Proof.
  intros a b t i k. split.
  - intros H. inversion H; subst; auto.
  - intros [H|H]; [apply rel_altl|apply rel_altr]; exact H.
Qed.

Lemma rel_grp1 : forall n a t i k, rel (RGrp n a) t i k <-> rel a t i k.
Proof. intros n a t i k. split; intros H; [inversion H; subst; assumption|constructor; assumption]. Qed.

Lemma rel_rstr : forall s t i j, rel (rstr s) t i j <-> j = i + length s /\ exists r, skipn i t = s ++ r.
Proof.
  induction s as [|x s IH]; intros t i j; cbn [rstr].
  - split.
    + intros H. inversion H; subst. split; [cbn; lia|]. eexists. reflexivity.
    + intros [-> _]. cbn. rewrite Nat.add_0_r. constructor.
  - rewrite rel_rseq2. split.
    + intros (k & H1 & H2). apply rel_is_ch in H1. destruct H1 as [-> (r & H1)].
      apply IH in H2. destruct H2 as [-> (r' & H2)]. split; [cbn; lia|].
      rewrite (skipn_S_tl _ _ _ _ H1) in H2. exists r'. rewrite H1, H2. reflexivity.
    + intros [-> (r & H)]. exists (S i). split; [apply rel_is_ch; split; [reflexivity|exists (s ++ r); exact H]|].
      apply IH. split; [cbn; lia|]. exists r. eapply skipn_S_tl. exact H.
Qed.

(** iterations of a one-character class *)
Lemma rel_star_chr : forall g p t i j, rel (RStar g (RChr p)) t i j <->
  exists ws r, skipn i t = ws ++ r /\ forallb p ws = true /\ j = i + length ws.
Proof.
  intros g p t i j. split.
  - intros H. remember (RStar g (RChr p)) as r eqn:Er. induction H; try discriminate.
    + exists [], (skipn i t). cbn. rewrite Nat.add_0_r. auto.
    + injection Er as -> ->. destruct (IHrel2 eq_refl) as (ws & r & H2 & H3 & ->).
      inversion H as [|p' t' i' x K1 K2| | | | | | | | | | | |]; subst.
      rewrite nth_error_skipn in K1. destruct (skipn i t) as [|y l] eqn:E; [discriminate|]. injection K1 as ->.
      rewrite (skipn_S_tl _ _ _ _ E) in H2. subst l. exists (x :: ws), r. cbn. rewrite K2, H3. repeat split; auto.
  - intros (ws & r & H & Hp & ->). revert i H. induction ws as [|x ws IH]; intros i H; cbn.
    + rewrite Nat.add_0_r. constructor.
    + cbn in Hp. apply andb_true_iff in Hp. destruct Hp as [Hx Hp].
      apply rel_star1 with (j := S i); [|lia|].
      * apply rel_chr with (x := x); [rewrite nth_error_skipn, H; reflexivity|exact Hx].
      * replace (i + S (length ws)) with (S i + length ws) by lia. apply IH; auto. eapply skipn_S_tl. exact H.
Qed.

(** length of the maximal run of characters of a class *)
Fixpoint runlen (p : ch -> bool) (s : str) : nat :=
  match s with
  | x :: r => if p x then S (runlen p r) else 0
  | [] => 0
  end.

(** greedy star over a class: the list of results is the run, longest first *)
Fixpoint downto (i k : nat) : list nat := (** i+k, ..., i *)
  match k with O => [i] | S k' => (i + k) :: downto i k' end.

Lemma downto_S : forall k i, downto i (S k) = downto (S i) k ++ [i].
Proof.
  induction k as [|k IH]; intros i; cbn [downto app].
  - rewrite Nat.add_1_r. reflexivity.
  - cbn [downto] in IH. rewrite IH. f_equal. lia.
Qed.

Lemma star_chr_greedy_go : forall p t fuel i c, length t - i < fuel ->
  star_run (rm (RChr p) t) true fuel i c = map (fun j => (j, c)) (downto i (runlen p (skipn i t))).
Proof.
  intros p t. induction fuel as [|f IH]; intros i c Hf; [lia|].
  cbn [star_run]. cbn [rm]. unfold next_is. rewrite nth_error_skipn.
  destruct (skipn i t) as [|x r] eqn:E; [reflexivity|].
  cbn [runlen]. destruct (p x) eqn:Ep; [|reflexivity].
  cbn [flat_map fst snd]. replace (Nat.ltb i (S i)) with true by (symmetry; apply Nat.ltb_lt; lia).
  rewrite app_nil_r. pose proof (skipn_cons_lt _ _ _ _ E). rewrite IH by lia.
  rewrite (skipn_S_tl _ _ _ _ E), downto_S, map_app. reflexivity.
Qed.

Lemma rm_star_chr_greedy : forall p t i c,
  rm (RStar true (RChr p)) t i c = map (fun j => (j, c)) (downto i (runlen p (skipn i t))).
Proof. intros p t i c. cbn [rm]. apply star_chr_greedy_go. lia. Qed.

Lemma rm_rplus_chr : forall p t i c,
  rm (rplus (RChr p)) t i c =
  match runlen p (skipn i t) with
  | O => []
  | S k => map (fun j => (j, c)) (downto (S i) k)
  end.
Proof.
  intros p t i c. unfold rplus.
  change (rm (RSeq (RChr p) (RStar true (RChr p))) t i c) with
    (flat_map (fun jc => rm (RStar true (RChr p)) t (fst jc) (snd jc)) (if next_is p t i then [(S i, c)] else [])).
  unfold next_is. rewrite nth_error_skipn.
  destruct (skipn i t) as [|x r] eqn:E; [reflexivity|].
  cbn [runlen]. destruct (p x) eqn:Ep; [|reflexivity].
  cbn [flat_map fst snd]. rewrite app_nil_r, rm_star_chr_greedy, (skipn_S_tl _ _ _ _ E). reflexivity.
Qed.

Lemma downto_hd : forall i k, downto i k = (i + k) :: tl (downto i k).
Proof. intros i [|k]; cbn; [rewrite Nat.add_0_r|]; reflexivity. Qed.

Lemma re_match_rplus : forall p t i,
  re_match_at (rplus (RChr p)) t i =
  match runlen p (skipn i t) with
  | O => None
  | S k => Some {| m_start := i; m_end := i + S k; m_caps := [] |}
  end.
Proof.
  intros p t i. unfold re_match_at. rewrite rm_rplus_chr. destruct (runlen p (skipn i t)); [reflexivity|].
  rewrite downto_hd. cbn. f_equal. f_equal. lia.
Qed.

(** substitution, one step at a time: behaviour at the current position *)
Section Sub.
Variable r : re.
Variable f : mobj -> str.
Hypothesis Hmin : 0 < minlen r.

Lemma search_step : forall t pos, pos < length t -> re_search_from r t pos =
  match re_match_at r t pos with Some m => Some m | None => re_search_from r t (S pos) end.
Proof.
  intros t pos H. unfold re_search_from.
  replace (Nat.leb pos (length t)) with true by (symmetry; apply Nat.leb_le; lia).
  replace (Nat.leb (S pos) (length t)) with true by (symmetry; apply Nat.leb_le; lia).
  replace (length t - pos) with (S (length t - S pos)) by lia. cbn [re_search_go]. reflexivity.
Qed.

Lemma search_end : forall t, re_search_from r t (length t) = None.
Proof.
  intros t. apply re_search_none. intros i j Hi H. apply rel_bounds in H as Hb; [|lia]. apply minlen_ok in H. lia.
Qed.

Lemma sub_go_fuel : forall t f1 f2 pos, length t - pos < f1 -> length t - pos < f2 ->
  re_sub_go f1 r f t pos = re_sub_go f2 r f t pos.
Proof.
  intros t. induction f1 as [|f1 IH]; intros f2 pos H1 H2; [lia|]. destruct f2 as [|f2]; [lia|].
  cbn [re_sub_go]. destruct (re_search_from r t pos) as [m|] eqn:E; [|reflexivity].
  apply re_search_some in E. destruct E as (E1 & E2 & E3 & _). apply minlen_ok in E3.
  replace (Nat.eqb (m_end m) (m_start m)) with false by (symmetry; apply Nat.eqb_neq; lia).
  rewrite (IH f2); [reflexivity|lia|lia].
Qed.

(** [sub] from position [pos] with enough fuel *)
Definition sub_at (t : str) (pos : nat) : str := re_sub_go (S (S (length t))) r f t pos.

Lemma re_sub_at0 : forall t, re_sub r f t = sub_at t 0.
Proof. reflexivity. Qed.

Lemma sub_at_end : forall t pos, length t <= pos -> sub_at t pos = [].
Proof.
  intros t pos H. unfold sub_at. cbn [re_sub_go].
  replace (re_search_from r t pos) with (@None mobj).
  - apply skipn_all2. exact H.
  - symmetry. apply re_search_none. intros i j Hi Hr. assert (i = length t) by lia. subst.
    apply rel_bounds in Hr as Hb; [|lia]. apply minlen_ok in Hr. lia.
Qed.

Lemma sub_go_S : forall fu t pos, re_sub_go (S fu) r f t pos =
      match re_search_from r t pos with
      | None => skipn pos t
      | Some m =>
          slice pos (m_start m) t ++ f m ++
          (if Nat.eqb (m_end m) (m_start m)
           then slice (m_end m) (S (m_end m)) t ++ re_sub_go fu r f t (S (m_end m))
           else re_sub_go fu r f t (m_end m))
      end.
Proof. reflexivity. Qed.

Lemma sub_at_step : forall t pos, pos < length t -> sub_at t pos =
  match re_match_at r t pos with
  | Some m => f m ++ sub_at t (m_end m)
  | None => slice pos (S pos) t ++ sub_at t (S pos)
  end.
Proof.
  intros t pos H. unfold sub_at at 1. rewrite sub_go_S. rewrite search_step by exact H.
  destruct (re_match_at r t pos) as [m|] eqn:E.
  - apply re_match_at_some in E; [|lia]. destruct E as (E1 & E2 & E3). apply minlen_ok in E2.
    rewrite E1. replace (Nat.eqb (m_end m) pos) with false by (symmetry; apply Nat.eqb_neq; lia).
    unfold slice at 1. rewrite Nat.sub_diag. cbn [firstn app].
    f_equal. unfold sub_at. apply sub_go_fuel; lia.
  - unfold sub_at. rewrite sub_go_S.
    destruct (re_search_from r t (S pos)) as [m|] eqn:E2.
    + apply re_search_some in E2. destruct E2 as (E3 & E4 & E5 & _). rewrite (app_assoc (slice pos (S pos) t)). f_equal.
      unfold slice. replace (m_start m - pos) with (1 + (m_start m - S pos)) by lia.
      replace (S pos - pos) with 1 by lia. 
      destruct (skipn pos t) as [|x l] eqn:Es; [exfalso; rewrite <- (firstn_skipn pos t), Es, app_nil_r, firstn_length in H; lia|].
      rewrite (skipn_S_tl _ _ _ _ Es). cbn. reflexivity.
    + unfold slice. replace (S pos - pos) with 1 by lia.
      destruct (skipn pos t) as [|x l] eqn:Es; [exfalso; rewrite <- (firstn_skipn pos t), Es, app_nil_r, firstn_length in H; lia|].
      rewrite (skipn_S_tl _ _ _ _ Es). reflexivity.
Qed.
End Sub.

(** the same for [finditer] *)
Section Iter.
Variable r : re.
Hypothesis Hmin : 0 < minlen r.

Lemma iter_go_S : forall fu t pos, re_finditer_go (S fu) r t pos =
      match re_search_from r t pos with
      | None => []
      | Some m => m :: re_finditer_go fu r t (if Nat.eqb (m_end m) (m_start m) then S (m_end m) else m_end m)
      end.
Proof. reflexivity. Qed.

Lemma iter_go_fuel : forall t f1 f2 pos, length t - pos < f1 -> length t - pos < f2 ->
  re_finditer_go f1 r t pos = re_finditer_go f2 r t pos.
Proof.
  intros t. induction f1 as [|f1 IH]; intros f2 pos H1 H2; [lia|]. destruct f2 as [|f2]; [lia|].
  rewrite !iter_go_S. destruct (re_search_from r t pos) as [m|] eqn:E; [|reflexivity].
  apply re_search_some in E. destruct E as (E1 & E2 & E3 & _). apply minlen_ok in E3.
  replace (Nat.eqb (m_end m) (m_start m)) with false by (symmetry; apply Nat.eqb_neq; lia).
  rewrite (IH f2); [reflexivity|lia|lia].
Qed.

Definition iter_at (t : str) (pos : nat) : list mobj := re_finditer_go (S (S (length t))) r t pos.

Lemma iter_at_end : forall t pos, length t <= pos -> iter_at t pos = [].
Proof.
  intros t pos H. unfold iter_at. rewrite iter_go_S.
  replace (re_search_from r t pos) with (@None mobj); [reflexivity|].
  symmetry. apply re_search_none. intros i j Hi Hr. assert (i = length t) by lia. subst.
  apply rel_bounds in Hr as Hb; [|lia]. apply minlen_ok in Hr. lia.
Qed.

Lemma iter_at_step : forall t pos, pos < length t -> iter_at t pos =
  match re_match_at r t pos with
  | Some m => m :: iter_at t (m_end m)
  | None => iter_at t (S pos)
  end.
Proof.
  intros t pos H. unfold iter_at at 1. rewrite iter_go_S, (search_step r Hmin) by exact H.
  destruct (re_match_at r t pos) as [m|] eqn:E.
  - apply re_match_at_some in E; [|lia]. destruct E as (E1 & E2 & E3). apply minlen_ok in E2.
    rewrite E1. replace (Nat.eqb (m_end m) pos) with false by (symmetry; apply Nat.eqb_neq; lia).
    f_equal. unfold iter_at. apply iter_go_fuel; lia.
  - unfold iter_at. rewrite iter_go_S. reflexivity.
Qed.
End Iter.

(** two consecutive greedy runs over disjoint classes, each captured *)
Lemma flat_map_downto_top : forall (B : Type) (f : nat -> list B) i k,
  (forall j, i <= j < i + k -> f j = []) -> flat_map f (downto i k) = f (i + k).
Proof.
  intros B f i. induction k as [|k IH]; intros H; cbn [downto flat_map].
  - rewrite app_nil_r, Nat.add_0_r. reflexivity.
  - rewrite IH by (intros j Hj; apply H; lia). rewrite (H (i + k)) by lia. apply app_nil_r.
Qed.

Lemma flat_map_map : forall (A B C : Type) (f : B -> list C) (g : A -> B) l, flat_map f (map g l) = flat_map (fun x => f (g x)) l.
Proof. intros A B C f g l. induction l as [|x l IH]; cbn; [reflexivity|]. rewrite IH. reflexivity. Qed.

Lemma runlen_le : forall p s, runlen p s <= length s.
Proof. intros p s. induction s as [|x s IH]; cbn; [lia|]. destruct (p x); cbn; lia. Qed.

Lemma runlen_nth : forall p s j, j < runlen p s -> exists x r, skipn j s = x :: r /\ p x = true.
Proof.
  intros p s. induction s as [|x s IH]; intros j H; cbn in H; [lia|].
  destruct (p x) eqn:E; [|lia]. destruct j as [|j]; [exists x, s; auto|]. cbn. apply IH. lia.
Qed.

Lemma rm_two_runs : forall p q a b t i c,
  (forall x, p x = true -> q x = false) ->
  rm (RSeq (RGrp a (rplus (RChr p))) (RGrp b (rplus (RChr q)))) t i c =
  match runlen p (skipn i t) with
  | O => []
  | S h => map (fun jc => (fst jc, (b, (i + S h, fst jc)) :: snd jc))
             (rm (rplus (RChr q)) t (i + S h) ((a, (i, i + S h)) :: c))
  end.
Proof.
  intros p q a b t i c Hd.
  change (rm (RSeq (RGrp a (rplus (RChr p))) (RGrp b (rplus (RChr q)))) t i c) with
    (flat_map (fun jc => rm (RGrp b (rplus (RChr q))) t (fst jc) (snd jc))
       (map (fun jc => (fst jc, (a, (i, fst jc)) :: snd jc)) (rm (rplus (RChr p)) t i c))).
  rewrite rm_rplus_chr. destruct (runlen p (skipn i t)) as [|h] eqn:E; [reflexivity|].
  rewrite map_map, flat_map_map. cbn [fst snd].
  rewrite flat_map_downto_top.
  - replace (S i + h) with (i + S h) by lia. reflexivity.
  - intros j Hj. change (rm (RGrp b (rplus (RChr q))) t j ((a, (i, j)) :: c)) with
      (map (fun jc => (fst jc, (b, (j, fst jc)) :: snd jc)) (rm (rplus (RChr q)) t j ((a, (i, j)) :: c))).
    rewrite rm_rplus_chr.
    destruct (runlen_nth p (skipn i t) (j - i)) as (x & r & Hx & Hp); [lia|].
    rewrite skipn_add in Hx. replace (i + (j - i)) with j in Hx by lia. rewrite Hx. cbn. rewrite (Hd x Hp). reflexivity.
Qed.

(** literal strings *)
Lemma rm_rstr : forall s t i c, rm (rstr s) t i c = if startswith (skipn i t) s then [(i + length s, c)] else [].
Proof.
  induction s as [|x s IH]; intros t i c.
  - cbn. rewrite Nat.add_0_r. reflexivity.
  - cbn [rstr]. change (rm (RSeq (is_ch x) (rstr s)) t i c) with
      (flat_map (fun jc => rm (rstr s) t (fst jc) (snd jc)) (if next_is (N.eqb x) t i then [(S i, c)] else [])).
    unfold next_is. rewrite nth_error_skipn. destruct (skipn i t) as [|y r] eqn:E; [reflexivity|].
    cbn [startswith]. rewrite (N.eqb_sym y x) || idtac. destruct (N.eqb x y) eqn:Ex.
    + cbn [flat_map fst snd andb]. rewrite app_nil_r, IH, (skipn_S_tl _ _ _ _ E).
      cbn [length]. replace (S i + length s) with (i + S (length s)) by lia. reflexivity.
    + reflexivity.
Qed.
