(** Texts with numbered placeholders, and [str.replace] on them.

    A placeholder is [W ++ x] where the mark [W] overlaps no shifted copy of
    itself.  If [W] occurs in none of the gaps between the placeholders, then
    replacing one placeholder touches nothing else. *)
From Coq Require Import List NArith PeanoNat Lia Bool Permutation.
From Verif Require Import PyStr RegexLocal.
Import ListNotations.
Notation concat := List.concat.

Lemma startswith_occurs : forall p s n, startswith (skipn n s) p = true -> occurs p s.
Proof. intros p s n H. apply startswith_spec in H as (r & H). exists (firstn n s), r. rewrite <- H. symmetry. apply firstn_skipn. Qed.
Lemma startswith_prefix : forall p q s, startswith s (p ++ q) = true -> startswith s p = true.
Proof. intros p q s H. apply startswith_spec in H as (r & ->). rewrite <- app_assoc. apply startswith_app. Qed.

(** replace, piecewise *)
Lemma replace_skip : forall p q k s, k <= length s -> replace_go p q k s = replace_go p q 0 (skipn k s).
Proof.
  intros p q. induction k as [|k IH]; intros s H; [reflexivity|]. destruct s as [|x s]; [cbn in H; lia|]. cbn [replace_go skipn]. apply IH. cbn in H. lia.
Qed.
Lemma replace_hit : forall p q s, p <> [] -> replace p q (p ++ s) = q ++ replace p q s.
Proof.
  intros p q s H. unfold replace. destruct p as [|x p]; [congruence|]. cbn [app]. cbn [replace_go].
  replace (startswith (x :: p ++ s) (x :: p)) with true by (symmetry; apply (startswith_app (x :: p) s)).
  f_equal. cbn [length]. rewrite Nat.sub_succ, Nat.sub_0_r. rewrite replace_skip by (rewrite app_length; lia).
  rewrite skipn_app, skipn_all, Nat.sub_diag. reflexivity.
Qed.
Lemma replace_miss : forall p q a s, (forall n, n < length a -> startswith (skipn n a ++ s) p = false) -> replace p q (a ++ s) = a ++ replace p q s.
Proof.
  intros p q a s. induction a as [|x a IH]; intros H; [reflexivity|]. unfold replace in *. cbn [app replace_go].
  pose proof (H 0 ltac:(cbn; lia)) as H0. cbn [skipn app] in H0. rewrite H0. f_equal. apply IH. intros n Hn. apply (H (S n)). cbn. lia.
Qed.
Lemma replace_absent : forall p q s, p <> [] -> ~ occurs p s -> replace p q s = s.
Proof.
  intros p q s Hp H. rewrite <- (app_nil_r s) at 1. rewrite replace_miss; [unfold replace; cbn; apply app_nil_r|].
  intros n Hn. rewrite app_nil_r. destruct (startswith (skipn n s) p) eqn:E; [|reflexivity]. exfalso. apply H. eapply startswith_occurs. exact E.
Qed.

Definition borderless (W : str) : Prop := forall u v w, W = u ++ v -> W = v ++ w -> u = [] \/ v = [].
(** a check by computation *)
Definition borderless_check (W : str) : bool := forallb (fun n => negb (startswith W (skipn n W))) (seq 1 (length W - 1)).
Lemma borderless_ok : forall W, borderless_check W = true -> borderless W.
Proof.
  intros W H u v w E1 E2. destruct u as [|x u]; [left; reflexivity|]. right. destruct v as [|y v]; [reflexivity|]. exfalso.
  unfold borderless_check in H. rewrite forallb_forall in H. specialize (H (length (x :: u))).
  assert (Hl : length W = S (length u) + S (length v)) by (rewrite E1, app_length; reflexivity).
  rewrite in_seq in H. specialize (H ltac:(cbn [length]; lia)). rewrite E1 in H at 2. rewrite skipn_app, skipn_all, Nat.sub_diag in H. cbn [app skipn] in H.
  rewrite E2, startswith_app in H. discriminate.
Qed.

Section P.
Variable W : str.
Hypothesis HW : borderless W.
Hypothesis HWne : W <> [].

(** the gap texts after each mark *)
Definition marked (gs : list str) : str := concat (map (fun g => W ++ g) gs).

(** two ways to write the same text *)
Lemma cut_app : forall (a b c d : str), a ++ b = c ++ d -> (exists e, c = a ++ e /\ b = e ++ d) \/ (exists e, e <> [] /\ a = c ++ e /\ d = e ++ b).
Proof.
  induction a as [|x a IH]; intros b c d H; cbn in H.
  - left. exists c. auto.
  - destruct c as [|y c]; cbn in H.
    + right. exists (x :: a). split; [discriminate|]. auto.
    + injection H as -> H. destruct (IH _ _ _ H) as [(e & -> & ->)|(e & Ne & -> & ->)]; [left|right]; exists e; auto.
Qed.
(** the mark starts nowhere inside a gap, whatever marks follow *)
Lemma no_start_in_gap : forall u gs, u <> [] -> ~ occurs W u -> startswith (u ++ marked gs) W = false.
Proof.
  intros u gs Hu Ho. destruct (startswith (u ++ marked gs) W) eqn:E; [|reflexivity]. exfalso. apply startswith_spec in E as (r & E).
  apply cut_app in E as [(e & E1 & E2)|(e & Ne & E1 & E2)].
  - destruct gs as [|g gs]; cbn in E2.
    + symmetry in E2. apply app_eq_nil in E2 as [-> ->]. apply Ho. exists [], []. rewrite E1, !app_nil_r. reflexivity.
    + rewrite <- app_assoc in E2. apply cut_app in E2 as [(f & E3 & E4)|(f & Nf & E3 & E4)].
      * exfalso. assert (L : length W = length u + length e) by (rewrite E1, app_length; reflexivity). rewrite E3, app_length in L.
        assert (length u <> 0) by (destruct u; [congruence|discriminate]). lia.
      * destruct (HW u e f E1 E3) as [C|C]; [congruence|]. subst e. apply Ho. exists [], []. rewrite E1. rewrite !app_nil_r. reflexivity.
  - apply Ho. exists [], e. rewrite E1. reflexivity.
Qed.
Lemma skipn_gap : forall (g : str) n, n < length g -> skipn n g <> [].
Proof. intros g n H C. apply (f_equal (@length _)) in C. rewrite skipn_length in C. cbn in C. lia. Qed.
(** nor inside a mark *)
Lemma no_start_in_mark : forall n g gs, 0 < n < length W -> startswith (skipn n W ++ g ++ marked gs) W = false.
Proof.
  intros n g gs Hn. destruct (startswith (skipn n W ++ g ++ marked gs) W) eqn:E; [|reflexivity]. exfalso. apply startswith_spec in E as (r & E).
  assert (Hs : W = firstn n W ++ skipn n W) by (symmetry; apply firstn_skipn).
  apply cut_app in E as [(e & E1 & E2)|(e & Ne & E1 & E2)].
  - destruct (HW _ _ _ Hs E1) as [C|C].
    + apply (f_equal (@length _)) in C. rewrite firstn_length in C. cbn in C. lia.
    + apply (skipn_gap W n) in C; [exact C|lia].
  - apply (f_equal (@length _)) in E1. rewrite skipn_length, app_length in E1. lia.
Qed.

Lemma replace_marked : forall x q g0 gs, ~ occurs W g0 -> (forall g, In g gs -> ~ occurs W g) ->
  replace (W ++ x) q (g0 ++ marked gs) = g0 ++ replace (W ++ x) q (marked gs).
Proof.
  intros x q g0 gs H0 Hg. apply replace_miss. intros n Hn. destruct (startswith (skipn n g0 ++ marked gs) (W ++ x)) eqn:E; [|reflexivity].
  apply startswith_prefix in E. rewrite no_start_in_gap in E; [discriminate|apply skipn_gap; exact Hn|]. intros C. apply H0. eapply occurs_skipn. exact C.
Qed.
Lemma replace_marked_miss : forall x q g gs, ~ occurs W g -> startswith (g ++ marked gs) x = false ->
  replace (W ++ x) q (marked (g :: gs)) = W ++ g ++ replace (W ++ x) q (marked gs).
Proof.
  intros x q g gs Hg Hx. unfold marked at 1. cbn [map concat]. fold (marked gs). rewrite <- app_assoc.
  rewrite app_assoc, replace_miss; [rewrite <- app_assoc; reflexivity|].
  intros n Hn. destruct (startswith (skipn n (W ++ g) ++ marked gs) (W ++ x)) eqn:E; [|reflexivity]. exfalso.
  destruct (Nat.eq_dec n 0) as [->|Nz].
  - cbn [skipn] in E. rewrite <- app_assoc in E. apply startswith_spec in E as (r & E). rewrite <- app_assoc in E. apply app_inv_head in E. rewrite E, startswith_app in Hx. discriminate.
  - apply startswith_prefix in E. rewrite skipn_app in E. destruct (Nat.lt_ge_cases n (length W)) as [L|L].
    + replace (n - length W) with 0 in E by lia. cbn [skipn] in E. rewrite <- app_assoc, no_start_in_mark in E by lia. discriminate.
    + rewrite skipn_all2 in E by exact L. cbn [app] in E. rewrite app_length in Hn. rewrite no_start_in_gap in E; [discriminate|apply skipn_gap; lia|].
      intros C. apply Hg. eapply occurs_skipn. exact C.
Qed.
Lemma replace_marked_hit : forall x q t gs, replace (W ++ x) q (marked ((x ++ t) :: gs)) = q ++ replace (W ++ x) q (t ++ marked gs).
Proof.
  intros x q t gs. unfold marked at 1. cbn [map concat]. fold (marked gs). rewrite <- app_assoc, <- app_assoc, app_assoc.
  apply replace_hit. intros C. apply app_eq_nil in C as [C _]. congruence.
Qed.

(** the same for [str.find] *)
Lemma find_miss : forall p a s, (forall n, n < length a -> startswith (skipn n a ++ s) p = false) -> find_sub p (a ++ s) = option_map (fun k => length a + k) (find_sub p s).
Proof.
  intros p a s. induction a as [|x a IH]; intros H.
  - cbn [app length]. destruct (find_sub p s); reflexivity.
  - cbn [app find_sub]. pose proof (H 0 ltac:(cbn; lia)) as H0. cbn [skipn app] in H0. rewrite H0, IH by (intros n Hn; apply (H (S n)); cbn; lia).
    destruct (find_sub p s); reflexivity.
Qed.
Lemma nohit_gap : forall x g0 gs, ~ occurs W g0 -> forall n, n < length g0 -> startswith (skipn n g0 ++ marked gs) (W ++ x) = false.
Proof.
  intros x g0 gs H0 n Hn. destruct (startswith (skipn n g0 ++ marked gs) (W ++ x)) eqn:E; [|reflexivity].
  apply startswith_prefix in E. rewrite no_start_in_gap in E; [discriminate|apply skipn_gap; exact Hn|]. intros C. apply H0. eapply occurs_skipn. exact C.
Qed.
Lemma nohit_mark : forall x g gs, ~ occurs W g -> startswith (g ++ marked gs) x = false -> forall n, n < length (W ++ g) -> startswith (skipn n (W ++ g) ++ marked gs) (W ++ x) = false.
Proof.
  intros x g gs Hg Hx n Hn. destruct (startswith (skipn n (W ++ g) ++ marked gs) (W ++ x)) eqn:E; [|reflexivity]. exfalso.
  destruct (Nat.eq_dec n 0) as [->|Nz].
  - cbn [skipn] in E. rewrite <- app_assoc in E. apply startswith_spec in E as (r & E). rewrite <- app_assoc in E. apply app_inv_head in E. rewrite E, startswith_app in Hx. discriminate.
  - apply startswith_prefix in E. rewrite skipn_app in E. destruct (Nat.lt_ge_cases n (length W)) as [L|L].
    + replace (n - length W) with 0 in E by lia. cbn [skipn] in E. rewrite <- app_assoc, no_start_in_mark in E by lia. discriminate.
    + rewrite skipn_all2 in E by exact L. cbn [app] in E. rewrite app_length in Hn. rewrite no_start_in_gap in E; [discriminate|apply skipn_gap; lia|].
      intros C. apply Hg. eapply occurs_skipn. exact C.
Qed.

(** * Numbered placeholders *)
Variable key : nat -> str.        (* the part after the mark *)
Hypothesis key_prefix : forall i j r s, key i ++ r = key j ++ s -> i = j.
Variable clean : str -> Prop.     (* texts without trace of the mark *)
Hypothesis clean_app : forall a b, clean (a ++ b) -> clean a /\ clean b.
Hypothesis clean_gap : forall i t, clean t -> ~ occurs W (key i ++ t).
Hypothesis clean_text : forall t, clean t -> ~ occurs W t.

Definition placeholder (i : nat) : str := W ++ key i.
(** the text [t0] and then, for each block, its placeholder and the text after it *)
Fixpoint with_placeholders (t0 : str) (segs : list (nat * str * str)) : str :=
  match segs with [] => t0 | (i, b, t) :: r => t0 ++ placeholder i ++ with_placeholders t r end.
Fixpoint with_blocks (t0 : str) (segs : list (nat * str * str)) : str :=
  match segs with [] => t0 | (i, b, t) :: r => t0 ++ b ++ with_blocks t r end.

Definition gap_of (s : nat * str * str) : str := key (fst (fst s)) ++ snd s.
Lemma with_marked : forall segs t0, with_placeholders t0 segs = t0 ++ marked (map gap_of segs).
Proof.
  induction segs as [|[[i b] t] r IH]; intros t0; cbn [with_placeholders map marked concat]; [symmetry; apply app_nil_r|].
  rewrite IH. unfold placeholder, marked. cbn [map concat]. unfold gap_of at 2. cbn [fst snd]. rewrite <- !app_assoc. reflexivity.
Qed.
Lemma with_blocks_clean : forall segs t0, clean (with_blocks t0 segs) -> clean t0 /\ (forall i b t, In (i, b, t) segs -> clean t).
Proof.
  induction segs as [|[[i b] t] r IH]; intros t0 H; cbn [with_blocks] in H; [split; [exact H|intros ? ? ? []]|].
  apply clean_app in H as [H0 H]. apply clean_app in H as [_ H]. apply IH in H as [H1 H2]. split; [exact H0|].
  intros j c s [E|Hin]; [injection E as -> -> ->; exact H1|eapply H2; exact Hin].
Qed.

(** finding one placeholder *)
Lemma find_first : forall i b t segs t0, ~ occurs W t0 -> find_sub (placeholder i) (with_placeholders t0 ((i, b, t) :: segs)) = Some (length t0).
Proof.
  intros i b t segs t0 H. rewrite with_marked. rewrite find_miss; [|apply nohit_gap; exact H]. cbn [map]. unfold marked. cbn [map concat].
  unfold gap_of at 1. cbn [fst snd]. rewrite <- !app_assoc. rewrite (app_assoc W (key i)).
  destruct ((W ++ key i) ++ t ++ concat (map (fun g => W ++ g) (map gap_of segs))) as [|y r] eqn:E.
  - exfalso. apply app_eq_nil in E as [E _]. apply app_eq_nil in E as [E _]. congruence.
  - cbn [find_sub]. rewrite <- E. unfold placeholder. rewrite startswith_app. cbn. f_equal. lia.
Qed.
Lemma find_none : forall i segs t0, (forall j b t, In (j, b, t) segs -> j <> i /\ clean t) -> clean t0 -> find_sub (placeholder i) (with_placeholders t0 segs) = None.
Proof.
  intros i segs t0 H H0. rewrite with_marked. rewrite find_miss; [|apply nohit_gap, clean_text; exact H0].
  assert (E : find_sub (placeholder i) (marked (map gap_of segs)) = None); [|rewrite E; reflexivity].
  induction segs as [|[[j b] t] segs IH].
  - unfold placeholder, marked. cbn. destruct W; [congruence|]. reflexivity.
  - destruct (H j b t (or_introl eq_refl)) as [Hj Ht]. cbn [map]. unfold marked. cbn [map concat]. unfold gap_of at 1. cbn [fst snd].
    fold (marked (map gap_of segs)). rewrite find_miss.
    + rewrite IH; [reflexivity|]. intros j' b' t' Hin. apply (H j' b' t'). right. exact Hin.
    + apply nohit_mark; [apply clean_gap; exact Ht|]. destruct (startswith _ (key i)) eqn:E; [|reflexivity]. exfalso. apply startswith_spec in E as (r & E).
      rewrite <- app_assoc in E. apply key_prefix in E. congruence.
Qed.

(** restoring one placeholder *)
Lemma restore_one : forall i b q segs1 t segs2 t0, ~ In i (map (fun s => fst (fst s)) segs1) -> ~ In i (map (fun s => fst (fst s)) segs2) ->
  clean (with_blocks t0 (segs1 ++ (i, b, t) :: segs2)) ->
  replace (placeholder i) q (with_placeholders t0 (segs1 ++ (i, b, t) :: segs2)) = with_placeholders t0 segs1 ++ q ++ with_placeholders t segs2.
Proof.
  intros i b q segs1 t segs2 t0 N1 N2 Hc. apply with_blocks_clean in Hc as [H0 Hs].
  assert (G : forall l, (forall (j : nat) (c s : str), In (j, c, s) l -> clean s) -> forall g, In g (map gap_of l) -> ~ occurs W g).
  { intros l Hl g Hg. apply in_map_iff in Hg as ([[j c] s] & <- & Hin). apply clean_gap. eapply Hl. exact Hin. }
  (* a text and placeholders other than i are left alone *)
  assert (Other : forall l, ~ In i (map (fun s => fst (fst s)) l) -> (forall (j : nat) (c s : str), In (j, c, s) l -> clean s) -> forall rest,
     (forall g, In g rest -> ~ occurs W g) ->
     replace (placeholder i) q (marked (map gap_of l ++ rest)) =
     marked (map gap_of l) ++ replace (placeholder i) q (marked rest)).
  { induction l as [|[[j c] s] l IH]; intros Nl Hl rest Hr; [reflexivity|]. cbn [map app]. unfold placeholder in *.
    rewrite replace_marked_miss.
    - rewrite IH; [|intros C; apply Nl; right; exact C|intros; eapply Hl; right; eassumption|exact Hr].
      unfold marked. cbn [map concat]. rewrite <- !app_assoc. reflexivity.
    - apply clean_gap. eapply Hl. left. reflexivity.
    - destruct (startswith _ (key i)) eqn:E; [|reflexivity]. exfalso. apply startswith_spec in E as (r & E). unfold gap_of in E. cbn [fst snd] in E. rewrite <- app_assoc in E. apply key_prefix in E.
      apply Nl. left. cbn. symmetry. symmetry. exact E. }
  rewrite with_marked, map_app. cbn [map].
  assert (Hs1 : forall j c s, In (j, c, s) segs1 -> clean s) by (intros; eapply Hs; apply in_or_app; left; eassumption).
  assert (Hs2 : forall j c s, In (j, c, s) segs2 -> clean s) by (intros; eapply Hs; apply in_or_app; right; right; eassumption).
  assert (Ht : clean t) by (eapply Hs; apply in_or_app; right; left; reflexivity).
  unfold placeholder at 1. rewrite replace_marked.
  - fold (placeholder i). rewrite Other; [|exact N1|exact Hs1|intros g [<-|Hg]; [apply clean_gap; exact Ht|exact (G _ Hs2 _ Hg)]].
    unfold placeholder at 1. unfold gap_of at 2. cbn [fst snd]. rewrite replace_marked_hit, replace_marked; [|apply clean_text; exact Ht|intros g Hg; exact (G _ Hs2 _ Hg)].
    pose proof (Other segs2 N2 Hs2 [] ltac:(intros g [])) as O. rewrite app_nil_r in O. unfold placeholder in O. rewrite O.
    change (replace (W ++ key i) q (marked [])) with ([] : str). rewrite app_nil_r, !with_marked, <- !app_assoc. reflexivity.
  - apply clean_text. exact H0.
  - intros g Hg. apply in_app_or in Hg as [Hg|[<-|Hg]]; [exact (G _ Hs1 _ Hg)|apply clean_gap; exact Ht|exact (G _ Hs2 _ Hg)].
Qed.

(** the block back in the text *)
Fixpoint merge_last (t0 : str) (segs : list (nat * str * str)) (b t : str) (rest : list (nat * str * str)) : str * list (nat * str * str) :=
  match segs with
  | [] => (t0 ++ b ++ t, rest)
  | (i, c, s) :: r => let '(s', r') := merge_last s r b t rest in (t0, (i, c, s') :: r')
  end.
Lemma merge_last_spec : forall segs1 t0 b t segs2, let '(t0', segs) := merge_last t0 segs1 b t segs2 in
  with_placeholders t0' segs = with_placeholders t0 segs1 ++ b ++ with_placeholders t segs2 /\
  (forall i, with_blocks t0' segs = with_blocks t0 (segs1 ++ (i, b, t) :: segs2)) /\
  map fst segs = map fst (segs1 ++ segs2).
Proof.
  induction segs1 as [|[[i c] s] r IH]; intros t0 b t segs2; cbn [merge_last].
  - repeat split.
    + destruct segs2 as [|[[j c] s] r]; cbn [with_placeholders]; rewrite <- ?app_assoc; reflexivity.
    + intros i. cbn [app with_blocks]. destruct segs2 as [|[[j c] s] r]; cbn [with_blocks]; rewrite <- ?app_assoc; reflexivity.
  - specialize (IH s b t segs2). destruct (merge_last s r b t segs2) as [s' r']. destruct IH as (H1 & H2 & H3). cbn [with_placeholders with_blocks app map]. repeat split.
    + rewrite H1, <- !app_assoc. reflexivity.
    + intros j. rewrite (H2 j). reflexivity.
    + rewrite H3. reflexivity.
Qed.

(** Restoring in any order gives the text with the blocks. *)
Definition restore (content : str) (blocks : list (str * str)) : str := fold_left (fun c kb => replace (fst kb) (snd kb) c) blocks content.
Lemma restore_all : forall blocks t0 segs, Permutation (map (fun s => (fst (fst s), snd (fst s))) segs) blocks -> NoDup (map fst blocks) ->
  clean (with_blocks t0 segs) ->
  restore (with_placeholders t0 segs) (map (fun ib => (placeholder (fst ib), snd ib)) blocks) = with_blocks t0 segs.
Proof.
  induction blocks as [|[i b] blocks IH]; intros t0 segs P ND Hc.
  - apply Permutation_sym, Permutation_nil in P. apply map_eq_nil in P. subst. reflexivity.
  - assert (Hin : In (i, b) (map (fun s => (fst (fst s), snd (fst s))) segs)) by (eapply Permutation_in; [apply Permutation_sym; exact P|left; reflexivity]).
    apply in_map_iff in Hin as ([[j c] t] & E & Hin). cbn in E. injection E as -> ->. apply in_split in Hin as (segs1 & segs2 & ->).
    assert (P' : Permutation (map (fun s => (fst (fst s), snd (fst s))) (segs1 ++ segs2)) blocks).
    { rewrite map_app in *. cbn [map fst snd] in P. apply (Permutation_app_inv _ _ [] blocks (i, b)). exact P. }
    inversion ND as [|? ? Nin ND']; subst.
    assert (N : forall l, incl l (segs1 ++ segs2) -> ~ In i (map (fun s : nat * str * str => fst (fst s)) l)).
    { intros l Hl C. apply Nin. apply in_map_iff in C as ([[j c] s] & E & Hs). cbn in E. subst j.
      apply in_map_iff. exists (i, c). split; [reflexivity|]. eapply Permutation_in; [exact P'|]. apply in_map_iff. exists (i, c, s). split; [reflexivity|apply Hl; exact Hs]. }
    cbn [map fst snd restore fold_left].
    rewrite restore_one; [|apply N; intros x Hx; apply in_or_app; left; exact Hx|apply N; intros x Hx; apply in_or_app; right; exact Hx|exact Hc].
    pose proof (merge_last_spec segs1 t0 b t segs2) as M. destruct (merge_last t0 segs1 b t segs2) as [t0' segs']. destruct M as (M1 & M2 & M3).
    rewrite <- M1, <- (M2 i). apply IH; [|exact ND'|rewrite (M2 i); exact Hc].
    assert (EM : map (fun s => (fst (fst s), snd (fst s))) segs' = map (fun s => (fst (fst s), snd (fst s))) (segs1 ++ segs2)).
    { rewrite <- (map_map fst (fun p => (fst p, snd p))), M3, map_map. reflexivity. }
    rewrite EM. exact P'.
Qed.
End P.
