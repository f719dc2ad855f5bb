From Coq Require Import List NArith PeanoNat Lia Bool String Permutation.
From Verif Require Import PyStr Regex RegexLemmas RegexLocal RegexHead Json TexUtilsModel DelimSpec DelimFinal TextModel TextSpec TextProofs TextProofs3 TableCases Placeholder PlaceModel PlaceProofs PreModel PreSpec.
Import ListNotations. Notation length := List.length. Notation concat := List.concat. Open Scope list_scope.

(** * Trimming *)
Lemma lstrip_stop : forall a x r, isspace x = false -> lstrip (a ++ x :: r) = lstrip a ++ x :: r.
Proof. induction a as [|y a IH]; intros x r H; cbn [app lstrip]; [rewrite H; reflexivity|]. destruct (isspace y); [apply IH; exact H|reflexivity]. Qed.
Lemma rstrip_stop : forall r x b, isspace x = false -> rstrip (r ++ x :: b) = r ++ x :: rstrip b.
Proof.
  intros r x b H. unfold rstrip. rewrite rev_app_distr. cbn [rev]. rewrite <- app_assoc. cbn [app]. rewrite lstrip_stop by exact H.
  rewrite rev_app_distr. cbn [rev]. rewrite rev_involutive, <- app_assoc. reflexivity.
Qed.
Lemma lstrip_suffix : forall s, exists a, s = a ++ lstrip s.
Proof. intros s. destruct (lead_split s) as (ws & E & _). eauto. Qed.
Lemma rstrip_prefix : forall s, exists a, s = rstrip s ++ a.
Proof. intros s. destruct (trail_split s) as (ws & E & _). eauto. Qed.

(** * Respacing and words *)
Lemma respaced_app : forall a oa, respaced a oa -> forall x b ob, gap_char x = false -> respaced (x :: b) ob -> respaced (a ++ x :: b) (oa ++ ob).
Proof.
  induction 1 as [|y s o Hy R IH|g s o Ne Hg Hs R IH]; intros x b ob Hx Hb.
  - exact Hb.
  - cbn [app]. apply rs_char; [exact Hy|]. apply IH; assumption.
  - rewrite <- app_assoc. cbn [app]. apply rs_gap; [exact Ne|exact Hg| |apply IH; assumption]. destruct s as [|y s]; [exact Hx|exact Hs].
Qed.
Lemma respaced_word : forall u b ob, (forall x, In x u -> gap_char x = false) -> respaced b ob -> respaced (u ++ b) (u ++ ob).
Proof. induction u as [|x u IH]; intros b ob H R; [exact R|]. cbn [app]. apply rs_char; [apply H; left; reflexivity|]. apply IH; [intros; apply H; right; assumption|exact R]. Qed.

Inductive loose : str -> str -> Prop :=
| lo_nil : loose [] []
| lo_char : forall x s o, loose s o -> loose (x :: s) (x :: o)
| lo_gap : forall g c s o, gap_char c = true -> loose s o -> loose (g ++ s) (c :: o).
Lemma loose_refl : forall s, loose s s.
Proof. induction s; constructor; assumption. Qed.
Lemma loose_app : forall a a' b b', loose a a' -> loose b b' -> loose (a ++ b) (a' ++ b').
Proof. induction 1 as [|x s o H IH|g c s o Hc H IH]; intros B; cbn [app]; [exact B|constructor; auto|rewrite <- app_assoc; constructor; auto]. Qed.
Lemma respaced_loose : forall s o, respaced s o -> loose s o.
Proof. induction 1 as [|x s o Hx R IH|g s o Ne Hg Hs R IH]; [constructor|constructor; exact IH|]. apply lo_gap; [destruct (Nat.leb 2 (newlines g)); reflexivity|exact IH]. Qed.
Lemma loose_prefix : forall w, forallb (fun x => negb (gap_char x)) w = true -> forall s q, loose s (w ++ q) -> exists q', s = w ++ q'.
Proof.
  induction w as [|x w IH]; intros H s q L; [exists s; reflexivity|]. cbn [forallb] in H. apply andb_true_iff in H as [Hx H]. cbn [app] in L. inversion L; subst.
  - match goal with X : loose _ (w ++ q) |- _ => destruct (IH H _ _ X) as (q' & ->) end. exists q'. reflexivity.
  - match goal with X : gap_char x = true |- _ => rewrite X in Hx; discriminate end.
Qed.
Lemma loose_occurs : forall w, forallb (fun x => negb (gap_char x)) w = true -> forall s o, loose s o -> occurs w o -> occurs w s.
Proof.
  intros w H. induction 1 as [|x s o L IH|g c s o Hc L IH]; intros O.
  - exact O.
  - apply occurs_cons in O as [(q & E)|O].
    + destruct (loose_prefix w H (x :: s) q) as (q' & E'); [rewrite <- E; constructor; exact L|]. exists [], q'. exact E'.
    + destruct (IH O) as (p & q & ->). exists (x :: p), q. reflexivity.
  - apply occurs_cons in O as [(q & E)|O].
    + destruct (loose_prefix w H (g ++ s) q) as (q' & E'); [rewrite <- E; apply lo_gap; assumption|]. exists [], q'. exact E'.
    + destruct (IH O) as (p & q & ->). exists (g ++ p), q. rewrite <- app_assoc. reflexivity.
Qed.

(** * Placeholders are words *)
Notation wp := (with_placeholders vW vkey).
Lemma vph_head : forall i, exists r, placeholder vW vkey i = 95%N :: 95%N :: r.
Proof. intros i. eexists. reflexivity. Qed.
Lemma vph_last : forall i, exists r, placeholder vW vkey i = r ++ [95%N].
Proof. intros i. exists (vW ++ lit "__" ++ str_of_nat i ++ lit "_"). unfold placeholder, vkey. rewrite <- !app_assoc. reflexivity. Qed.
Definition inner (x : ch) : bool := in_range 65 90 x || isdigit x || N.eqb x 95.
Lemma vph_chars : forall i x, In x (placeholder vW vkey i) -> inner x = true.
Proof.
  intros i x H. unfold placeholder, vkey in H. repeat (apply in_app_or in H as [H|H]).
  2,4: (assert (F : forallb inner (lit "__") = true) by reflexivity; rewrite forallb_forall in F; exact (F x H)).
  - assert (F : forallb inner vW = true) by reflexivity. rewrite forallb_forall in F. exact (F x H).
  - apply num_digit in H. unfold inner. rewrite H, orb_true_r. reflexivity.
Qed.
Lemma inner_gap : forall x, inner x = true -> gap_char x = false.
Proof.
  intros x H. destruct (gap_char x) eqn:G; [|reflexivity]. unfold gap_char in G. apply orb_true_iff in G as [G|G]; [apply orb_true_iff in G as [G|G]|]; apply N.eqb_eq in G; subst x; discriminate H.
Qed.
Lemma wp_snoc : forall l t0 i b t, wp t0 (l ++ [(i, b, t)]) = wp t0 l ++ placeholder vW vkey i ++ t.
Proof. induction l as [|[[j c] s] l IH]; intros t0 i b t; cbn [app with_placeholders]; [reflexivity|]. rewrite IH, <- !app_assoc. reflexivity. Qed.
Lemma wb_snoc : forall l t0 i b t, with_blocks t0 (l ++ [(i, b, t)]) = with_blocks t0 l ++ b ++ t.
Proof. induction l as [|[[j c] s] l IH]; intros t0 i b t; cbn [app with_blocks]; [reflexivity|]. rewrite IH, <- !app_assoc. reflexivity. Qed.
Lemma wp_head : forall l t0 i b t, exists r, forall t1, wp t1 ((i, b, t) :: l) = t1 ++ 95%N :: r /\ wp t0 ((i, b, t) :: l) = t0 ++ 95%N :: r.
Proof. intros l t0 i b t. eexists. intros t1. cbn [with_placeholders]. split; reflexivity. Qed.

(** the marker of the normalisation is in no placeholder *)
Lemma marker_cut : forall a r, occurs marker (a ++ 95%N :: 95%N :: r) -> occurs marker a \/ occurs marker (95%N :: 95%N :: r).
Proof.
  induction a as [|x a IH]; intros r O; [right; exact O|]. cbn [app] in O. apply occurs_cons in O as [(q & E)|O].
  - left. symmetry in E. change (x :: a ++ 95%N :: 95%N :: r) with ((x :: a) ++ 95%N :: 95%N :: r) in E. apply cut_app in E as [(e & E1 & E2)|(e & Ne & E1 & E2)].
    + exists [], e. exact E1.
    + exfalso. destruct e as [|y e]; [congruence|]. cbn [app] in E2. injection E2 as <- E2. destruct e as [|z e].
      * apply (f_equal (@rev ch)) in E1. rewrite rev_app_distr in E1. discriminate E1.
      * cbn [app] in E2. injection E2 as <- E2. assert (C : occurs (lit "__") marker) by (exists (x :: a), e; exact E1).
        revert C. apply not_occurs. vm_compute. reflexivity.
  - destruct (IH r O) as [(p & q & ->)|C]; [left; exists (x :: p), q; reflexivity|right; exact C].
Qed.
Lemma marker_wp : forall segs t0, occurs marker (wp t0 segs) -> occurs marker (with_blocks t0 segs).
Proof.
  induction segs as [|[[i b] t] r IH]; intros t0 O; [exact O|]. cbn [with_placeholders with_blocks] in *.
  destruct (vph_head i) as (h & Eh). rewrite Eh in O. cbn [app] in O. apply marker_cut in O as [O|O]; [apply occurs_app_l; exact O|].
  apply occurs_app_r, occurs_app_r. apply IH. change (95%N :: 95%N :: h ++ wp t r) with ((95%N :: 95%N :: h) ++ wp t r) in O. rewrite <- Eh in O.
  eapply (occurs_head_out 60%N); [|exact O]. intros C. apply vph_chars in C. discriminate C.
Qed.

(** * Step 4 *)
Notation seg := (nat * str * str)%type.
Definition same_blocks (a b : seg) : Prop := fst b = fst a /\ respaced (snd a) (snd b).
Lemma respaced_wp : forall segs segs', Forall2 same_blocks segs segs' -> forall t0 o0, respaced t0 o0 -> respaced (wp t0 segs) (wp o0 segs').
Proof.
  induction 1 as [|[[i b] t] [[i' b'] t'] segs segs' [E R] F IH]; intros t0 o0 R0; [exact R0|]. cbn [fst snd] in E, R. injection E as -> ->. cbn [with_placeholders].
  assert (W : respaced (placeholder vW vkey i ++ wp t segs) (placeholder vW vkey i ++ wp t' segs')) by (apply respaced_word; [intros x Hx; eapply inner_gap, vph_chars; exact Hx|apply IH; exact R]).
  destruct (vph_head i) as (h & Eh). rewrite Eh in *. cbn [app] in *. apply respaced_app; [exact R0|reflexivity|exact W].
Qed.
Lemma respaced_segs : forall segs : list seg, exists segs', Forall2 same_blocks segs segs'.
Proof.
  induction segs as [|[[i b] t] segs (segs' & IH)]; [exists []; constructor|]. destruct (respaced_total t) as (o & R). exists ((i, b, o) :: segs'). constructor; [split; [reflexivity|exact R]|exact IH].
Qed.
Lemma loose_wb : forall segs segs', Forall2 same_blocks segs segs' -> forall t0 o0, respaced t0 o0 -> loose (with_blocks t0 segs) (with_blocks o0 segs').
Proof.
  induction 1 as [|[[i b] t] [[i' b'] t'] segs segs' [E R] F IH]; intros t0 o0 R0; [apply respaced_loose; exact R0|]. cbn [fst snd] in E, R. injection E as -> ->. cbn [with_blocks].
  apply loose_app; [apply respaced_loose; exact R0|]. apply loose_app; [apply loose_refl|apply IH; exact R].
Qed.
Definition layout_of (t0 : str) (segs : list seg) : layout := (t0, map (fun s => (snd (fst s), snd s)) segs).
Lemma written_layout : forall segs t0, written (layout_of t0 segs) = with_blocks t0 segs.
Proof.
  induction segs as [|[[i b] t] r IH]; intros t0; unfold written, layout_of; cbn [map fst snd concat with_blocks]; [apply app_nil_r|].
  rewrite <- app_assoc. f_equal. f_equal. rewrite <- IH. reflexivity.
Qed.
Lemma same_layout : forall segs segs' t0 o0, respaced t0 o0 -> Forall2 same_blocks segs segs' -> respaced_between (layout_of t0 segs) (layout_of o0 segs').
Proof.
  intros segs segs' t0 o0 R F. constructor; [exact R|]. induction F as [|[[i b] t] [[i' b'] t'] segs segs' [E Rs] F IH]; cbn [map]; [constructor|]. constructor; [|exact IH].
  cbn [fst snd] in *. injection E as _ ->. split; [reflexivity|exact Rs].
Qed.
Lemma trim_wp : forall o0 segs, exists o0' segs', strip (wp o0 segs) = wp o0' segs' /\ map fst segs' = map fst segs /\
  trimmed_between (layout_of o0 segs) (layout_of o0' segs') /\ (exists a b, with_blocks o0 segs = a ++ with_blocks o0' segs' ++ b).
Proof.
  intros o0 segs. destruct segs as [|s segs] using rev_ind.
  - exists (strip o0), []. split; [reflexivity|]. split; [reflexivity|]. split; [constructor|]. destruct (strip_split o0) as (a & b & E & _). exists a, b. exact E.
  - clear IHsegs. destruct s as [[i b] t]. exists (lstrip o0), (segs ++ [(i, b, rstrip t)]). repeat split.
    + unfold strip. assert (L : lstrip (wp o0 (segs ++ [(i, b, t)])) = wp (lstrip o0) (segs ++ [(i, b, t)])).
      { assert (H : exists j c s l, segs ++ [(i, b, t)] = (j, c, s) :: l) by (destruct segs as [|[[j c] s] l]; cbn [app]; eauto). destruct H as (j & c & s & l & H). rewrite H.
        destruct (wp_head l o0 j c s) as (r & Hr). destruct (Hr (lstrip o0)) as [H1 H2]. rewrite H1, H2. apply lstrip_stop. reflexivity. }
      rewrite L, !wp_snoc. destruct (vph_last i) as (p & Ep). rewrite Ep, <- !app_assoc. cbn [app]. rewrite app_assoc, rstrip_stop by reflexivity. rewrite <- app_assoc. reflexivity.
    + rewrite !map_app. reflexivity.
    + unfold layout_of. rewrite !map_app. cbn [map fst snd]. apply tb_some.
    + rewrite !wb_snoc. destruct (lstrip_suffix o0) as (a & Ea). destruct (rstrip_prefix t) as (z & Ez). exists a, z.
      assert (H : with_blocks o0 segs = a ++ with_blocks (lstrip o0) segs) by (destruct segs as [|[[j c] s] l]; cbn [with_blocks]; [exact Ea|rewrite Ea at 1; rewrite <- !app_assoc; reflexivity]).
      rewrite H. rewrite Ez at 1. rewrite <- !app_assoc. reflexivity.
Qed.

Lemma step4_core : forall content t0 segs, ~ occurs (lit "VERBATIM_BLOCK") content -> ~ occurs (lit "<PARA_BREAK>") content ->
  extract_verbatim_blocks content = (wp t0 segs, map (fun s => (verbatim_key (fst (fst s)), snd (fst s))) segs) -> with_blocks t0 segs = content -> keys_from 0 segs ->
  exists m o, respaced_between (layout_of t0 segs) m /\ trimmed_between m o /\ normalize_outside_verbatim content = written o.
Proof.
  intros content t0 segs Hv Hp Eq Hb Hk. destruct (respaced_total t0) as (o0 & R0). destruct (respaced_segs segs) as (segs' & F).
  destruct (trim_wp o0 segs') as (o1 & segs1 & Et & Em & Tb & (a & z & Ew)).
  exists (layout_of o0 segs'), (layout_of o1 segs1).
  assert (Nm : normalize_whitespace_and_lines (wp t0 segs) = wp o1 segs1).
  { rewrite <- Et. apply normalize_exact; [intros C; apply Hp; rewrite <- Hb; apply marker_wp; exact C|apply respaced_wp; assumption]. }
  assert (Ef : map fst segs' = map fst segs).
  { clear -F. induction F as [|x y l m [E _] F IH]; [reflexivity|]. cbn [map]. rewrite E, IH. reflexivity. }
  unfold normalize_outside_verbatim. rewrite Eq. split; [|split].
  - apply same_layout; assumption.
  - exact Tb.
  - rewrite Nm, written_layout.
    assert (B : map (fun s : seg => (verbatim_key (fst (fst s)), snd (fst s))) segs = map (fun ib : nat * str => (verbatim_key (fst ib), snd ib)) (map (fun s : seg => (fst (fst s), snd (fst s))) segs1)).
    { rewrite map_map. cbn [fst snd]. rewrite <- (map_map fst (fun p => (verbatim_key (fst p), snd p)) segs), <- (map_map fst (fun p => (verbatim_key (fst p), snd p)) segs1). rewrite Em, Ef. reflexivity. }
    rewrite B. apply verbatim_restore.
    + intros C. apply Hv. rewrite <- Hb. apply (loose_occurs (lit "VERBATIM_BLOCK") eq_refl _ _ (loose_wb _ _ F _ _ R0)). rewrite Ew. apply occurs_app_r, occurs_app_l. exact C.
    + rewrite <- (map_map fst fst), Em, Ef, map_map. rewrite (keys_from_seq segs 0 Hk). apply seq_NoDup.
    + apply Permutation_refl.
Qed.
Lemma step4 : forall content, ~ occurs (lit "VERBATIM_BLOCK") content -> ~ occurs (lit "<PARA_BREAK>") content ->
  exists l m o, written l = content /\ map fst (snd l) = map snd (snd (extract_verbatim_blocks content)) /\
    respaced_between l m /\ trimmed_between m o /\ normalize_outside_verbatim content = written o.
Proof.
  intros content Hv Hp. destruct (verbatim_segs ALL_VERBATIM_PATTERNS content all_good (S (length content)) 0 0 ltac:(lia) ltac:(lia)) as (t0 & segs & Eq & Hb & Hk).
  cbn [skipn] in Hb. destruct (step4_core content t0 segs Hv Hp Eq Hb Hk) as (m & o & H). exists (layout_of t0 segs), m, o. split; [rewrite written_layout; exact Hb|]. split; [|exact H].
  unfold extract_verbatim_blocks. rewrite Eq. unfold layout_of. cbn [snd]. rewrite !map_map. reflexivity.
Qed.
