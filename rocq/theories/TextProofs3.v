(** normalize_whitespace_and_lines: the exact result. *)
From Coq Require Import List NArith PeanoNat Lia Bool String.
From Verif Require Import PyStr Regex RegexLemmas RegexLocal RegexHead DelimSpec DelimFinal TextModel TextSpec TextProofs EqProofs CommandProofs7.
Import ListNotations.
Notation length := List.length.
Notation concat := List.concat.
Open Scope list_scope.

Definition st (x : ch) : bool := N.eqb x c_sp || N.eqb x c_tab.
Lemma st_gap : forall x, st x = true -> gap_char x = true.
Proof. intros x H. unfold gap_char. unfold st in H. rewrite H. reflexivity. Qed.
Lemma gap_st : forall x, gap_char x = true -> x = c_nl \/ st x = true.
Proof. intros x H. unfold gap_char in H. apply orb_true_iff in H as [H|H]; [right; exact H|left; apply N.eqb_eq; exact H]. Qed.
Lemma st_nl : st c_nl = false. Proof. reflexivity. Qed.
Lemma span : forall g, forallb gap_char g = true -> exists b g', g = b ++ g' /\ forallb st b = true /\ (g' = [] \/ exists g2, g' = c_nl :: g2).
Proof.
  induction g as [|x g IH]; intros H; [exists [], []; auto|]. cbn [forallb] in H. apply andb_true_iff in H as [H1 H2].
  apply gap_st in H1 as [->|H1]; [exists [], (c_nl :: g); split; [reflexivity|]; split; [reflexivity|]; right; eauto|].
  destruct (IH H2) as (b & g' & -> & B & C). exists (x :: b), g'. split; [reflexivity|]. split; [cbn [forallb]; rewrite H1; exact B|exact C].
Qed.
Lemma nls_app : forall a b, newlines (a ++ b) = newlines a + newlines b.
Proof. intros. unfold newlines. rewrite filter_app, app_length. reflexivity. Qed.
Lemma nls_st : forall b, forallb st b = true -> newlines b = 0.
Proof.
  induction b as [|x b IH]; intros H; [reflexivity|]. cbn [forallb] in H. apply andb_true_iff in H as [H1 H2]. unfold newlines in *. cbn [filter].
  destruct (N.eqb c_nl x) eqn:E; [apply N.eqb_eq in E; subst x; discriminate|apply IH; exact H2].
Qed.
Lemma nls_zero : forall g, forallb gap_char g = true -> newlines g = 0 -> forallb st g = true.
Proof.
  induction g as [|x g IH]; intros H Z; [reflexivity|]. cbn [forallb] in *. apply andb_true_iff in H as [H1 H2]. unfold newlines in *. cbn [filter] in Z.
  apply gap_st in H1 as [->|H1]; [discriminate Z|]. rewrite H1. apply IH; [exact H2|]. destruct (N.eqb c_nl x); [discriminate Z|exact Z].
Qed.
Lemma not_st : forall r, starts_gap r = false -> (match r with x :: _ => st x | [] => false end) = false.
Proof. intros [|x r] H; [reflexivity|]. cbn [starts_gap] in H. destruct (st x) eqn:E; [apply st_gap in E; congruence|reflexivity]. Qed.

(** * what the patterns read *)
Lemma newline_rel : forall t i j, rel newline_pattern t i j -> exists u, skipn i t = u ++ skipn j t /\ forallb gap_char u = true /\ newlines u = 1.
Proof.
  intros t i j R. unfold newline_pattern, sptab in R.
  apply rel_rseq2 in R as (k1 & R1 & R). apply rel_star_chr in R1 as (a & r1 & E1 & A & ->).
  apply rel_rseq2 in R as (k2 & R2 & R3). apply rel_is_ch in R2 as (-> & r2 & E2). apply rel_star_chr in R3 as (b & r3 & E3 & B & ->).
  assert (X1 : skipn (i + length a) t = r1) by (apply skipn_more; exact E1). rewrite X1 in E2.
  assert (X2 : skipn (S (i + length a)) t = r2) by (eapply skipn_more1; rewrite X1; exact E2). rewrite X2 in E3.
  exists (a ++ c_nl :: b). split; [|split].
  - assert (X3 : skipn (S (i + length a) + length b) t = r3) by (apply skipn_more; rewrite X2; exact E3). rewrite X3, E1, E2, E3, <- app_assoc. reflexivity.
  - rewrite forallb_app. cbn [forallb]. rewrite !andb_true_iff. split; [|split; [reflexivity|]]; rewrite forallb_forall in *; intros x I; apply st_gap; [apply A|apply B]; exact I.
  - rewrite nls_app. change (c_nl :: b) with ([c_nl] ++ b). rewrite nls_app, (nls_st a A), (nls_st b B). reflexivity.
Qed.
Lemma para_rel : forall t i j, rel para_pattern t i j -> exists u, skipn i t = u ++ skipn j t /\ forallb gap_char u = true /\ 2 <= newlines u.
Proof.
  intros t i j R. unfold para_pattern in R. apply rel_rseq2 in R as (k1 & R1 & R). apply rel_rseq2 in R as (k2 & R2 & R).
  apply newline_rel in R1 as (u1 & E1 & G1 & N1). apply newline_rel in R2 as (u2 & E2 & G2 & N2).
  assert (S : exists u3, skipn k2 t = u3 ++ skipn j t /\ forallb gap_char u3 = true).
  { remember (rstar newline_pattern) as r eqn:Er. clear - R Er. induction R; try discriminate.
    - exists []. split; reflexivity.
    - injection Er as -> ->. apply newline_rel in R1 as (u & E & G & _). destruct (IHR2 eq_refl) as (u' & E' & G'). exists (u ++ u'). split; [rewrite E, E', app_assoc; reflexivity|].
      rewrite forallb_app, G, G'. reflexivity. }
  destruct S as (u3 & E3 & G3). exists (u1 ++ u2 ++ u3). split; [rewrite E1, E2, E3, <- !app_assoc; reflexivity|].
  split; [rewrite !forallb_app, G1, G2, G3; reflexivity|]. rewrite !nls_app. lia.
Qed.
Lemma gap_prefix : forall u v g r, u ++ v = g ++ r -> forallb gap_char u = true -> starts_gap r = false -> exists g', g = u ++ g'.
Proof.
  induction u as [|x u IH]; intros v g r E U R; [exists g; reflexivity|]. destruct g as [|y g].
  - cbn [List.app] in E. subst r. cbn [starts_gap List.app] in R. cbn [forallb] in U. rewrite R in U. discriminate U.
  - injection E as -> E. cbn [forallb] in U. apply andb_true_iff in U as [_ U]. destruct (IH v g r E U R) as (g' & ->). exists g'. reflexivity.
Qed.
Lemma para_none : forall g r, forallb gap_char g = true -> newlines g < 2 -> starts_gap r = false -> mlen para_pattern (g ++ r) = None.
Proof.
  intros g r G N R. apply mlen_none_rel. intros j H. apply para_rel in H as (u & E & U & K). cbn [skipn] in E.
  destruct (gap_prefix u _ g r (eq_sym E) U R) as (g' & ->). rewrite nls_app in N. lia.
Qed.
Lemma newline_none : forall g r, forallb st g = true -> starts_gap r = false -> mlen newline_pattern (g ++ r) = None.
Proof.
  intros g r G R. apply mlen_none_rel. intros j H. apply newline_rel in H as (u & E & U & K). cbn [skipn] in E.
  destruct (gap_prefix u _ g r (eq_sym E) U R) as (g' & ->). apply nls_st in G. rewrite nls_app in G. lia.
Qed.

(** * the whole run is taken *)
Lemma fm_newline : forall t i a b r, skipn i t = a ++ c_nl :: b ++ r -> forallb st a = true -> forallb st b = true -> (match r with x :: _ => st x | [] => false end) = false ->
  forall c, first_match newline_pattern t i c (i + length (a ++ c_nl :: b)) c.
Proof.
  intros t i a b r E A B R c. unfold newline_pattern, sptab.
  replace (i + length (a ++ c_nl :: b)) with (S (i + length a) + length b) by (rewrite app_length; cbn [List.length]; lia).
  eapply fm_seq; [eapply fm_star; [exact E|exact A|reflexivity]|]. apply skipn_more in E.
  eapply fm_seq; [eapply fm_is_ch; exact E|]. apply skipn_more1 in E. eapply fm_star; [exact E|exact B|exact R].
Qed.
Lemma rm_empty : forall r t i, (forall j, ~ rel r t i j) -> i <= length t -> forall c, rm r t i c = [].
Proof.
  intros r t i H L c. destruct (rm r t i c) as [|[j c'] l] eqn:E; [reflexivity|]. exfalso. apply (H j). eapply rm_sound; [|rewrite E; left; reflexivity]. exact L.
Qed.
Lemma newline_steps : forall n g t i r, length g <= n -> skipn i t = g ++ r -> i <= length t -> forallb gap_char g = true -> (g = [] \/ exists g2, g = c_nl :: g2) -> starts_gap r = false ->
  star_steps newline_pattern t i (i + length g).
Proof.
  induction n as [|n IH]; intros g t i r L E B G D R.
  - destruct g; [|cbn in L; lia]. cbn [List.length]. rewrite Nat.add_0_r. apply ss_stop; [exact B|]. apply rm_empty; [|exact B].
    intros j H. apply newline_rel in H as (u & E' & U & K). rewrite E in E'. cbn [List.app] in E'. destruct (gap_prefix u _ [] r (eq_sym E') U R) as (g' & X). destruct u; [discriminate K|discriminate X].
  - destruct D as [->|(g2 & ->)].
    + apply (IH [] t i r); auto. cbn. lia.
    + cbn [forallb] in G. apply andb_true_iff in G as [_ G]. destruct (span g2 G) as (b & g' & -> & Bb & D).
      assert (E' : skipn i t = [] ++ c_nl :: b ++ (g' ++ r)) by (rewrite E; cbn [List.app]; rewrite <- app_assoc; reflexivity).
      assert (Q : (match g' ++ r with x :: _ => st x | [] => false end) = false) by (destruct D as [->|(g3 & ->)]; [apply not_st; exact R|reflexivity]).
      eapply ss_step with (j := i + length ([] ++ c_nl :: b)); [cbn; lia|intros c; eapply fm_newline; [exact E'|reflexivity|exact Bb|exact Q]|].
      replace (i + length (c_nl :: b ++ g')) with (i + length ([] ++ c_nl :: b) + length g') by (cbn [List.app List.length]; rewrite app_length; lia).
      apply (IH g' t _ r).
      * cbn [List.length] in L. rewrite app_length in L. lia.
      * apply skipn_more. rewrite E'. cbn [List.app]. reflexivity.
      * pose proof (skipn_length i t) as X. rewrite E in X. cbn [List.app List.length] in X |- *. rewrite !app_length in X. lia.
      * rewrite forallb_app in G. apply andb_true_iff in G as [_ G]. exact G.
      * exact D.
      * exact R.
Qed.
Lemma fm_mlen : forall r s j c, first_match r s 0 [] j c -> mlen r s = Some j.
Proof. intros r s j c (l & E). unfold mlen. rewrite E. reflexivity. Qed.
Lemma para_some : forall g r, forallb gap_char g = true -> 2 <= newlines g -> starts_gap r = false -> mlen para_pattern (g ++ r) = Some (length g).
Proof.
  intros g r G N R. destruct (span g G) as (a & g1 & -> & A & [->|(g2 & ->)]); [rewrite app_nil_r, (nls_st a A) in N; lia|].
  rewrite forallb_app in G. apply andb_true_iff in G as [_ G]. cbn [forallb] in G. apply andb_true_iff in G as [_ G]. destruct (span g2 G) as (b & g3 & -> & B & [->|(g4 & ->)]).
  { rewrite nls_app, (nls_st a A), app_nil_r in N. change (c_nl :: b) with ([c_nl] ++ b) in N. rewrite nls_app, (nls_st b B) in N. change (newlines [c_nl]) with 1 in N. lia. }
  rewrite forallb_app in G. apply andb_true_iff in G as [_ G]. cbn [forallb] in G. apply andb_true_iff in G as [_ G]. destruct (span g4 G) as (b2 & g5 & -> & B2 & D).
  rewrite forallb_app in G. apply andb_true_iff in G as [_ G].
  set (t := (a ++ c_nl :: b ++ c_nl :: b2 ++ g5) ++ r).
  assert (E0 : skipn 0 t = a ++ c_nl :: b ++ (c_nl :: b2 ++ g5 ++ r)) by (unfold t; cbn [skipn]; repeat (rewrite <- app_assoc || rewrite <- app_comm_cons); reflexivity).
  assert (E1 : skipn (0 + length (a ++ c_nl :: b)) t = [] ++ c_nl :: b2 ++ (g5 ++ r)).
  { apply skipn_more. rewrite E0. repeat (rewrite <- app_assoc || rewrite <- app_comm_cons). reflexivity. }
  assert (E2 : skipn (0 + length (a ++ c_nl :: b) + length ([] ++ c_nl :: b2)) t = g5 ++ r).
  { apply skipn_more. rewrite E1. cbn [List.app]. reflexivity. }
  assert (Q : (match g5 ++ r with x :: _ => st x | [] => false end) = false) by (destruct D as [->|(g6 & ->)]; [apply not_st; exact R|reflexivity]).
  eapply fm_mlen. unfold para_pattern.
  replace (length (a ++ c_nl :: b ++ c_nl :: b2 ++ g5)) with (0 + length (a ++ c_nl :: b) + length ([] ++ c_nl :: b2) + length g5) by (repeat (rewrite app_length || cbn [List.length List.app]); lia).
  eapply fm_seq; [eapply fm_newline; [exact E0|exact A|exact B|reflexivity]|].
  eapply fm_seq; [eapply fm_newline; [exact E1|reflexivity|exact B2|exact Q]|].
  apply fm_star_steps. eapply (newline_steps (length g5)); [lia|exact E2| |exact G|exact D|exact R].
  unfold t. repeat (rewrite app_length || cbn [List.length List.app]). lia.
Qed.
Lemma newline_some : forall g r, forallb gap_char g = true -> newlines g = 1 -> starts_gap r = false -> mlen newline_pattern (g ++ r) = Some (length g).
Proof.
  intros g r G N R. destruct (span g G) as (a & g1 & -> & A & [->|(g2 & ->)]); [rewrite app_nil_r, (nls_st a A) in N; lia|].
  rewrite forallb_app in G. apply andb_true_iff in G as [_ G]. cbn [forallb] in G. apply andb_true_iff in G as [_ G].
  assert (B : forallb st g2 = true). { apply nls_zero; [exact G|]. rewrite nls_app, (nls_st a A) in N. change (c_nl :: g2) with ([c_nl] ++ g2) in N. rewrite nls_app in N. change (newlines [c_nl]) with 1 in N. lia. }
  eapply fm_mlen. apply (fm_newline _ 0 a g2 r); [cbn [skipn]; rewrite <- app_assoc; reflexivity|exact A|exact B|apply not_st; exact R].
Qed.

(** * the text as characters and runs *)
Inductive piece := PC (x : ch) | PG (g : str) | PM.
Definition pren (p : piece) : str := match p with PC x => [x] | PG g => g | PM => marker end.
Definition prender (l : list piece) : str := concat (map pren l).
Fixpoint pok (l : list piece) : Prop :=
  match l with
  | [] => True
  | PC x :: r => gap_char x = false /\ pok r
  | PG g :: r => g <> [] /\ forallb gap_char g = true /\ starts_gap (prender r) = false /\ pok r
  | PM :: r => pok r
  end.
Lemma prender_cons : forall p l, prender (p :: l) = pren p ++ prender l. Proof. reflexivity. Qed.
Definition pmap (f : str -> piece) (l : list piece) : list piece := map (fun p => match p with PG g => f g | _ => p end) l.

(** a pass that works on runs *)
Lemma skip_chars : forall r w u s o, (forall x v, gap_char x = false -> mlen r (x :: v) = None) -> (forall x, In x u -> gap_char x = false) -> subs_to r w s o -> subs_to r w (u ++ s) (u ++ o).
Proof.
  intros r w u s o H U S. induction u as [|x u IH]; [exact S|]. cbn [List.app]. apply st_copy; [apply H; apply U; left; reflexivity|apply IH]. intros y I. apply U. right. exact I.
Qed.
Lemma marker_no_gap : forall x, In x marker -> gap_char x = false.
Proof. intros x I. vm_compute in I. repeat (destruct I as [<-|I]; [reflexivity|]). destruct I. Qed.
Lemma pass : forall r w f, (forall x v, gap_char x = false -> mlen r (x :: v) = None) ->
  forall l, pok l -> (forall g, In (PG g) l -> forall s, starts_gap s = false ->
     (pren (f g) = w /\ mlen r (g ++ s) = Some (length g)) \/ (f g = PG g /\ forall a b, g = a ++ b -> b <> [] -> mlen r (b ++ s) = None)) ->
  subs_to r w (prender l) (prender (pmap f l)).
Proof.
  intros r w f H. induction l as [|p l IH]; intros O F; [constructor|]. cbn [pmap map]. fold (pmap f l). rewrite !prender_cons. destruct p as [x|g|]; cbn [pok] in O.
  - destruct O as [O1 O2]. cbn [pren List.app]. apply st_copy; [apply H; exact O1|]. apply IH; [exact O2|]. intros g I. apply F. right. exact I.
  - destruct O as (O1 & O2 & O3 & O4). assert (S := IH O4 ltac:(intros g' I; apply F; right; exact I)).
    destruct (F g (or_introl eq_refl) (prender l) O3) as [[E M]|[E M]].
    + rewrite E. eapply st_match; [|exact M| |].
      * cbn [pren]. destruct g; [congruence|discriminate].
      * rewrite app_length. destruct g; [congruence|cbn; lia].
      * cbn [pren]. rewrite skipn_app_exact by reflexivity. exact S.
    + rewrite E. cbn [pren]. clear - M S.
      assert (K : forall b a, g = a ++ b -> subs_to r w (b ++ prender l) (b ++ prender (pmap f l))).
      { induction b as [|x b IHb]; intros a Ea; [exact S|]. cbn [List.app]. apply st_copy; [apply (M a (x :: b) Ea); discriminate|]. apply (IHb (a ++ [x])). rewrite Ea, <- app_assoc. reflexivity. }
      apply (K g []). reflexivity.
  - cbn [pren]. apply skip_chars; [exact H|exact marker_no_gap|]. apply IH; [exact O|]. intros g I. apply F. right. exact I.
Qed.
Lemma head_none : forall r, 0 < minlen r -> (forall t i j, rel r t i j -> exists u, skipn i t = u ++ skipn j t /\ forallb gap_char u = true) -> forall x v, gap_char x = false -> mlen r (x :: v) = None.
Proof.
  intros r Hm Hr x v Hx. apply mlen_none_rel. intros j R. destruct (Hr _ _ _ R) as (u & E & U). apply minlen_ok in R as L. cbn [skipn] in E. destruct u as [|y u].
  - cbn [List.app] in E. assert (length (x :: v) = length (skipn j (x :: v))) by (rewrite <- E; reflexivity). rewrite skipn_length in H. cbn [List.length] in H. lia.
  - injection E as <- _. cbn [forallb] in U. rewrite Hx in U. discriminate U.
Qed.

Definition f1 (g : str) : piece := if Nat.leb 2 (newlines g) then PM else PG g.
Definition f2 (g : str) : piece := if Nat.eqb (newlines g) 1 then PG [c_sp] else PG g.
Definition f3 (g : str) : piece := PG [c_sp].
Lemma starts_pmap : forall f l, (forall g, In (PG g) l -> exists g', (f g = PG g' /\ starts_gap g' = true) \/ f g = PM) -> (forall g, In (PG g) l -> g <> [] /\ forallb gap_char g = true) ->
  starts_gap (prender l) = false -> starts_gap (prender (pmap f l)) = false.
Proof.
  intros f [|p l] F O H; [reflexivity|]. cbn [pmap map]. rewrite prender_cons in H |- *. destruct p as [x|g|]; [exact H| |reflexivity].
  exfalso. destruct (O g (or_introl eq_refl)) as [Gn G]. destruct g as [|x g]; [congruence|]. cbn [pren List.app starts_gap] in H. cbn [forallb] in G. rewrite H in G. discriminate G.
Qed.
Lemma pok_in : forall l, pok l -> forall g, In (PG g) l -> g <> [] /\ forallb gap_char g = true.
Proof.
  induction l as [|p l IH]; intros O g I; [destruct I|]. destruct p as [x|g'|]; cbn [pok] in O; destruct I as [I|I]; try discriminate.
  - apply IH; [apply O|exact I].
  - injection I as ->. split; apply O.
  - apply IH; [apply O|exact I].
  - apply IH; [exact O|exact I].
Qed.
Lemma pok_pmap : forall f l, (forall g, In (PG g) l -> (exists g', f g = PG g' /\ g' <> [] /\ forallb gap_char g' = true) \/ f g = PM) -> pok l -> pok (pmap f l).
Proof.
  intros f. induction l as [|p l IH]; intros F O; [exact I|].
  assert (F' : forall g, In (PG g) l -> (exists g', f g = PG g' /\ g' <> [] /\ forallb gap_char g' = true) \/ f g = PM) by (intros g J; apply F; right; exact J).
  cbn [pmap map]. fold (pmap f l). destruct p as [x|g|]; cbn [pok] in O |- *.
  - split; [apply O|apply IH; [exact F'|apply O]].
  - destruct O as (O1 & O2 & O3 & O4).
    assert (S : starts_gap (prender (pmap f l)) = false).
    { apply starts_pmap; [|apply pok_in; exact O4|exact O3]. intros g0 J. destruct (F' g0 J) as [(g' & E & N & G)|E]; [exists g'; left; split; [exact E|]|exists []; right; exact E].
      destruct g' as [|y g']; [congruence|]. cbn [forallb] in G. apply andb_true_iff in G as [G _]. exact G. }
    destruct (F g (or_introl eq_refl)) as [(g' & -> & N & G)| ->]; cbn [pok]; [|apply IH; assumption]. split; [exact N|]. split; [exact G|]. split; [exact S|apply IH; assumption].
  - apply IH; assumption.
Qed.
Lemma in_pmap : forall f l g, In (PG g) (pmap f l) -> exists g0, In (PG g0) l /\ f g0 = PG g.
Proof.
  intros f l g I. unfold pmap in I. apply in_map_iff in I as (p & E & I). destruct p as [x|g0|]; try discriminate. exists g0. auto.
Qed.

(** the pieces of a text *)
Fixpoint no_pm (l : list piece) : Prop := match l with [] => True | PM :: _ => False | _ :: r => no_pm r end.
Definition final (p : piece) : str := match p with PC x => [x] | PG g => [if Nat.leb 2 (newlines g) then c_nl else c_sp] | PM => [] end.
Lemma respaced_pieces : forall t o, respaced t o -> exists l, pok l /\ no_pm l /\ prender l = t /\ concat (map final l) = o.
Proof.
  intros t o H. induction H as [|x s o Hx H (l & O & N & E & F)|g s o Gn G S H (l & O & N & E & F)].
  - exists []. repeat split.
  - exists (PC x :: l). cbn [pok no_pm]. rewrite prender_cons, E. cbn [map concat final]. rewrite F. auto.
  - exists (PG g :: l). cbn [pok no_pm]. rewrite prender_cons, E. cbn [map concat final]. rewrite F. auto 6.
Qed.
Definition toks (p : piece) : list tok := match p with PC x => [Some x] | PG g => [Some c_sp] | PM => [None] end.
Lemma ren_toks : forall b l, (forall g, In (PG g) l -> g = [c_sp]) -> ren b (concat (map toks l)) = concat (map (fun p => match p with PM => b | _ => pren p end) l).
Proof.
  intros b. induction l as [|p l IH]; intros H; [reflexivity|]. cbn [map concat]. rewrite ren_app, IH by (intros g I; apply H; right; exact I). f_equal.
  destruct p as [x|g|]; [reflexivity|rewrite (H g) by (left; reflexivity); reflexivity|]. unfold ren. cbn. apply app_nil_r.
Qed.
Lemma toks_one : forall x, exists y, toks x = [y]. Proof. destruct x; eexists; reflexivity. Qed.
Lemma toks_head : forall u l q, ~ In c_sp u -> concat (map toks l) = map Some u ++ q -> exists l2, l = map PC u ++ l2.
Proof.
  induction u as [|v u IH]; intros l q Hu E; [exists l; reflexivity|]. destruct l as [|x l]; [discriminate E|]. cbn [map concat] in E.
  destruct x as [x|g|]; cbn [toks List.app] in E.
  - injection E as -> E. destruct (IH l q) as (l2 & ->); [intros I; apply Hu; right; exact I|exact E|]. exists l2. reflexivity.
  - injection E as E _. subst v. exfalso. apply Hu. left. reflexivity.
  - discriminate E.
Qed.
Lemma toks_occurs : forall u l p q, ~ In c_sp u -> concat (map toks l) = p ++ map Some u ++ q -> exists l1 l2, l = l1 ++ map PC u ++ l2.
Proof.
  intros u l p. revert l. induction p as [|y p IH]; intros l q Hu E.
  - destruct (toks_head u l q Hu E) as (l2 & ->). exists [], l2. reflexivity.
  - destruct l as [|x l]; [discriminate E|]. cbn [map concat] in E. destruct (toks_one x) as (z & T). rewrite T in E. injection E as _ E.
    destruct (IH l q Hu E) as (l1 & l2 & ->). exists (x :: l1), l2. reflexivity.
Qed.
Lemma pmap_chars : forall f u l l1 l2, (forall g x, f g <> PC x) -> pmap f l = l1 ++ map PC u ++ l2 -> exists m1 m2, l = m1 ++ map PC u ++ m2.
Proof.
  intros f u l l1 l2 F E. unfold pmap in E. revert l E. induction l1 as [|y l1 IH]; intros l E.
  - cbn [List.app] in E. assert (X : exists m2, l = map PC u ++ m2).
    { revert l E. induction u as [|v u IHu]; intros l E; [exists l; reflexivity|]. destruct l as [|p l]; [discriminate E|]. cbn [map List.app] in E. injection E as E1 E2.
      destruct (IHu l E2) as (m2 & ->). exists m2. destruct p as [x|g|]; [rewrite E1; reflexivity|exfalso; exact (F _ _ E1)|discriminate E1]. }
    destruct X as (m2 & ->). exists [], m2. reflexivity.
  - destruct l as [|p l]; [discriminate E|]. cbn [map List.app] in E. injection E as _ E. destruct (IH l E) as (m1 & m2 & ->). exists (p :: m1), m2. reflexivity.
Qed.
Lemma prender_chars : forall m1 u m2, prender (m1 ++ map PC u ++ m2) = prender m1 ++ u ++ prender m2.
Proof.
  intros m1 u m2. unfold prender. rewrite !map_app, !concat_app. f_equal. f_equal. rewrite map_map. cbn [pren]. induction u as [|v u IH]; [reflexivity|]. cbn. rewrite IH. reflexivity.
Qed.

Lemma normalize_exact : forall text o, ~ occurs marker text -> respaced text o -> normalize_whitespace_and_lines text = strip o.
Proof.
  intros text o Hno H. destruct (respaced_pieces text o H) as (l & O & N & E & F). unfold normalize_whitespace_and_lines. cbv zeta. f_equal.
  set (l1 := pmap f1 l). set (l2 := pmap f2 l1). set (l3 := pmap f3 l2).
  assert (P1 : re_sub para_pattern (fun _ => marker) text = prender l1).
  { eapply subs_to_fun; [apply re_sub_subs_to; [reflexivity|cbn; lia]|]. rewrite <- E. apply pass; [|exact O|].
    - apply head_none; [cbn; lia|]. intros t i j R. apply para_rel in R as (u & A & B & _). eauto.
    - intros g I s S. destruct (pok_in l O g I) as [Gn G]. unfold f1. destruct (Nat.leb 2 (newlines g)) eqn:L.
      + left. split; [reflexivity|]. apply para_some; [exact G|apply Nat.leb_le; exact L|exact S].
      + right. split; [reflexivity|]. intros a b -> _. apply Nat.leb_gt in L. rewrite nls_app in L. rewrite forallb_app in G. apply andb_true_iff in G as [_ G].
        apply para_none; [exact G|lia|exact S]. }
  assert (O1 : pok l1).
  { apply pok_pmap; [|exact O]. intros g I. unfold f1. destruct (pok_in l O g I) as [Gn G]. destruct (Nat.leb 2 (newlines g)); [right; reflexivity|left; exists g; auto]. }
  assert (S1 : forall g, In (PG g) l1 -> newlines g <= 1).
  { intros g I. apply in_pmap in I as (g0 & I & X). unfold f1 in X. destruct (Nat.leb 2 (newlines g0)) eqn:L; [discriminate X|]. injection X as ->. apply Nat.leb_gt in L. lia. }
  assert (P2 : re_sub newline_pattern (fun _ => [c_sp]) (prender l1) = prender l2).
  { eapply subs_to_fun; [apply re_sub_subs_to; [reflexivity|cbn; lia]|]. apply pass; [|exact O1|].
    - apply head_none; [cbn; lia|]. intros t i j R. apply newline_rel in R as (u & A & B & _). eauto.
    - intros g I s S. destruct (pok_in l1 O1 g I) as [Gn G]. specialize (S1 g I). unfold f2. destruct (Nat.eqb (newlines g) 1) eqn:L.
      + left. split; [reflexivity|]. apply newline_some; [exact G|apply Nat.eqb_eq; exact L|exact S].
      + right. split; [reflexivity|]. intros a b -> _. apply Nat.eqb_neq in L. rewrite nls_app in L, S1. rewrite forallb_app in G. apply andb_true_iff in G as [_ G].
        apply newline_none; [apply nls_zero; [exact G|lia]|exact S]. }
  assert (O2 : pok l2).
  { apply pok_pmap; [|exact O1]. intros g I. unfold f2. destruct (pok_in l1 O1 g I) as [Gn G]. left. destruct (Nat.eqb (newlines g) 1); [exists [c_sp]; repeat split; discriminate|exists g; auto]. }
  assert (S2 : forall g, In (PG g) l2 -> forallb st g = true).
  { intros g I. apply in_pmap in I as (g0 & I & X). unfold f2 in X. specialize (S1 g0 I). destruct (pok_in l1 O1 g0 I) as [_ G]. destruct (Nat.eqb (newlines g0) 1) eqn:L; injection X as <-; [reflexivity|].
    apply Nat.eqb_neq in L. apply nls_zero; [exact G|lia]. }
  assert (P3 : re_sub (rplus sptab) (fun _ => [c_sp]) (prender l2) = prender l3).
  { eapply subs_to_fun; [apply re_sub_subs_to; [reflexivity|cbn; lia]|]. apply pass; [|exact O2|].
    - intros x v Hx. apply (mlen_head_out (fun y => gap_char y = true)); [|cbn; lia|congruence]. cbn. split; intros y Hy; apply st_gap; exact Hy.
    - intros g I s S. destruct (pok_in l2 O2 g I) as [Gn G]. left. split; [reflexivity|]. eapply fm_mlen. apply (fm_plus st (g ++ s) 0 [] g s); [reflexivity|exact Gn|apply S2; exact I|apply not_st; exact S]. }
  rewrite P1, P2, P3.
  assert (S3 : forall g, In (PG g) l3 -> g = [c_sp]). { intros g I. apply in_pmap in I as (g0 & _ & X). injection X as <-. reflexivity. }
  assert (R3 : prender l3 = ren marker (concat (map toks l3))).
  { rewrite ren_toks by exact S3. unfold prender. f_equal. apply map_ext. intros [x|g|]; reflexivity. }
  rewrite R3, replace_marker.
  - rewrite ren_toks by exact S3. rewrite <- F. unfold l3, l2, l1, pmap. rewrite !map_map. f_equal.
    clear - N. induction l as [|p l IH]; [reflexivity|]. cbn [map]. f_equal; [|apply IH; destruct p; [exact N|exact N|destruct N]].
    destruct p as [x|g|]; [reflexivity| |destruct N]. cbn [final]. unfold f1. destruct (Nat.leb 2 (newlines g)); [reflexivity|]. unfold f2. destruct (Nat.eqb (newlines g) 1); reflexivity.
  - intros p q X. assert (Hsp : ~ In c_sp marker) by (cbn; intros K; repeat destruct K as [K|K]; try discriminate; exact K).
    destruct (toks_occurs marker l3 p q Hsp X) as (a1 & a2 & A). apply pmap_chars in A as (b1 & b2 & A); [|intros g x C; discriminate C].
    apply pmap_chars in A as (c1 & c2 & A); [|intros g x C; unfold f2 in C; destruct (Nat.eqb (newlines g) 1); discriminate C].
    apply pmap_chars in A as (d1 & d2 & A); [|intros g x C; unfold f1 in C; destruct (Nat.leb 2 (newlines g)); discriminate C].
    apply Hno. rewrite <- E, A, prender_chars. exists (prender d1), (prender d2). reflexivity.
Qed.

Lemma respaced_total : forall t, exists o, respaced t o.
Proof.
  intros t. remember (length t) as n eqn:En. revert t En. induction n as [n IH] using (well_founded_induction Wf_nat.lt_wf). intros t En.
  destruct t as [|x t]; [exists []; constructor|]. destruct (gap_char x) eqn:Hx.
  - assert (S : exists g s, x :: t = g ++ s /\ g <> [] /\ forallb gap_char g = true /\ starts_gap s = false).
    { clear - Hx. revert x Hx. induction t as [|y t IH]; intros x Hx; [exists [x], []; cbn; rewrite Hx; repeat split; discriminate|].
      destruct (gap_char y) eqn:Hy; [|exists [x], (y :: t); cbn; rewrite Hx, Hy; repeat split; discriminate].
      destruct (IH y Hy) as (g & s & E & Gn & G & S). exists (x :: g), s. cbn [List.app forallb]. rewrite <- E, Hx, G. repeat split; [discriminate|exact S]. }
    destruct S as (g & s & E & Gn & G & S). destruct (IH (length s)) with (t := s) as (o & H); [|reflexivity|].
    + rewrite En, E, app_length. destruct g; [congruence|cbn; lia].
    + rewrite E. eexists. constructor; eassumption.
  - destruct (IH (length t)) with (t := t) as (o & H); [subst n; cbn; lia|reflexivity|]. exists (x :: o). constructor; assumption.
Qed.
Lemma respaced_fun : forall t o, respaced t o -> forall o', respaced t o' -> o = o'.
Proof.
  intros t o H. induction H as [|x s o Hx H IH|g s o Gn G S H IH]; intros o' H'.
  - inversion H' as [|x s o2 Hx H2 E1|g s o2 Gn G S H2 E1]; [reflexivity|]. destruct g; [congruence|discriminate].
  - inversion H' as [|x' s' o2 Hx' H2 E1|g s' o2 Gn G S H2 E1]; subst; [f_equal; apply IH; assumption|].
    destruct g as [|y g]; [congruence|]. injection E1 as -> _. cbn [forallb] in G. rewrite Hx in G. discriminate G.
  - inversion H' as [E0|x' s' o2 Hx' H2 E1|g' s' o2 Gn' G' S' H2 E1]; subst.
    + destruct g; [congruence|discriminate E0].
    + destruct g as [|y g]; [congruence|]. injection E1 as -> _. cbn [forallb] in G. rewrite Hx' in G. discriminate G.
    + destruct (gap_prefix g s g' s' (eq_sym E1) G S') as (a & Ea). destruct (gap_prefix g' s' g s E1 G' S) as (b & Eb).
      assert (g = g') as ->. { rewrite Ea in Eb. rewrite <- app_assoc in Eb. rewrite <- (app_nil_r g) in Eb at 1. apply app_inv_head in Eb. symmetry in Eb. apply app_eq_nil in Eb as [-> _]. rewrite app_nil_r in Ea. congruence. }
      apply app_inv_head in E1. subst s'. f_equal. apply IH. assumption.
Qed.
Lemma respaced_unique : forall t, exists o, respaced t o /\ forall o', respaced t o' -> o' = o.
Proof. intros t. destruct (respaced_total t) as (o & H). exists o. split; [exact H|]. intros o' H'. exact (respaced_fun t o' H' o H). Qed.
