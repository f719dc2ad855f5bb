(** Proofs about delimiter extraction (supports PropsDelims.v). *)
From Coq Require Import List NArith PeanoNat Bool Lia.
From Verif Require Import PyStr TexUtilsModel DelimSpec.
Import ListNotations.

(** Escape state after reading [s]. *)
Fixpoint esc_end (e : bool) (s : str) : bool :=
  match s with [] => e | x :: r => esc_end (N.eqb x c_bs && negb e) r end.

Lemma esc_end_app : forall s1 s2 e, esc_end e (s1 ++ s2) = esc_end (esc_end e s1) s2.
Proof. induction s1 as [|x s1 IH]; cbn; auto. Qed.

Lemma mark_app : forall s1 s2 e, mark e (s1 ++ s2) = mark e s1 ++ mark (esc_end e s1) s2.
Proof. induction s1 as [|x s1 IH]; cbn; intros; auto. rewrite IH. reflexivity. Qed.

Lemma mark_length : forall s e, length (mark e s) = length s.
Proof. induction s as [|x s IH]; cbn; auto. Qed.

Lemma mark_fst : forall s e, map fst (mark e s) = s.
Proof. induction s as [|x s IH]; cbn; intros; auto. rewrite IH. reflexivity. Qed.

Lemma cpb_app : forall pre rest, count_preceding_backslashes (pre ++ rest) (length pre) =
  count_preceding_backslashes pre (length pre).
Proof.
  intros pre rest.
  assert (H : forall n, n <= length pre ->
    count_preceding_backslashes (pre ++ rest) n = count_preceding_backslashes pre n).
  { induction n as [|n IH]; cbn; intros Hn; auto.
    rewrite nth_error_app1 by lia. rewrite IH by lia. reflexivity. }
  apply H. lia.
Qed.

Lemma cpb_snoc : forall pre x, count_preceding_backslashes (pre ++ [x]) (length (pre ++ [x])) =
  if N.eqb x c_bs then S (count_preceding_backslashes pre (length pre)) else 0.
Proof.
  intros pre x. rewrite app_length. cbn [length]. rewrite Nat.add_1_r. cbn.
  rewrite nth_error_app2 by lia. rewrite Nat.sub_diag. cbn.
  rewrite cpb_app. reflexivity.
Qed.

Lemma cpb_esc : forall pre, Nat.odd (count_preceding_backslashes pre (length pre)) = esc_end false pre.
Proof.
  induction pre as [|x pre IH] using rev_ind; [reflexivity|].
  rewrite cpb_snoc, esc_end_app. cbn.
  destruct (N.eqb x c_bs); cbn; [|reflexivity].
  rewrite Nat.odd_succ, <- Nat.negb_odd, IH. reflexivity.
Qed.

Lemma is_escaped_pre : forall pre rest, is_escaped (length pre) (pre ++ rest) = esc_end false pre.
Proof. intros. unfold is_escaped. rewrite cpb_app. apply cpb_esc. Qed.

Lemma eib_esc : forall n s, ends_in_backslashes n s -> Nat.odd n = esc_end false s.
Proof.
  induction 1 as [|s x Hx|n s H IH]; cbn; auto.
  - rewrite esc_end_app. cbn. apply N.eqb_neq in Hx. rewrite Hx. reflexivity.
  - rewrite esc_end_app. cbn [esc_end]. rewrite N.eqb_refl. cbn [andb].
    change (match n with 0 => false | S n' => Nat.even n' end) with (Nat.odd n) || idtac.
    rewrite Nat.odd_succ, <- Nat.negb_odd, IH. reflexivity.
Qed.

Lemma eib_exists : forall s, exists n, ends_in_backslashes n s.
Proof.
  induction s as [|x s [n IH]] using rev_ind; [exists 0; constructor|].
  destruct (N.eq_dec x c_bs) as [->|Hx].
  - exists (S n). constructor. exact IH.
  - exists 0. constructor. exact Hx.
Qed.

Lemma closes_after_esc : forall s, closes_after s <-> esc_end false s = false.
Proof.
  intros s. unfold closes_after. split.
  - intros (n & H & He). rewrite <- (eib_esc _ _ H).
    apply Nat.even_spec in He. rewrite <- Nat.negb_even, He. reflexivity.
  - intros H. destruct (eib_exists s) as [n Hn]. exists n. split; auto.
    apply eib_esc in Hn. apply Nat.even_spec. rewrite <- Nat.negb_odd, Hn, H. reflexivity.
Qed.

Lemma blank_esc : forall ws, blank ws -> esc_end false ws = false.
Proof.
  intros ws. unfold blank. induction ws as [|x ws IH] using rev_ind; auto.
  intros H. rewrite forallb_app in H. apply andb_true_iff in H. destruct H as [_ H].
  rewrite esc_end_app. cbn. cbn in H.
  destruct (N.eqb x c_bs) eqn:E; auto. apply N.eqb_eq in E. subst. discriminate H.
Qed.

(* ------------------------------------------------------------------ *)
(** * Position of the closing delimiter *)

Definition live (d : ch) (p : ch * bool) : bool := N.eqb (fst p) d && negb (snd p).

Fixpoint close_pos (o c : ch) (d : nat) (m : list (ch * bool)) : option nat :=
  match m with
  | [] => None
  | p :: r =>
      if live o p then option_map S (close_pos o c (S d) r)
      else if live c p then
        match d with
        | O => None
        | S O => Some 1
        | S d' => option_map S (close_pos o c d' r)
        end
      else option_map S (close_pos o c d r)
  end.

Lemma fmd_loop_close : forall o c rest pre start stack,
  fmd_loop o c (pre ++ rest) start (length pre) stack rest =
  option_map (fun k => (start, length pre + k))
    (close_pos o c (length stack) (mark (esc_end false pre) rest)).
Proof.
  induction rest as [|x rest IH]; intros pre start stack; [reflexivity|].
  assert (Hstep : forall st, fmd_loop o c (pre ++ x :: rest) start (S (length pre)) st rest =
     option_map (fun k => (start, length pre + k))
       (option_map S (close_pos o c (length st) (mark (N.eqb x c_bs && negb (esc_end false pre)) rest)))).
  { intros st. specialize (IH (pre ++ [x]) start st).
    rewrite <- app_assoc in IH. cbn [app] in IH. rewrite app_length in IH. cbn [length] in IH.
    rewrite Nat.add_1_r in IH. rewrite esc_end_app in IH. cbn [esc_end] in IH. rewrite IH. clear IH.
    destruct (close_pos o c (length st) _); cbn; [|reflexivity]. rewrite Nat.add_succ_r. reflexivity. }
  cbn [fmd_loop mark close_pos]. rewrite is_escaped_pre. unfold live. cbn [fst snd].
  destruct (N.eqb x o && negb (esc_end false pre)) eqn:E1.
  - rewrite Hstep. reflexivity.
  - destruct (N.eqb x c && negb (esc_end false pre)) eqn:E2.
    + destruct stack as [|s0 [|s1 st]]; cbn [length option_map].
      * reflexivity.
      * rewrite Nat.add_1_r. reflexivity.
      * rewrite Hstep. reflexivity.
    + rewrite Hstep. reflexivity.
Qed.

Section Close.
Variables o c : ch.
Hypothesis Hoc : o <> c.

Lemma live_o : live o (o, false) = true.
Proof. unfold live. cbn. rewrite N.eqb_refl. reflexivity. Qed.
Lemma live_c : live c (c, false) = true.
Proof. unfold live. cbn. rewrite N.eqb_refl. reflexivity. Qed.
Lemma live_oc : live o (c, false) = false.
Proof. unfold live. cbn. assert (E : N.eqb c o = false) by (apply N.eqb_neq; congruence). rewrite E. reflexivity. Qed.

Lemma live_neither : forall x e, (e = true \/ x <> o /\ x <> c) ->
  live o (x, e) = false /\ live c (x, e) = false.
Proof.
  intros x e [->|[H1 H2]]; unfold live; cbn.
  - rewrite !andb_false_r. auto.
  - apply N.eqb_neq in H1. apply N.eqb_neq in H2. rewrite H1, H2. auto.
Qed.

Lemma option_map_plus : forall (a : option nat) n m,
  option_map (plus n) (option_map (plus m) a) = option_map (plus (n + m)) a.
Proof. intros [a|] n m; cbn; f_equal. lia. Qed.

Lemma close_pos_balanced : forall s, balanced o c s -> forall d m,
  close_pos o c (S d) (s ++ m) = option_map (plus (length s)) (close_pos o c (S d) m).
Proof.
  induction 1 as [|x e r Hx Hr IH|r1 r2 H1 IH1 H2 IH2]; intros d m.
  - cbn. destruct (close_pos o c (S d) m); reflexivity.
  - cbn [app close_pos]. destruct (live_neither _ _ Hx) as [E1 E2]. rewrite E1, E2, IH.
    destruct (close_pos o c (S d) m); reflexivity.
  - cbn [app close_pos]. rewrite live_o. rewrite <- app_assoc. rewrite IH1.
    cbn [app close_pos]. rewrite live_oc, live_c. rewrite IH2.
    cbn [length]. rewrite app_length. cbn [length].
    destruct (close_pos o c (S d) m); cbn; f_equal. lia.
Qed.

Lemma close_pos_inv : forall n m, length m <= n -> forall d k, close_pos o c (S d) m = Some k ->
  exists seg rest, m = seg ++ (c, false) :: rest /\ balanced o c seg /\
    match d with
    | O => k = length seg + 1
    | S d' => exists k', close_pos o c (S d') rest = Some k' /\ k = length seg + 1 + k'
    end.
Proof.
  induction n as [|n IH]; intros m Hm d k H.
  { destruct m; [discriminate|cbn in Hm; lia]. }
  destruct m as [|[x e] r]; [discriminate|]. cbn [close_pos] in H. cbn [length] in Hm.
  destruct (live o (x, e)) eqn:E1.
  - destruct (close_pos o c (S (S d)) r) as [k1|] eqn:H1; [|discriminate].
    cbn in H. injection H as <-.
    apply IH in H1; [|lia]. destruct H1 as (s1 & r1 & -> & B1 & k2 & H2 & ->).
    rewrite app_length in Hm. cbn [length] in Hm.
    apply IH in H2; [|lia]. destruct H2 as (s2 & r2 & -> & B2 & H2).
    unfold live in E1. cbn in E1. apply andb_true_iff in E1. destruct E1 as [E1 E1'].
    apply N.eqb_eq in E1. apply negb_true_iff in E1'. subst x e.
    exists ((o, false) :: s1 ++ (c, false) :: s2), r2. split; [|split].
    + cbn. rewrite <- app_assoc. reflexivity.
    + constructor; assumption.
    + cbn [length]. rewrite app_length. cbn [length]. destruct d as [|d].
      * lia.
      * destruct H2 as (k' & H3 & ->). exists k'. split; auto. lia.
  - destruct (live c (x, e)) eqn:E2.
    + unfold live in E2. cbn in E2. apply andb_true_iff in E2. destruct E2 as [E2 E2'].
      apply N.eqb_eq in E2. apply negb_true_iff in E2'. subst x e.
      exists [], r. split; [reflexivity|split; [constructor|]].
      destruct d as [|d].
      * injection H as <-. reflexivity.
      * destruct (close_pos o c (S d) r) as [k'|]; [|discriminate].
        cbn in H. injection H as <-. exists k'. split; [reflexivity|cbn; lia].
    + destruct (close_pos o c (S d) r) as [k1|] eqn:H1; [|discriminate].
      cbn in H. injection H as <-. apply IH in H1; [|lia].
      destruct H1 as (s1 & r1 & -> & B1 & H1).
      exists ((x, e) :: s1), r1. split; [reflexivity|split].
      * constructor; auto. unfold live in E1, E2. cbn in E1, E2.
        destruct e; [left; reflexivity|right]. rewrite andb_true_r in E1, E2.
        apply N.eqb_neq in E1. apply N.eqb_neq in E2. auto.
      * destruct d as [|d]; [cbn; lia|]. destruct H1 as (k' & H3 & ->). exists k'. split; auto; cbn; lia.
Qed.

(** [close_pos] at depth one finds exactly the close of a balanced segment. *)
Lemma close_pos_one : forall m k,
  close_pos o c 1 m = Some k <->
  exists seg rest, m = seg ++ (c, false) :: rest /\ balanced o c seg /\ k = length seg + 1.
Proof.
  intros m k. split.
  - intros H. eapply close_pos_inv in H; [|reflexivity]. exact H.
  - intros (seg & rest & -> & B & ->). rewrite (close_pos_balanced _ B).
    cbn [close_pos]. rewrite live_oc, live_c. reflexivity.
Qed.

(** balance *)
Fixpoint bal_run (d : nat) (m : list (ch * bool)) : bool :=
  match m with
  | [] => Nat.eqb d 0
  | p :: r => if live o p then bal_run (S d) r
              else if live c p then match d with O => false | S d' => bal_run d' r end
              else bal_run d r
  end.

Lemma bal_run_balanced : forall s, balanced o c s -> forall d m, bal_run d (s ++ m) = bal_run d m.
Proof.
  induction 1 as [|x e r Hx Hr IH|r1 r2 H1 IH1 H2 IH2]; intros d m; auto.
  - cbn [app bal_run]. destruct (live_neither _ _ Hx) as [E1 E2]. rewrite E1, E2. apply IH.
  - cbn [app bal_run]. rewrite live_o, <- app_assoc, IH1. cbn [app bal_run].
    rewrite live_oc, live_c. apply IH2.
Qed.

Lemma bal_run_inv : forall n m, length m <= n -> forall d, bal_run d m = true ->
  match d with
  | O => balanced o c m
  | S d' => exists seg rest, m = seg ++ (c, false) :: rest /\ balanced o c seg /\ bal_run d' rest = true
  end.
Proof.
  induction n as [|n IH]; intros m Hm d H.
  { destruct m; [|cbn in Hm; lia]. cbn in H. destruct d; [constructor|discriminate]. }
  destruct m as [|[x e] r]; [cbn in H; destruct d; [constructor|discriminate]|].
  cbn [bal_run] in H. cbn [length] in Hm.
  destruct (live o (x, e)) eqn:E1.
  - apply IH in H; [|lia]. destruct H as (s1 & r1 & -> & B1 & H).
    rewrite app_length in Hm. cbn [length] in Hm.
    unfold live in E1. cbn in E1. apply andb_true_iff in E1. destruct E1 as [E1 E1'].
    apply N.eqb_eq in E1. apply negb_true_iff in E1'. subst x e.
    apply IH in H; [|lia]. destruct d as [|d].
    + constructor; assumption.
    + destruct H as (s2 & r2 & -> & B2 & H). exists ((o, false) :: s1 ++ (c, false) :: s2), r2.
      split; [cbn; rewrite <- app_assoc; reflexivity|]. split; [constructor; assumption|exact H].
  - destruct (live c (x, e)) eqn:E2.
    + destruct d as [|d]; [discriminate|].
      unfold live in E2. cbn in E2. apply andb_true_iff in E2. destruct E2 as [E2 E2'].
      apply N.eqb_eq in E2. apply negb_true_iff in E2'. subst x e.
      exists [], r. split; [reflexivity|split; [constructor|exact H]].
    + assert (Hx : e = true \/ x <> o /\ x <> c).
      { unfold live in E1, E2. cbn in E1, E2. destruct e; [left; reflexivity|right].
        rewrite andb_true_r in E1, E2. apply N.eqb_neq in E1. apply N.eqb_neq in E2. auto. }
      apply IH in H; [|lia]. destruct d as [|d].
      * constructor; assumption.
      * destruct H as (s1 & r1 & -> & B1 & H). exists ((x, e) :: s1), r1.
        split; [reflexivity|split; [constructor; assumption|exact H]].
Qed.

Lemma bal_run_iff : forall m, bal_run 0 m = true <-> balanced o c m.
Proof.
  intros m. split; intros H.
  - eapply bal_run_inv in H; [|reflexivity]. exact H.
  - rewrite <- (app_nil_r m), (bal_run_balanced _ H). reflexivity.
Qed.

Lemma cdb_loop_run : forall rest pre stack,
  cdb_loop o c (pre ++ rest) (length pre) stack rest =
  bal_run (length stack) (mark (esc_end false pre) rest).
Proof.
  induction rest as [|x rest IH]; intros pre stack.
  { cbn. destruct stack; reflexivity. }
  assert (Hstep : forall st, cdb_loop o c (pre ++ x :: rest) (S (length pre)) st rest =
     bal_run (length st) (mark (N.eqb x c_bs && negb (esc_end false pre)) rest)).
  { intros st. specialize (IH (pre ++ [x]) st).
    rewrite <- app_assoc in IH. cbn [app] in IH. rewrite app_length in IH. cbn [length] in IH.
    rewrite Nat.add_1_r in IH. rewrite IH. rewrite esc_end_app. reflexivity. }
  cbn [cdb_loop mark bal_run]. rewrite is_escaped_pre. unfold live. cbn [fst snd].
  destruct (N.eqb x o && negb (esc_end false pre)); [rewrite Hstep; reflexivity|].
  destruct (N.eqb x c && negb (esc_end false pre)); [|rewrite Hstep; reflexivity].
  destruct stack as [|s0 st]; cbn [length]; [reflexivity|]. rewrite Hstep. reflexivity.
Qed.

Lemma check_delimiter_balance_iff : forall text,
  check_delimiter_balance text o c = true <-> balanced o c (marks text).
Proof.
  intros text. unfold check_delimiter_balance.
  pose proof (cdb_loop_run text [] []) as H. cbn in H. rewrite H. apply bal_run_iff.
Qed.

End Close.

(** splitting a marked text splits the text *)
Lemma mark_split : forall s e seg c rest, mark e s = seg ++ (c, false) :: rest ->
  exists content s', s = content ++ c :: s' /\ seg = mark e content /\
    esc_end e content = false /\ rest = mark (N.eqb c c_bs && negb false) s'.
Proof.
  induction s as [|x s IH]; intros e seg c rest H.
  - destruct seg; discriminate.
  - destruct seg as [|p seg]; cbn in H.
    + injection H as -> -> H. exists [], s. cbn. rewrite <- H. auto.
    + injection H as <- H. apply IH in H. destruct H as (ct & s' & -> & -> & H1 & H2).
      exists (x :: ct), s'. auto.
Qed.

Lemma group_at_pos : forall o c text content n, group_at o c text content n ->
  2 <= n <= length text.
Proof.
  intros o c text content n (ws & rest & -> & _ & _ & _ & ->).
  rewrite app_length. cbn [length]. rewrite app_length. cbn [length]. lia.
Qed.

(** main functional characterisation *)
Lemma extract_nested_content_iff : forall o c text content n, delims_ok o c ->
  (extract_nested_content text o c = (Some content, n) <-> group_at o c text content n).
Proof.
  intros o c text content n (Hoc & Hsp & Hob & Hcb).
  unfold extract_nested_content, find_matching_delimiter. cbn [skipn plus].
  destruct (lead_split text) as (ws & Htext & Hws & Hlen).
  rewrite <- lstrip_skipn. rewrite <- Hlen.
  assert (Hmark : forall r, close_pos o c 0 (mark (esc_end false ws) (o :: r)) =
                            option_map S (close_pos o c 1 (marks r))).
  { intros r. rewrite blank_esc by exact Hws. cbn [mark close_pos]. rewrite live_o.
    assert (E : N.eqb o c_bs = false) by (apply N.eqb_neq; exact Hob). rewrite E. reflexivity. }
  destruct (lstrip text) as [|x r] eqn:El.
  - split; [discriminate|]. intros (ws' & rest & E & Hb & _).
    exfalso. rewrite E, lstrip_ws_app in El by exact Hb. cbn in El. rewrite Hsp in El. discriminate.
  - destruct (N.eqb x o) eqn:Ex.
    + apply N.eqb_eq in Ex. subst x. rewrite Htext.
      rewrite fmd_loop_close. cbn [length]. rewrite Hmark.
      destruct (close_pos o c 1 (marks r)) as [k|] eqn:Ek.
      * cbn [option_map]. apply (close_pos_one o c Hoc) in Ek.
        destruct Ek as (seg & rest & Hm & Hb & ->).
        apply mark_split in Hm. destruct Hm as (ct & s' & -> & -> & He & _).
        rewrite mark_length.
        assert (Hslice : slice (length ws + 1) (length ws + S (length ct + 1) - 1)
                   (ws ++ o :: ct ++ c :: s') = ct).
        { unfold slice. rewrite skipn_app. rewrite skipn_all2 by lia.
          replace (length ws + 1 - length ws) with 1 by lia. cbn [skipn app].
          replace (length ws + S (length ct + 1) - 1 - (length ws + 1)) with (length ct) by lia.
          rewrite firstn_app, Nat.sub_diag, firstn_all. cbn. apply app_nil_r. }
        rewrite Hslice. split.
        -- intros H. injection H as <- <-.
           exists ws, s'. repeat split; auto.
           ++ apply closes_after_esc. exact He.
           ++ lia.
        -- intros (ws' & rest' & E & Hb' & Hbal & Hcl & ->).
           assert (Hg : o :: ct ++ c :: s' = o :: content ++ c :: rest').
           { rewrite <- (lstrip_id o (ct ++ c :: s')) by exact Hsp.
             rewrite <- (lstrip_id o (content ++ c :: rest')) by exact Hsp.
             rewrite <- (lstrip_ws_app ws) by exact Hws. rewrite E.
             apply lstrip_ws_app. exact Hb'. }
           injection Hg as Hg.
           assert (Hk1 : close_pos o c 1 (marks (ct ++ c :: s')) = Some (length ct + 1)).
           { apply close_pos_one; auto. exists (marks ct), (mark (N.eqb c c_bs && negb false) s').
             rewrite mark_app, He, mark_length. auto. }
           assert (Hk2 : close_pos o c 1 (marks (content ++ c :: rest')) = Some (length content + 1)).
           { apply close_pos_one; auto. apply closes_after_esc in Hcl.
             exists (marks content), (mark (N.eqb c c_bs && negb false) rest').
             rewrite mark_app, Hcl, mark_length. auto. }
           rewrite Hg in Hk1. rewrite Hk1 in Hk2. injection Hk2 as Hl.
           assert (Hl' : length ct = length content) by lia.
           assert (Hct : ct = content).
           { apply (f_equal (firstn (length ct))) in Hg.
             rewrite firstn_app, Nat.sub_diag, firstn_all in Hg. cbn in Hg. rewrite app_nil_r in Hg.
             rewrite Hl' in Hg. rewrite firstn_app, Nat.sub_diag, firstn_all in Hg. cbn in Hg.
             rewrite app_nil_r in Hg. exact Hg. }
           subst ct. f_equal.
           assert (Hlw : length ws = length ws').
           { apply (f_equal (@length ch)) in E. rewrite !app_length in E. cbn [length] in E.
             rewrite !app_length in E. cbn [length] in E.
             apply (f_equal (@length ch)) in Hg. rewrite !app_length in Hg. cbn [length] in Hg. lia. }
           lia.
      * cbn [option_map]. split; [discriminate|].
        intros (ws' & rest' & E & Hb' & Hbal & Hcl & ->). exfalso.
        assert (Hg : o :: r = o :: content ++ c :: rest').
        { rewrite <- (lstrip_id o r) by exact Hsp.
          rewrite <- (lstrip_id o (content ++ c :: rest')) by exact Hsp.
          rewrite <- (lstrip_ws_app ws) by exact Hws. rewrite E.
          apply lstrip_ws_app. exact Hb'. }
        injection Hg as ->.
        assert (Hk2 : close_pos o c 1 (marks (content ++ c :: rest')) = Some (length content + 1)).
        { apply close_pos_one; auto. apply closes_after_esc in Hcl.
          exists (marks content), (mark (N.eqb c c_bs && negb false) rest').
          rewrite mark_app, Hcl, mark_length. auto. }
        congruence.
    + split; [discriminate|]. intros (ws' & rest' & E & Hb' & _).
      exfalso. rewrite E, lstrip_ws_app in El by exact Hb'. cbn in El. rewrite Hsp in El.
      injection El as -> _. rewrite N.eqb_refl in Ex. discriminate.
Qed.

Lemma extract_nested_content_cases : forall o c text, delims_ok o c ->
  (exists content n, extract_nested_content text o c = (Some content, n) /\ group_at o c text content n)
  \/ (extract_nested_content text o c = (None, 0) /\ forall content n, ~ group_at o c text content n).
Proof.
  intros o c text Hok.
  destruct (extract_nested_content text o c) as [[content|] n] eqn:E.
  - left. exists content, n. split; auto. apply extract_nested_content_iff; auto.
  - right. split.
    + unfold extract_nested_content in E. destruct (find_matching_delimiter text o c 0) as [[]|]; congruence.
    + intros ct m H. apply extract_nested_content_iff in H; auto. congruence.
Qed.

Lemma group_at_fun : forall o c text ct1 n1 ct2 n2, delims_ok o c ->
  group_at o c text ct1 n1 -> group_at o c text ct2 n2 -> ct1 = ct2 /\ n1 = n2.
Proof.
  intros o c text ct1 n1 ct2 n2 Hok H1 H2.
  apply extract_nested_content_iff in H1; auto. apply extract_nested_content_iff in H2; auto.
  rewrite H1 in H2. injection H2 as -> ->. auto.
Qed.

(** leading blanks do not matter for a group *)
Lemma group_at_lstrip : forall o c text ct n, isspace o = false ->
  group_at o c text ct n <-> (nlead text <= n /\ group_at o c (skipn (nlead text) text) ct (n - nlead text)).
Proof.
  intros o c text ct n Hsp. split.
  - intros (ws & rest & -> & Hb & Hbal & Hcl & ->).
    rewrite nlead_ws_app by exact Hb. cbn [nlead]. rewrite Hsp. rewrite Nat.add_0_r.
    split; [lia|]. rewrite skipn_app, skipn_all, Nat.sub_diag. cbn [app skipn].
    exists [], rest. repeat split; auto. cbn. lia.
  - intros (Hle & ws & rest & E & Hb & Hbal & Hcl & Hn).
    destruct (lead_split text) as (ws0 & Ht & Hb0 & Hl).
    rewrite <- lstrip_skipn in E.
    exists (ws0 ++ ws), rest. repeat split; auto.
    + rewrite Ht at 1. rewrite E, <- app_assoc. reflexivity.
    + unfold blank. rewrite forallb_app, Hb0, Hb. reflexivity.
    + rewrite app_length. lia.
Qed.

(* ------------------------------------------------------------------ *)
(** * Sequences of blocks *)

Definition under (mb : option nat) (i : nat) : bool :=
  match mb with None => true | Some m => Nat.ltb i m end.

Lemma seq_blocks_loop_spec : forall o c mb, delims_ok o c -> forall fuel i text pre last blocks,
  length text < fuel ->
  exists bs p,
    seq_blocks_loop fuel o c mb i text pre last blocks =
      Some (blocks ++ bs, if Nat.eqb (length bs) 0 then last else pre + p) /\
    groups_at o c text bs p /\
    (length bs = 0 \/ match mb with None => True | Some m => i + length bs <= m end) /\
    (mb = Some (i + length bs) \/
     (match mb with Some m => m <= i /\ bs = [] | None => False end) \/
     (under mb (i + length bs) = true /\ forall ct n, ~ group_at o c (skipn p text) ct n)).
Proof.
  intros o c mb Hok. induction fuel as [|fuel IH]; intros i text pre last blocks Hf; [lia|].
  cbn [seq_blocks_loop]. fold (under mb i). destruct (under mb i) eqn:Eu.
  - set (t1 := skipn (nlead text) text).
    destruct (extract_nested_content_cases o c t1 Hok) as [(ct & n & E & G)|[E Hno]]; rewrite E.
    + pose proof (group_at_pos _ _ _ _ _ G) as Hn.
      destruct (Nat.eqb n 0) eqn:En; [apply Nat.eqb_eq in En; lia|].
      assert (Hl : length t1 = length text - nlead text) by (apply skipn_length).
      destruct (IH (S i) (skipn n t1) (pre + nlead text + n) (pre + nlead text + n) (blocks ++ [ct]))
        as (bs & p & Hrun & Hg & Hlen & Hstop).
      { rewrite skipn_length. lia. }
      exists (ct :: bs), (nlead text + n + p). cbn [length]. cbn [Nat.eqb].
      rewrite Hrun. split; [|split; [|split]].
      * rewrite <- app_assoc. cbn [app]. f_equal. f_equal.
        destruct bs as [|b bs]; cbn [length Nat.eqb].
        -- inversion Hg; subst. lia.
        -- lia.
      * assert (G' : group_at o c text ct (nlead text + n)).
        { apply group_at_lstrip; [apply Hok|]. split; [lia|].
          fold t1. replace (nlead text + n - nlead text) with n by lia. exact G. }
        econstructor; [exact G'|]. rewrite <- skipn_add. exact Hg.
      * right. destruct mb as [m|]; auto. cbn [under] in Eu. apply Nat.ltb_lt in Eu.
        destruct Hlen as [Hlen|Hlen]; lia.
      * destruct Hstop as [Hs|[Hs|[Hs1 Hs2]]].
        -- left. rewrite Hs. f_equal. lia.
        -- destruct mb as [m|]; [|contradiction]. destruct Hs as [Hs ->]. left. cbn [length].
           cbn [under] in Eu. apply Nat.ltb_lt in Eu. f_equal. lia.
        -- right. right. split.
           ++ rewrite <- Hs1. f_equal. lia.
           ++ intros ct' n' H. apply (Hs2 ct' n'). unfold t1.
              rewrite !skipn_add, Nat.add_assoc. exact H.
    + exists [], 0. cbn [length Nat.eqb]. rewrite app_nil_r. split; [reflexivity|].
      split; [constructor|]. split; [left; reflexivity|]. right. right. rewrite Nat.add_0_r.
      split; [exact Eu|]. intros ct n H. cbn [skipn] in H.
      apply group_at_lstrip in H; [|apply Hok]. destruct H as [_ H]. eapply Hno; exact H.
  - exists [], 0. cbn [length Nat.eqb]. rewrite app_nil_r. split; [reflexivity|].
    split; [constructor|]. split; [left; reflexivity|].
    right. left. destruct mb as [m|]; [|discriminate]. cbn [under] in Eu. apply Nat.ltb_ge in Eu.
    split; auto.
Qed.

Lemma seq_blocks_total : forall o c mb text, delims_ok o c ->
  seq_blocks_loop (S (length text)) o c mb 0 text 0 0 [] <> None.
Proof.
  intros o c mb text Hok.
  destruct (seq_blocks_loop_spec o c mb Hok (S (length text)) 0 text 0 0 []) as (bs & p & H & _).
  - lia.
  - congruence.
Qed.

Lemma seq_blocks_spec : forall o c mb text, delims_ok o c ->
  exists bs p, extract_nested_content_sequence_blocks text o c mb = (bs, p) /\
    groups_at o c text bs p /\
    match mb with
    | Some m => length bs <= m /\ (length bs < m -> forall ct n, ~ group_at o c (skipn p text) ct n)
    | None => forall ct n, ~ group_at o c (skipn p text) ct n
    end.
Proof.
  intros o c mb text Hok. unfold extract_nested_content_sequence_blocks.
  destruct (seq_blocks_loop_spec o c mb Hok (S (length text)) 0 text 0 0 []) as (bs & p & H & Hg & Hl & Hs); [lia|].
  rewrite H. cbn [app]. exists bs, p. cbn [plus] in *. split.
  - f_equal. destruct bs; cbn; [inversion Hg; reflexivity|reflexivity].
  - split; [exact Hg|]. destruct mb as [m|].
    + split; [destruct Hl; lia|]. intros Hlt. destruct Hs as [Hs|[[Hs Hb]|[_ Hs]]]; auto.
      * injection Hs as Hs. lia.
      * subst bs. cbn in Hlt. lia.
    + destruct Hs as [Hs|[[]|[_ Hs]]]; auto. discriminate.
Qed.

Lemma groups_at_le : forall o c text bs p, groups_at o c text bs p -> p <= length text.
Proof.
  induction 1 as [|text b n bs m G H IH]; [lia|].
  apply group_at_pos in G. rewrite skipn_length in IH. lia.
Qed.

Lemma groups_at_min : forall o c text bs p, groups_at o c text bs p -> 2 * length bs <= p.
Proof.
  induction 1 as [|text b n bs m G H IH]; cbn [length]; [lia|]. apply group_at_pos in G. lia.
Qed.

Lemma delims_curly : delims_ok c_lb c_rb.
Proof. repeat split; discriminate. Qed.
Lemma delims_square : delims_ok c_lk c_rk.
Proof. repeat split; discriminate. Qed.
