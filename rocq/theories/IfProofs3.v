From Coq Require Import List NArith PeanoNat Lia Bool String Wf_nat.
From Verif Require Import PyStr Regex Json IfModel IfSpec IfProofs TableProofs2 IfProofs2.
Import ListNotations. Notation length := List.length. Notation concat := List.concat. Open Scope list_scope.

Section More.
Variables S_ E_ L_ X_ : msearch.
Notation reads := (reads S_ E_ L_ X_).
Notation leads := (leads S_ E_ L_ X_).
Notation loop := (fun f => if_loop f S_ E_ L_ X_).

Definition blank_last (l : list (option str * str)) : list (option str * str) :=
  match set_last [] l with Some b => b | None => l end.

(** without \else the last alternative stays blank *)
Theorem elsif_fi : forall b0 alts c rest, alts <> [] -> branch b0 -> (forall a, In a alts -> branch (snd a)) ->
  (forall b, In b (removelast (map snd alts)) -> render b <> strip (render b0)) ->
  reads (b0 ++ alternatives alts ++ Close c :: rest) ->
  extract_else_elseif_fi S_ E_ L_ X_ (render (b0 ++ alternatives alts ++ Close c :: rest)) =
    Ok (strip (render b0), [], blank_last (map alt_value alts), length (render (b0 ++ alternatives alts ++ [Close c]))).
Proof.
  intros b0 [|[[s x] b] alts] c rest Hn Hb0 Ha Hne Rd; [congruence|]. clear Hn.
  assert (E : alternatives ((s, x, b) :: alts) = Elsif s x :: b ++ alternatives alts) by reflexivity. rewrite E in *. clear E.
  assert (Hx : forall T, b0 ++ (Elsif s x :: b ++ alternatives alts) ++ T = b0 ++ Elsif s x :: (b ++ alternatives alts ++ T)) by (intros; cbn [app]; rewrite <- app_assoc; reflexivity).
  rewrite !Hx in *. clear Hx.
  destruct (run_branch S_ E_ L_ X_ b0 (Elsif s x) (b ++ alternatives alts ++ Close c :: rest) 0
    {| if_content := []; else_content := []; elsif_branches := []; current := CIf |} 1 (fun _ => at_alt (strip (render b0)) ([] ++ [(x, [])]) []) Hb0 eq_refl eq_refl Rd) as (n & buf & Hbuf & L).
  { intros buf Hbuf. unfold buffer in Hbuf. cbn in Hbuf. cbn. unfold join_strip, buffer. cbn. rewrite Hbuf. reflexivity. }
  destruct (run_alts S_ E_ L_ X_ (strip (render b0)) (fun br buf => at_alt (strip (render b0)) (blank_last br) buf) 0 (Close c) rest eq_refl eq_refl)
    with (alts := alts) (c := x) (b := b) (br := @nil (option str * str))
    (pos := 0 + length (render b0) + length (item_text (Elsif s x))) as (n2 & buf2 & Hbuf2 & L2).
  { intros br c0 b' buf' Hbuf'. cbn [kind_of after_marker]. unfold blank_last. rewrite set_last_snoc. reflexivity. }
  { apply (Ha (s, x, b)). left. reflexivity. }
  { intros a Hin. apply Ha. right. exact Hin. }
  { intros b' Hin. apply Hne. exact Hin. }
  { eapply reads_tail. exact Rd. }
  rewrite (finish _ _ _ _ _ _ _ _ _ (leads_trans _ _ _ _ _ _ _ _ _ _ _ _ _ _ _ _ _ _ L L2)). unfold at_alt. cbn [if_content else_content elsif_branches].
  replace (join_strip [strip (render b0)]) with (strip (render b0)) by (unfold join_strip; cbn; rewrite app_nil_r; symmetry; apply strip_idem).
  cbn [app map]. change (join_strip []) with (@nil ch). do 2 f_equal.
  rewrite !render_app, !render_cons, !render_app, render_cons, !app_length. change (length (render [])) with 0. lia.
Qed.

Lemma split_quiet : forall level l, forallb (quiet level) l = true \/
  exists q i t, l = q ++ i :: t /\ forallb (quiet level) q = true /\ quiet level i = false.
Proof.
  intros level l. induction l as [|a l IH]; [left; reflexivity|]. destruct (quiet level a) eqn:E.
  - destruct IH as [IH|(q & i & t & -> & Hq & Hi)]; [left; cbn; rewrite E; exact IH|]. right. exists (a :: q), i, t. cbn. rewrite E. auto.
  - right. exists [], a, l. auto.
Qed.
Lemma closes_quiet : forall level q r, forallb (quiet level) q = true -> closes level (q ++ r) = closes level r.
Proof.
  intros level q r. induction q as [|i q IH]; [reflexivity|]. cbn [forallb app closes]. intros H. apply andb_true_iff in H as [Hi Hq]. specialize (IH Hq).
  destruct i; try exact IH; unfold quiet in Hi; cbn in Hi; rewrite andb_false_r in Hi; discriminate Hi.
Qed.
Lemma no_marker : forall level l, reads l -> forallb (quiet level) l = true -> valid_matches S_ E_ L_ X_ level (render l) = [].
Proof.
  intros level l (H1 & H2 & H3 & H4 & _) Hq. rewrite forallb_forall in Hq.
  assert (N : forall k, (forall i, In i l -> k i = false) -> first_of k l 0 = None).
  { intros k Hk. rewrite <- (app_nil_r l). rewrite first_of_skip by exact Hk. reflexivity. }
  unfold valid_matches. rewrite (H1 [] l eq_refl), (H2 [] l eq_refl), (H3 [] l eq_refl), (H4 [] l eq_refl).
  rewrite !(N is_open), !(N is_close).
  2,3: intros j Hj; specialize (Hq j Hj); destruct j; try reflexivity; cbn in Hq; rewrite andb_false_r in Hq; discriminate Hq.
  destruct (Nat.eqb level 1) eqn:El; [|reflexivity].
  rewrite (N is_else), (N is_elsif); [reflexivity| |]; intros j Hj; specialize (Hq j Hj); unfold quiet in Hq; rewrite El in Hq; destruct j; try reflexivity; discriminate Hq.
Qed.
Lemma unclosed_loop : forall n items s level pos st f, length items <= n -> reads (items ++ [Txt s]) -> s <> [] -> closes level items = false -> 1 <= level ->
  length (render (items ++ [Txt s])) < f -> exists e, loop f level pos (render (items ++ [Txt s])) st = Raise e /\ (e = ValueError \/ e = IndexError /\ exists j, In j items /\ is_elsif j = true).
Proof.
  induction n as [n IH] using (well_founded_induction lt_wf). intros items s level pos st f Hlen Rd Hs Hc Hl Hf.
  destruct f as [|f]; [lia|].
  destruct (split_quiet level items) as [Hq|(q & i & t & -> & Hq & Hi)].
  - exists ValueError. split; [|left; reflexivity]. cbn [if_loop].
    replace (nilb (render (items ++ [Txt s]))) with false.
    2:{ rewrite render_app, render_cons. destruct (render items); [|reflexivity]. cbn [item_text]. destruct s; [congruence|reflexivity]. }
    replace (Nat.eqb level 0) with false by (symmetry; apply Nat.eqb_neq; lia). cbn [orb].
    rewrite no_marker; [reflexivity|exact Rd|]. rewrite forallb_app, Hq. reflexivity.
  - rewrite <- app_assoc in *. cbn [app] in *.
    assert (Ni : 0 < length (item_text i)).
    { destruct Rd as (_ & _ & _ & _ & H5). assert (X : item_text i <> []). { apply H5; [apply in_or_app; right; left; reflexivity|]. unfold quiet in Hi. destruct (is_txt i); [discriminate Hi|reflexivity]. }
      destruct (item_text i); [congruence|cbn; lia]. }
    assert (Rt : reads (t ++ [Txt s])) by (eapply reads_tail; exact Rd).
    assert (Lt : length t < n) by (rewrite app_length in Hlen; cbn in Hlen; lia).
    assert (Lf : length (render (t ++ [Txt s])) < f) by (rewrite render_app, render_cons, !app_length in Hf; lia).
    assert (Wk : forall l v st', closes v t = false -> 1 <= v -> exists e, loop f v l (render (t ++ [Txt s])) st' = Raise e /\ (e = ValueError \/ e = IndexError /\ exists j, In j (q ++ i :: t) /\ is_elsif j = true)).
    { intros l v st' Hv Hv1. destruct (IH (length t) Lt t s v l st' f (le_n _) Rt Hs Hv Hv1 Lf) as (e & E & [H|(H & j & Hj & Kj)]); exists e; (split; [exact E|]); [left; exact H|]. right. split; [exact H|]. exists j. split; [|exact Kj]. apply in_or_app. right. right. exact Hj. }
    rewrite closes_quiet in Hc by exact Hq.
    pose proof (loop_step S_ E_ L_ X_ f level pos q i (t ++ [Txt s]) st Rd Hq Hi Hl) as St. cbn beta in St |- *. rewrite St. clear St.
    generalize (push (if Nat.eqb level 1 && negb (is_open i) then render q else render q ++ item_text i) st). intros st1.
    destruct i as [s'|s'|s'|s'|s' c']; cbn [kind_of condition after_marker bind fst snd closes] in *.
    + discriminate Hi.
    + apply Wk; [exact Hc|lia].
    + apply orb_false_iff in Hc as [Hc1 Hc2]. apply Nat.leb_gt in Hc1. apply Wk; [exact Hc2|lia].
    + apply Wk; [exact Hc|lia].
    + destruct (match current st1 with CIf => true | _ => strs_eqb (buffer st1) (if_content st1) end).
      * cbn [bind fst snd]. apply Wk; [exact Hc|lia].
      * destruct (set_last (join_strip (buffer st1)) (elsif_branches st1)); cbn [bind fst snd].
        -- apply Wk; [exact Hc|lia].
        -- exists IndexError. split; [reflexivity|]. right. split; [reflexivity|]. exists (Elsif s' c'). split; [apply in_or_app; right; left; reflexivity|reflexivity].
Qed.
Theorem unclosed_raises : forall items s, reads (items ++ [Txt s]) -> s <> [] -> closes 1 items = false ->
  exists e, extract_else_elseif_fi S_ E_ L_ X_ (render (items ++ [Txt s])) = Raise e /\ (e = ValueError \/ e = IndexError /\ exists j, In j items /\ is_elsif j = true).
Proof.
  intros items s Rd Hs Hc. unfold extract_else_elseif_fi.
  destruct (unclosed_loop (length items) items s 1 0 {| if_content := []; else_content := []; elsif_branches := []; current := CIf |} (S (length (render (items ++ [Txt s])))) (le_n _) Rd Hs Hc (le_n 1) (Nat.lt_succ_diag_r _)) as (e & E & He).
  cbn beta in E. exists e. rewrite E. split; [reflexivity|exact He].
Qed.

Theorem last_elsif_lost : forall b0 alts s x b c rest, branch b0 -> branch b -> (forall a, In a alts -> branch (snd a)) ->
  (forall a, In a alts -> render (snd a) <> strip (render b0)) ->
  reads (b0 ++ alternatives (alts ++ [(s, x, b)]) ++ Close c :: rest) ->
  extract_else_elseif_fi S_ E_ L_ X_ (render (b0 ++ alternatives (alts ++ [(s, x, b)]) ++ Close c :: rest)) =
    Ok (strip (render b0), [], map alt_value alts ++ [(x, [])], length (render (b0 ++ alternatives (alts ++ [(s, x, b)]) ++ [Close c]))).
Proof.
  intros b0 alts s x b c rest Hb0 Hb Ha Hne Rd. rewrite elsif_fi; [|destruct alts; discriminate|exact Hb0| | |exact Rd].
  - rewrite map_app. cbn [map]. unfold blank_last, alt_value at 2. cbn [fst snd]. rewrite set_last_snoc. reflexivity.
  - intros a Hin. apply in_app_or in Hin as [Hin|[<-|[]]]; [apply Ha; exact Hin|exact Hb].
  - intros b' Hin. rewrite map_app in Hin. cbn [map] in Hin. rewrite removelast_last in Hin. apply in_map_iff in Hin as (a & <- & Hin). apply Hne. exact Hin.
Qed.
End More.
