From Coq Require Import List NArith PeanoNat Lia Bool.
From Verif Require Import PyStr Regex Json IfModel IfSpec.
Import ListNotations.

Definition set_buffer (l : list str) (st : ifstate) : ifstate :=
  match current st with
  | CIf => {| if_content := l; else_content := else_content st; elsif_branches := elsif_branches st; current := CIf |}
  | CElse => {| if_content := if_content st; else_content := l; elsif_branches := elsif_branches st; current := CElse |}
  | CBuf _ => {| if_content := if_content st; else_content := else_content st; elsif_branches := elsif_branches st; current := CBuf l |}
  end.
Lemma push_set : forall s st, push s st = set_buffer (buffer st ++ [s]) st.
Proof. intros s st. unfold push, set_buffer, buffer. destruct (current st); reflexivity. Qed.
Lemma set_set : forall a b st, set_buffer a (set_buffer b st) = set_buffer a st.
Proof. intros a b st. unfold set_buffer. destruct (current st) eqn:E; cbn; reflexivity. Qed.
Lemma buffer_set : forall a st, buffer (set_buffer a st) = a.
Proof. intros a st. unfold set_buffer, buffer. destruct (current st); reflexivity. Qed.
Lemma set_buffer_id : forall st, set_buffer (buffer st) st = st.
Proof. intros [i e b c]. unfold set_buffer, buffer. cbn. destruct c; reflexivity. Qed.

Lemma render_app : forall a b, render (a ++ b) = render a ++ render b.
Proof. intros a b. unfold render. rewrite map_app, concat_app. reflexivity. Qed.
Lemma render_cons : forall i r, render (i :: r) = item_text i ++ render r.
Proof. reflexivity. Qed.

Definition start (m : nat * nat * option str * mkind) : nat := fst (fst (fst m)).
Lemma min_in : forall l m, min_match l = Some m -> In m l.
Proof.
  induction l as [|x l IH]; intros m H; [discriminate|]. cbn [min_match] in H. destruct (min_match l) as [m'|].
  - destruct (Nat.leb _ _); injection H as <-; [left; reflexivity|right; apply IH; reflexivity].
  - injection H as <-. left. reflexivity.
Qed.
Lemma min_none : forall l, min_match l = None -> l = [].
Proof. intros [|x l] H; [reflexivity|]. cbn in H. destruct (min_match l); [destruct (Nat.leb _ _); discriminate|discriminate]. Qed.
Lemma min_pick : forall l1 m l2, (forall m', In m' (l1 ++ l2) -> start m < start m') -> min_match (l1 ++ m :: l2) = Some m.
Proof.
  induction l1 as [|x l1 IH]; intros m l2 H; cbn [app min_match].
  - destruct (min_match l2) as [m'|] eqn:E; [|reflexivity]. apply min_in in E. apply H in E. unfold start in E.
    replace (Nat.leb _ _) with true by (symmetry; apply Nat.leb_le; lia). reflexivity.
  - rewrite IH by (intros m' Hm; apply H; right; exact Hm). specialize (H x (or_introl eq_refl)). unfold start in H.
    replace (Nat.leb _ _) with false by (symmetry; apply Nat.leb_gt; lia). reflexivity.
Qed.

Lemma first_of_skip : forall kind q r off, (forall i, In i q -> kind i = false) -> first_of kind (q ++ r) off = first_of kind r (off + length (render q)).
Proof.
  induction q as [|i q IH]; intros r off H; [cbn; rewrite Nat.add_0_r; reflexivity|]. cbn [app first_of]. rewrite (H i (or_introl eq_refl)), IH by (intros j Hj; apply H; right; exact Hj).
  f_equal. rewrite render_cons, app_length. lia.
Qed.
Lemma first_of_ge : forall kind r off s e g, first_of kind r off = Some (s, e, g) -> off <= s.
Proof.
  induction r as [|i r IH]; intros off s e g H; cbn [first_of] in H; [discriminate|]. destruct (kind i); [injection H as <- _ _; lia|]. apply IH in H. lia.
Qed.

Section Run.
Variables S_ E_ L_ X_ : msearch.
Notation loop := (fun f => if_loop f S_ E_ L_ X_).
Notation reads := (reads S_ E_ L_ X_).
Lemma reads_suffix : forall a b, reads (a ++ b) -> reads b.
Proof.
  intros a b (H1 & H2 & H3 & H4 & H5).
  assert (G : forall s k, finds s k (a ++ b) -> finds s k b) by (intros s k H p q ->; apply (H (a ++ p)); rewrite app_assoc; reflexivity).
  repeat split; try (apply G; assumption). intros i Hi. apply H5. apply in_or_app. right. exact Hi.
Qed.

Definition quiet (level : nat) (i : item) : bool := is_txt i || (negb (Nat.eqb level 1) && (is_else i || is_elsif i)).
Definition kind_of (i : item) : mkind := match i with Open _ => KStart | Close _ => KEnd | Else _ => KElse | _ => KElsif end.

Lemma next_marker : forall level q i tail, reads (q ++ i :: tail) -> forallb (quiet level) q = true -> quiet level i = false ->
  min_match (valid_matches S_ E_ L_ X_ level (render (q ++ i :: tail))) =
    Some (length (render q), length (render q) + length (item_text i), condition i, kind_of i).
Proof.
  intros level q i tail (H1 & H2 & H3 & H4 & H5) Hq Hi. rewrite forallb_forall in Hq.
  assert (Ni : item_text i <> []).
  { apply H5; [apply in_or_app; right; left; reflexivity|]. unfold quiet in Hi. destruct (is_txt i); [discriminate Hi|reflexivity]. }
  assert (Li : 0 < length (item_text i)) by (destruct (item_text i); [congruence|cbn; lia]).
  assert (Qo : forall j, In j q -> is_open j = false) by (intros j Hj; specialize (Hq j Hj); destruct j; try reflexivity; cbn in Hq; rewrite andb_false_r in Hq; discriminate Hq).
  assert (Qc : forall j, In j q -> is_close j = false) by (intros j Hj; specialize (Hq j Hj); destruct j; try reflexivity; cbn in Hq; rewrite andb_false_r in Hq; discriminate Hq).
  unfold valid_matches.
  rewrite (H1 [] (q ++ i :: tail) eq_refl), (H2 [] (q ++ i :: tail) eq_refl), (H3 [] (q ++ i :: tail) eq_refl), (H4 [] (q ++ i :: tail) eq_refl).
  rewrite !(first_of_skip is_open), !(first_of_skip is_close) by assumption. cbn [first_of].
  assert (LE : exists l, (if Nat.eqb level 1 then match first_of is_else (q ++ i :: tail) 0 with Some m => [(m, KElse)] | None => [] end else []) =
     (if is_else i && Nat.eqb level 1 then [((length (render q), length (render q) + length (item_text i), condition i), KElse)] else l) /\ forall m, In m l -> length (render q) < start m).
  { destruct (Nat.eqb level 1) eqn:El; [|exists []; rewrite andb_false_r; split; [reflexivity|intros m []]].
    rewrite first_of_skip. 2:{ intros j Hj. specialize (Hq j Hj). unfold quiet in Hq. rewrite El in Hq. destruct j; try reflexivity; discriminate Hq. }
    cbn [first_of]. rewrite andb_true_r. destruct (is_else i); [exists []; split; [reflexivity|intros m []]|].
    destruct (first_of is_else tail _) as [[[s e] g]|] eqn:E; eexists; (split; [reflexivity|]); [|intros m []].
    intros m [<-|[]]. apply first_of_ge in E. cbn. lia. }
  assert (LX : exists l, (if Nat.eqb level 1 then match first_of is_elsif (q ++ i :: tail) 0 with Some m => [(m, KElsif)] | None => [] end else []) =
     (if is_elsif i && Nat.eqb level 1 then [((length (render q), length (render q) + length (item_text i), condition i), KElsif)] else l) /\ forall m, In m l -> length (render q) < start m).
  { destruct (Nat.eqb level 1) eqn:El; [|exists []; rewrite andb_false_r; split; [reflexivity|intros m []]].
    rewrite first_of_skip. 2:{ intros j Hj. specialize (Hq j Hj). unfold quiet in Hq. rewrite El in Hq. destruct j; try reflexivity; discriminate Hq. }
    cbn [first_of]. rewrite andb_true_r. destruct (is_elsif i); [exists []; split; [reflexivity|intros m []]|].
    destruct (first_of is_elsif tail _) as [[[s e] g]|] eqn:E; eexists; (split; [reflexivity|]); [|intros m []].
    intros m [<-|[]]. apply first_of_ge in E. cbn. lia. }
  destruct LE as (le & -> & HE). destruct LX as (lx & -> & HX).
  assert (LO : exists l, match (if is_open i then Some (0 + length (render q), 0 + length (render q) + length (item_text i), condition i) else first_of is_open tail (0 + length (render q) + length (item_text i))) with Some m => [(m, KStart)] | None => [] end =
     (if is_open i then [((length (render q), length (render q) + length (item_text i), condition i), KStart)] else l) /\ forall m, In m l -> length (render q) < start m).
  { destruct (is_open i); [exists []; split; [reflexivity|intros m []]|].
    destruct (first_of is_open tail _) as [[[s e] g]|] eqn:E; eexists; (split; [reflexivity|]); [|intros m []].
    intros m [<-|[]]. apply first_of_ge in E. cbn. lia. }
  assert (LC : exists l, match (if is_close i then Some (0 + length (render q), 0 + length (render q) + length (item_text i), condition i) else first_of is_close tail (0 + length (render q) + length (item_text i))) with Some m => [(m, KEnd)] | None => [] end =
     (if is_close i then [((length (render q), length (render q) + length (item_text i), condition i), KEnd)] else l) /\ forall m, In m l -> length (render q) < start m).
  { destruct (is_close i); [exists []; split; [reflexivity|intros m []]|].
    destruct (first_of is_close tail _) as [[[s e] g]|] eqn:E; eexists; (split; [reflexivity|]); [|intros m []].
    intros m [<-|[]]. apply first_of_ge in E. cbn. lia. }
  destruct LO as (lo & -> & HO). destruct LC as (lc & -> & HC).
  assert (Lv : is_else i = true \/ is_elsif i = true -> Nat.eqb level 1 = true).
  { intros H. unfold quiet in Hi. destruct (Nat.eqb level 1); [reflexivity|]. destruct H as [H|H]; rewrite H in Hi; cbn in Hi; rewrite ?orb_true_r in Hi; discriminate Hi. }
  destruct i as [s|s|s|s|s c]; cbn [is_open is_close is_else is_elsif kind_of andb] in *.
  - discriminate Hi.
  - apply (min_pick []). intros m Hm. cbn [app] in Hm. unfold start at 1. cbn. apply in_app_or in Hm as [Hm|Hm]; [apply HC; exact Hm|]. apply in_app_or in Hm as [Hm|Hm]; auto.
  - apply (min_pick lo). intros m Hm. unfold start at 1. cbn. apply in_app_or in Hm as [Hm|Hm]; auto. apply in_app_or in Hm as [Hm|Hm]; auto.
  - rewrite Lv by (left; reflexivity). cbn [app]. rewrite app_assoc. apply (min_pick (lo ++ lc)). intros m Hm. unfold start at 1. cbn. apply in_app_or in Hm as [Hm|Hm]; auto. apply in_app_or in Hm as [Hm|Hm]; auto.
  - rewrite Lv by (right; reflexivity). rewrite !app_assoc. apply (min_pick ((lo ++ lc) ++ le)). intros m Hm. unfold start at 1. cbn. rewrite app_nil_r in Hm. apply in_app_or in Hm as [Hm|Hm]; auto. apply in_app_or in Hm as [Hm|Hm]; auto.
Qed.

Lemma firstn_exact : forall (a b : str), firstn (length a) (a ++ b) = a.
Proof. intros a b. rewrite firstn_app, Nat.sub_diag, firstn_all. cbn. apply app_nil_r. Qed.
Lemma skipn_exact : forall (a b : str), skipn (length a) (a ++ b) = b.
Proof. intros a b. rewrite skipn_app, Nat.sub_diag, skipn_all. reflexivity. Qed.

(** one round *)
Lemma loop_step : forall f level pos q i tail st, reads (q ++ i :: tail) -> forallb (quiet level) q = true -> quiet level i = false -> 1 <= level ->
  loop (S f) level pos (render (q ++ i :: tail)) st =
  do ls <- after_marker (kind_of i) (condition i) level
     (push (if Nat.eqb level 1 && negb (is_open i) then render q else render q ++ item_text i) st);
  loop f (fst ls) (pos + length (render q) + length (item_text i)) (render tail) (snd ls).
Proof.
  intros f level pos q i tail st Hr Hq Hi Hl. cbn [if_loop].
  assert (Ni : item_text i <> []).
  { destruct Hr as (_ & _ & _ & _ & H5). apply H5; [apply in_or_app; right; left; reflexivity|]. unfold quiet in Hi. destruct (is_txt i); [discriminate Hi|reflexivity]. }
  replace (nilb (render (q ++ i :: tail))) with false.
  2:{ rewrite render_app, render_cons. destruct (render q); [|reflexivity]. destruct (item_text i); [congruence|reflexivity]. }
  replace (Nat.eqb level 0) with false by (symmetry; apply Nat.eqb_neq; lia). cbn [orb].
  rewrite next_marker by assumption.
  assert (Et : match kind_of i with KStart => false | _ => true end = negb (is_open i)) by (destruct i; reflexivity). rewrite Et.
  assert (E1 : firstn (if Nat.eqb level 1 && negb (is_open i) then length (render q) else length (render q) + length (item_text i)) (render (q ++ i :: tail))
    = if Nat.eqb level 1 && negb (is_open i) then render q else render q ++ item_text i).
  { rewrite render_app, render_cons. destruct (Nat.eqb level 1 && negb (is_open i)); [apply firstn_exact|]. rewrite <- app_length, app_assoc. apply firstn_exact. }
  rewrite E1. rewrite render_app, render_cons, app_assoc, <- app_length, skipn_exact, app_length, Nat.add_assoc. reflexivity.
Qed.

(** [n] rounds lead from one point of the scan to another *)
Definition leads (n level pos : nat) (rest : str) (st : ifstate) (level' pos' : nat) (rest' : str) (st' : ifstate) : Prop :=
  (forall f, loop (n + f) level pos rest st = loop f level' pos' rest' st') /\ n + length rest' <= length rest.
Lemma leads_trans : forall n1 n2 l1 p1 r1 s1 l2 p2 r2 s2 l3 p3 r3 s3, leads n1 l1 p1 r1 s1 l2 p2 r2 s2 -> leads n2 l2 p2 r2 s2 l3 p3 r3 s3 ->
  leads (n1 + n2) l1 p1 r1 s1 l3 p3 r3 s3.
Proof. intros n1 n2 l1 p1 r1 s1 l2 p2 r2 s2 l3 p3 r3 s3 [H1 L1] [H2 L2]. split; [|lia]. intros f. rewrite <- Nat.add_assoc, H1. apply H2. Qed.
Lemma leads_step : forall level level' pos q i tail st st', reads (q ++ i :: tail) -> forallb (quiet level) q = true -> quiet level i = false -> 1 <= level ->
  after_marker (kind_of i) (condition i) level (push (if Nat.eqb level 1 && negb (is_open i) then render q else render q ++ item_text i) st) = Ok (level', st') ->
  leads 1 level pos (render (q ++ i :: tail)) st level' (pos + length (render q) + length (item_text i)) (render tail) st'.
Proof.
  intros level level' pos q i tail st st' Hr Hq Hi Hl E. split.
  - intros f. cbn [Nat.add]. rewrite loop_step by assumption. rewrite E. reflexivity.
  - assert (Ni : item_text i <> []).
    { destruct Hr as (_ & _ & _ & _ & H5). apply H5; [apply in_or_app; right; left; reflexivity|]. unfold quiet in Hi. destruct (is_txt i); [discriminate Hi|reflexivity]. }
    rewrite render_app, render_cons, !app_length. destruct (item_text i); [congruence|]. cbn [length]. lia.
Qed.

Lemma quiet_open : forall level s, quiet level (Open s) = false.
Proof. intros. unfold quiet. cbn. apply andb_false_r. Qed.
Lemma quiet_close : forall level s, quiet level (Close s) = false.
Proof. intros. unfold quiet. cbn. apply andb_false_r. Qed.
(** a branch is copied to the buffer *)
Lemma run_body : forall inside l, body inside l -> forall level pend tail pos st, 1 <= level -> (inside = true -> 2 <= level) ->
  reads (pend ++ l ++ tail) -> forallb (quiet level) pend = true ->
  exists n pend' buf pos', leads n level pos (render (pend ++ l ++ tail)) st level pos' (render (pend' ++ tail)) (set_buffer buf st) /\
    forallb (quiet level) pend' = true /\ reads (pend' ++ tail) /\
    List.concat buf ++ render pend' = List.concat (buffer st) ++ render pend ++ render l /\
    pos' + length (render pend') = pos + length (render pend) + length (render l).
Proof.
  induction 1 as [inside|inside s r Hr IH|inside s s' l r Hl IHl Hr IHr|inside s r -> Hr IH|inside s c r -> Hr IH]; intros level pend tail pos st Hlv Hin Rd Hq.
  - exists 0, pend, (buffer st), pos. rewrite set_buffer_id. cbn [app] in *. split; [split; [reflexivity|lia]|]. split; [exact Hq|]. split; [exact Rd|].
    change (render []) with (@nil ch). rewrite app_nil_r. split; [reflexivity|]. cbn [length]. lia.
  - destruct (IH level (pend ++ [Txt s]) tail pos st Hlv Hin) as (n & pend' & buf & pos' & H1 & H2 & H3 & H4 & H5).
    + rewrite <- app_assoc. exact Rd.
    + rewrite forallb_app, Hq. reflexivity.
    + exists n, pend', buf, pos'. rewrite <- app_assoc in H1. split; [exact H1|]. split; [exact H2|]. split; [exact H3|].
      rewrite render_app in H4, H5. rewrite !render_cons in *. change (render []) with (@nil ch) in *. rewrite app_nil_r in *. rewrite <- !app_assoc in H4. split; [exact H4|].
      rewrite !app_length in *. lia.
  - (* Open ... Close *)
    assert (E : pend ++ (Open s :: l ++ Close s' :: r) ++ tail = pend ++ Open s :: (l ++ Close s' :: (r ++ tail))) by (cbn [app]; rewrite <- app_assoc; reflexivity).
    rewrite E in *. clear E.
    pose proof (leads_step level (S level) pos pend (Open s) (l ++ Close s' :: (r ++ tail)) st _ Rd Hq (quiet_open _ _) Hlv eq_refl) as L1.
    assert (Rd1 : reads (l ++ Close s' :: (r ++ tail))). { change (pend ++ Open s :: (l ++ Close s' :: (r ++ tail))) with (pend ++ [Open s] ++ (l ++ Close s' :: (r ++ tail))) in Rd. rewrite app_assoc in Rd. eapply reads_suffix. exact Rd. }
    destruct (IHl (S level) [] (Close s' :: (r ++ tail)) (pos + length (render pend) + length (item_text (Open s)))
       (push (if Nat.eqb level 1 && negb (is_open (Open s)) then render pend else render pend ++ item_text (Open s)) st) ltac:(lia) ltac:(lia) Rd1 eq_refl)
      as (n & pend1 & buf1 & pos1 & H1 & H2 & H3 & H4 & H5).
    assert (Hc : after_marker (kind_of (Close s')) (condition (Close s')) (S level)
      (push (if Nat.eqb (S level) 1 && negb (is_open (Close s')) then render pend1 else render pend1 ++ item_text (Close s')) (set_buffer buf1
         (push (if Nat.eqb level 1 && negb (is_open (Open s)) then render pend else render pend ++ item_text (Open s)) st)))
      = Ok (level, set_buffer (buf1 ++ [render pend1 ++ s']) st)).
    { replace (Nat.eqb (S level) 1) with false by (symmetry; apply Nat.eqb_neq; lia). cbn [andb kind_of after_marker item_text]. rewrite !push_set, !set_set, buffer_set. rewrite Nat.sub_succ, Nat.sub_0_r. reflexivity. }
    pose proof (leads_step (S level) level pos1 pend1 (Close s') (r ++ tail) _ _ H3 H2 (quiet_close _ _) ltac:(lia) Hc) as L2.
    assert (Rd2 : reads (r ++ tail)). { change (pend1 ++ Close s' :: (r ++ tail)) with (pend1 ++ [Close s'] ++ (r ++ tail)) in H3. rewrite app_assoc in H3. eapply reads_suffix. exact H3. }
    destruct (IHr level [] tail (pos1 + length (render pend1) + length (item_text (Close s'))) (set_buffer (buf1 ++ [render pend1 ++ s']) st) Hlv Hin Rd2 eq_refl)
      as (n2 & pend2 & buf2 & pos2 & G1 & G2 & G3 & G4 & G5).
    exists (1 + (n + (1 + n2))), pend2, buf2, pos2. rewrite set_set in G1.
    split; [eapply leads_trans; [exact L1|eapply leads_trans; [exact H1|eapply leads_trans; [exact L2|exact G1]]]|]. split; [exact G2|]. split; [exact G3|].
    change (render []) with (@nil ch) in *. cbn [app length] in *. rewrite buffer_set in *. rewrite push_set, buffer_set in H4. cbn [is_open negb] in H4. rewrite andb_false_r in H4.
    split.
    + rewrite G4. rewrite concat_app in *. cbn [concat app] in *. rewrite !app_nil_r in *. rewrite <- !app_assoc. rewrite (app_assoc (List.concat buf1)), H4.
      rewrite !render_cons, render_app, render_cons. cbn [item_text]. rewrite <- !app_assoc. reflexivity.
    + rewrite !render_cons, render_app, render_cons in *. cbn [item_text] in *. rewrite !app_length in *. lia.
  - destruct (IH level (pend ++ [Else s]) tail pos st Hlv Hin) as (n & pend' & buf & pos' & H1 & H2 & H3 & H4 & H5).
    + rewrite <- app_assoc. exact Rd.
    + rewrite forallb_app, Hq. cbn. unfold quiet. replace (Nat.eqb level 1) with false by (symmetry; apply Nat.eqb_neq; specialize (Hin eq_refl); lia). reflexivity.
    + exists n, pend', buf, pos'. rewrite <- app_assoc in H1. split; [exact H1|]. split; [exact H2|]. split; [exact H3|].
      rewrite render_app in H4, H5. rewrite !render_cons in *. change (render []) with (@nil ch) in *. rewrite app_nil_r in *. rewrite <- !app_assoc in H4. split; [exact H4|].
      rewrite !app_length in *. lia.
  - destruct (IH level (pend ++ [Elsif s c]) tail pos st Hlv Hin) as (n & pend' & buf & pos' & H1 & H2 & H3 & H4 & H5).
    + rewrite <- app_assoc. exact Rd.
    + rewrite forallb_app, Hq. cbn. unfold quiet. replace (Nat.eqb level 1) with false by (symmetry; apply Nat.eqb_neq; specialize (Hin eq_refl); lia). reflexivity.
    + exists n, pend', buf, pos'. rewrite <- app_assoc in H1. split; [exact H1|]. split; [exact H2|]. split; [exact H3|].
      rewrite render_app in H4, H5. rewrite !render_cons in *. change (render []) with (@nil ch) in *. rewrite app_nil_r in *. rewrite <- !app_assoc in H4. split; [exact H4|].
      rewrite !app_length in *. lia.
Qed.

(** a branch and the marker that ends it *)
Lemma run_branch : forall l m tail pos st level' st', branch l -> is_txt m = false -> is_open m = false -> reads (l ++ m :: tail) ->
  (forall buf, List.concat buf = List.concat (buffer st) ++ render l -> after_marker (kind_of m) (condition m) 1 (set_buffer buf st) = Ok (level', st' buf)) ->
  exists n buf, List.concat buf = List.concat (buffer st) ++ render l /\
    leads n 1 pos (render (l ++ m :: tail)) st level' (pos + length (render l) + length (item_text m)) (render tail) (st' buf).
Proof.
  intros l m tail pos st level' st' Hb Hm Ho Rd Hst.
  destruct (run_body false l Hb 1 [] (m :: tail) pos st (le_n 1) ltac:(discriminate) Rd eq_refl) as (n & pend & buf & pos1 & H1 & H2 & H3 & H4 & H5).
  cbn [app] in H1. change (render []) with (@nil ch) in *. cbn [app length] in H4, H5.
  assert (Hc : List.concat (buf ++ [render pend]) = List.concat (buffer st) ++ render l) by (rewrite concat_app; cbn [concat]; rewrite app_nil_r; exact H4).
  specialize (Hst _ Hc).
  exists (n + 1), (buf ++ [render pend]). split; [exact Hc|]. eapply leads_trans; [exact H1|].
  replace (pos + length (render l) + length (item_text m)) with (pos1 + length (render pend) + length (item_text m)) by lia.
  apply leads_step; [exact H3|exact H2| |lia|].
  - unfold quiet. rewrite Hm. reflexivity.
  - rewrite Ho. cbn [Nat.eqb negb andb]. rewrite push_set, set_set, buffer_set. exact Hst.
Qed.
End Run.
