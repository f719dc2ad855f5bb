From Coq Require Import List NArith PeanoNat Lia Bool.
From Verif Require Import PyStr Regex Json IfModel IfSpec IfProofs TableProofs2.
Import ListNotations.

Section Final.
Variables S_ E_ L_ X_ : msearch.
Notation reads := (reads S_ E_ L_ X_).
Notation leads := (leads S_ E_ L_ X_).

Lemma strs_eqb_eq : forall a b, strs_eqb a b = true -> a = b.
Proof.
  induction a as [|x a IH]; intros [|y b] H; cbn in H; try discriminate; [reflexivity|]. apply andb_true_iff in H as [H1 H2]. apply str_eqb_spec in H1. f_equal; [exact H1|apply IH; exact H2].
Qed.
Lemma set_last_snoc : forall l c x y, set_last y (l ++ [(c, x)]) = Some (l ++ [(c, y)]).
Proof. intros l c x y. unfold set_last. rewrite rev_unit, rev_involutive. reflexivity. Qed.

Definition at_alt (I : str) (br : list (option str * str)) (buf : list str) : ifstate :=
  {| if_content := [I]; else_content := []; elsif_branches := br; current := CBuf buf |}.
Definition at_else (I : list str) (br : list (option str * str)) (buf : list str) : ifstate :=
  {| if_content := I; else_content := buf; elsif_branches := br; current := CElse |}.

Lemma reads_tail : forall l m t, reads (l ++ m :: t) -> reads t.
Proof. intros l m t H. change (l ++ m :: t) with (l ++ [m] ++ t) in H. rewrite app_assoc in H. eapply reads_suffix. exact H. Qed.

(** through the alternatives up to a marker [m] that ends the last one *)
Lemma run_alts : forall I (fin : list (option str * str) -> list str -> ifstate) level' m T, is_txt m = false -> is_open m = false ->
  (forall br c b buf, concat buf = render b -> after_marker (kind_of m) (condition m) 1 (at_alt I (br ++ [(c, [])]) buf) = Ok (level', fin (br ++ [(c, strip (render b))]) buf)) ->
  forall alts c b br pos, branch b -> (forall a, In a alts -> branch (snd a)) ->
  (forall b', In b' (removelast (b :: map snd alts)) -> render b' <> I) ->
  reads (b ++ alternatives alts ++ m :: T) ->
  exists n buf, concat buf = render (last (map snd alts) b) /\ leads n 1 pos (render (b ++ alternatives alts ++ m :: T)) (at_alt I (br ++ [(c, [])]) [])
    level' (pos + length (render (b ++ alternatives alts)) + length (item_text m)) (render T) (fin (br ++ (c, strip (render b)) :: map alt_value alts) buf).
Proof.
  intros I fin level' m T Hm1 Hm2 Hfin. induction alts as [|[[s c'] b'] alts IH]; intros c b br pos Hb Ha Hne Rd.
  - cbn [alternatives map concat app] in *. rewrite app_nil_r.
    destruct (run_branch S_ E_ L_ X_ b m T pos (at_alt I (br ++ [(c, [])]) []) level' (fin (br ++ [(c, strip (render b))])) Hb Hm1 Hm2 Rd) as (n & buf & Hbuf & L).
    + intros buf Hbuf. apply Hfin. exact Hbuf.
    + exists n, buf. split; [exact Hbuf|exact L].
  - assert (E : alternatives ((s, c', b') :: alts) = Elsif s c' :: b' ++ alternatives alts) by reflexivity. rewrite E in *. clear E.
    assert (Hx : b ++ (Elsif s c' :: b' ++ alternatives alts) ++ m :: T = b ++ Elsif s c' :: (b' ++ alternatives alts ++ m :: T)) by (cbn [app]; rewrite <- app_assoc; reflexivity).
    rewrite Hx in *. clear Hx.
    destruct (run_branch S_ E_ L_ X_ b (Elsif s c') (b' ++ alternatives alts ++ m :: T) pos (at_alt I (br ++ [(c, [])]) []) 1
       (fun _ => at_alt I ((br ++ [(c, strip (render b))]) ++ [(c', [])]) []) Hb eq_refl eq_refl Rd) as (n & buf & Hbuf & L).
    + intros buf Hbuf. cbn [kind_of after_marker condition]. unfold set_buffer, at_alt, buffer. cbn [current if_content else_content elsif_branches buffer].
      unfold buffer in Hbuf. cbn in Hbuf.
      replace (strs_eqb buf [I]) with false.
      2:{ symmetry. apply not_true_iff_false. intros C. apply strs_eqb_eq in C. subst buf. cbn in Hbuf. rewrite app_nil_r in Hbuf. apply (Hne b); [left; reflexivity|congruence]. }
      rewrite set_last_snoc. cbn [bind fst snd]. unfold join_strip. rewrite Hbuf. reflexivity.
    + destruct (IH c' b' (br ++ [(c, strip (render b))]) (pos + length (render b) + length (item_text (Elsif s c')))) as (n2 & buf2 & Hbuf2 & L2).
      * apply (Ha (s, c', b')). left. reflexivity.
      * intros a Hin. apply Ha. right. exact Hin.
      * intros b0 Hin. apply Hne. cbn [map snd]. change (removelast (b :: b' :: map snd alts)) with (b :: removelast (b' :: map snd alts)). right. exact Hin.
      * eapply reads_tail. exact Rd.
      * exists (n + n2), buf2. split.
        -- cbn [map snd]. rewrite Hbuf2. destruct alts as [|a alts]; [reflexivity|]. clear. cbn [map]. revert a. induction alts as [|a' alts IH]; intros a; [reflexivity|]. cbn [map last] in *. apply IH.
        -- eapply leads_trans; [exact L|].
           assert (E2 : (br ++ [(c, strip (render b))]) ++ (c', strip (render b')) :: map alt_value alts = br ++ (c, strip (render b)) :: map alt_value ((s, c', b') :: alts)) by (rewrite <- app_assoc; reflexivity).
           rewrite E2 in L2.
           replace (pos + length (render (b ++ Elsif s c' :: b' ++ alternatives alts)) + length (item_text m))
             with (pos + length (render b) + length (item_text (Elsif s c')) + length (render (b' ++ alternatives alts)) + length (item_text m)).
           ++ exact L2.
           ++ rewrite !render_app, !render_cons, !render_app, !app_length. lia.
Qed.

(** from a state to the end *)
Lemma finish : forall n content st pos rest, leads n 1 0 content {| if_content := []; else_content := []; elsif_branches := []; current := CIf |} 0 pos rest st ->
  extract_else_elseif_fi S_ E_ L_ X_ content = Ok (join_strip (if_content st), join_strip (else_content st), elsif_branches st, pos).
Proof.
  intros n content st pos rest [H L]. unfold extract_else_elseif_fi. replace (S (length content)) with (n + S (length content - n)) by lia. rewrite H.
  cbn [if_loop]. rewrite orb_true_r. reflexivity.
Qed.

Theorem if_else_fi : forall b0 alts e b1 c rest, branch b0 -> branch b1 -> (forall a, In a alts -> branch (snd a)) ->
  (forall b, In b (removelast (map snd alts)) -> render b <> strip (render b0)) ->
  reads (b0 ++ alternatives alts ++ Else e :: b1 ++ Close c :: rest) ->
  extract_else_elseif_fi S_ E_ L_ X_ (render (b0 ++ alternatives alts ++ Else e :: b1 ++ Close c :: rest)) =
    Ok (strip (render b0), strip (render b1), map alt_value alts, length (render (b0 ++ alternatives alts ++ Else e :: b1 ++ [Close c]))).
Proof.
  intros b0 alts e b1 c rest Hb0 Hb1 Ha Hne Rd.
  assert (G : exists n I, (I = [strip (render b0)] \/ concat I = render b0) /\ leads n 1 0 (render (b0 ++ alternatives alts ++ Else e :: b1 ++ Close c :: rest))
     {| if_content := []; else_content := []; elsif_branches := []; current := CIf |} 1 (length (render (b0 ++ alternatives alts ++ [Else e]))) (render (b1 ++ Close c :: rest)) (at_else I (map alt_value alts) [])).
  { destruct alts as [|[[s x] b] alts].
    - cbn [alternatives map concat app] in *.
      destruct (run_branch S_ E_ L_ X_ b0 (Else e) (b1 ++ Close c :: rest) 0 {| if_content := []; else_content := []; elsif_branches := []; current := CIf |} 1
        (fun buf => at_else buf [] []) Hb0 eq_refl eq_refl Rd) as (n & buf & Hbuf & L).
      + intros buf Hbuf. reflexivity.
      + exists n, buf. split; [right; exact Hbuf|].
        replace (length (render (b0 ++ [Else e]))) with (0 + length (render b0) + length (item_text (Else e))); [exact L|].
        rewrite render_app, render_cons, !app_length. change (length (render [])) with 0. lia.
    - assert (E : alternatives ((s, x, b) :: alts) = Elsif s x :: b ++ alternatives alts) by reflexivity. rewrite E in *. clear E.
      assert (Hx : forall T, b0 ++ (Elsif s x :: b ++ alternatives alts) ++ T = b0 ++ Elsif s x :: (b ++ alternatives alts ++ T)) by (intros; cbn [app]; rewrite <- app_assoc; reflexivity).
      rewrite !Hx in *. clear Hx.
      destruct (run_branch S_ E_ L_ X_ b0 (Elsif s x) (b ++ alternatives alts ++ Else e :: b1 ++ Close c :: rest) 0
        {| if_content := []; else_content := []; elsif_branches := []; current := CIf |} 1 (fun _ => at_alt (strip (render b0)) ([] ++ [(x, [])]) []) Hb0 eq_refl eq_refl Rd) as (n & buf & Hbuf & L).
      + intros buf Hbuf. unfold buffer in Hbuf. cbn in Hbuf. cbn. unfold join_strip, buffer. cbn. rewrite Hbuf. reflexivity.
      + destruct (run_alts (strip (render b0)) (fun br _ => at_else [strip (render b0)] br []) 1 (Else e) (b1 ++ Close c :: rest) eq_refl eq_refl) with (alts := alts) (c := x) (b := b) (br := @nil (option str * str))
          (pos := 0 + length (render b0) + length (item_text (Elsif s x))) as (n2 & buf2 & Hbuf2 & L2).
        * intros br c0 b' buf' Hbuf'. cbn [kind_of after_marker]. unfold at_alt, buffer. cbn [current elsif_branches if_content else_content]. rewrite set_last_snoc. unfold join_strip. rewrite Hbuf'. reflexivity.
        * apply (Ha (s, x, b)). left. reflexivity.
        * intros a Hin. apply Ha. right. exact Hin.
        * intros b' Hin. apply Hne. exact Hin.
        * eapply reads_tail. exact Rd.
        * exists (n + n2), [strip (render b0)]. split; [left; reflexivity|]. eapply leads_trans; [exact L|]. cbn [app map]. 
          replace (length (render (b0 ++ Elsif s x :: b ++ alternatives alts ++ [Else e]))) with (0 + length (render b0) + length (item_text (Elsif s x)) + length (render (b ++ alternatives alts)) + length (item_text (Else e))).
          -- exact L2.
          -- rewrite !render_app, !render_cons, !render_app, render_cons, !app_length. change (length (render [])) with 0. lia. }
  destruct G as (n & I & HI & L).
  assert (Rd1 : reads (b1 ++ Close c :: rest)). { rewrite app_assoc in Rd. eapply reads_tail. exact Rd. }
  destruct (run_branch S_ E_ L_ X_ b1 (Close c) rest (length (render (b0 ++ alternatives alts ++ [Else e]))) (at_else I (map alt_value alts) []) 0
    (at_else I (map alt_value alts)) Hb1 eq_refl eq_refl Rd1) as (n2 & buf & Hbuf & L2).
  { intros buf Hbuf. reflexivity. }
  rewrite (finish _ _ _ _ _ (leads_trans _ _ _ _ _ _ _ _ _ _ _ _ _ _ _ _ _ _ L L2)). unfold at_else. cbn [if_content else_content elsif_branches].
  assert (EI : join_strip I = strip (render b0)). { destruct HI as [->|HI]; unfold join_strip; [cbn; rewrite app_nil_r; apply strip_idem|rewrite HI; reflexivity]. }
  rewrite EI. unfold join_strip at 1. rewrite Hbuf. unfold buffer. cbn [at_else current else_content concat app]. do 2 f_equal.
  rewrite !render_app, !render_cons, !render_app, render_cons, !app_length. change (length (render [])) with 0. lia.
Qed.

(** without \else *)
Theorem if_fi : forall b0 c rest, branch b0 -> reads (b0 ++ Close c :: rest) ->
  extract_else_elseif_fi S_ E_ L_ X_ (render (b0 ++ Close c :: rest)) = Ok (strip (render b0), [], [], length (render (b0 ++ [Close c]))).
Proof.
  intros b0 c rest Hb Rd.
  destruct (run_branch S_ E_ L_ X_ b0 (Close c) rest 0 {| if_content := []; else_content := []; elsif_branches := []; current := CIf |} 0
    (fun buf => {| if_content := buf; else_content := []; elsif_branches := []; current := CIf |}) Hb eq_refl eq_refl Rd) as (n & buf & Hbuf & L).
  { intros buf Hbuf. reflexivity. }
  rewrite (finish _ _ _ _ _ L). cbn [if_content else_content elsif_branches]. unfold join_strip at 1. rewrite Hbuf. cbn [app]. f_equal. f_equal.
  rewrite render_app, render_cons, !app_length. change (length (render [])) with 0. unfold buffer. cbn. lia.
Qed.
End Final.
