(** C85: the main loop reads a document as [reading] says.  First the search for delimiters. *)
From Coq Require Import List NArith ZArith PeanoNat Lia Bool String.
From Verif Require Import PyStr Regex RegexLemmas RegexHead TexUtilsModel DelimSpec DelimProofs Json BuilderModel TokensModel CommandModel CommandSpec ParseModel ParseProofs ParseCases ParseRead.
Import ListNotations. Notation length := List.length. Notation concat := List.concat. Open Scope list_scope.

Lemma skip_pre : forall (a b : str), skipn (length a) (a ++ b) = b.
Proof. induction a; intros b; [reflexivity|apply IHa]. Qed.
Lemma first_pre : forall (a b : str), firstn (length a) (a ++ b) = a.
Proof. induction a; intros b; [destruct b; reflexivity|cbn; f_equal; apply IHa]. Qed.

Lemma nth_skip : forall (t : str) i x, nth_error t i = Some x -> skipn i t = x :: skipn (S i) t.
Proof. induction t as [|y t IH]; intros [|i] x H; cbn in H; try discriminate; [injection H as ->; reflexivity|apply (IH i x H)]. Qed.
(** what a delimiter looks like *)
Definition delim_head (b : str) : Prop :=
  (exists r, b = c_bs :: c_bs :: r) \/ (exists r, b = c_dollar :: r) \/ (exists r, b = c_pct :: r) \/
  (exists x r, b = x :: c_lb :: r /\ isspace x = true) \/ (exists r, b = c_lb :: c_rb :: r) \/ (exists r, b = c_bs :: 94%N :: r) \/
  (exists r, b = c_bs :: r /\ forall y q, r = y :: q -> in_str (lit "$%&_#{}^~\") y = false).
Lemma delim_shape : forall t i j, rel DELIM t i j -> prev_is (N.eqb c_bs) t i = false /\ (delim_head (skipn i t) \/ (i = 0 /\ exists r, t = c_lb :: r)).
Proof.
  intros t i j H. unfold DELIM in H. apply rel_rseq2 in H as (k & B & H). inversion B; subst. split; [destruct (prev_is _ t k); [discriminate|reflexivity]|].
  unfold delim_head. repeat (rewrite ?rel_alt2 in H; cbn [ralt] in H). destruct H as [H|[H|[H|[H|[H|[H|[H|H]]]]]]].
  - apply rel_rstr in H as (_ & r & E). left. left. exists r. exact E.
  - apply rel_is_ch in H as (_ & r & E). left. right. left. exists r. exact E.
  - apply rel_is_ch in H as (_ & r & E). left. right. right. left. exists r. exact E.
  - apply rel_rseq2 in H as (q & Ha & Hb). apply rel_is_ch in Hb as (_ & r & E). apply rel_alt2 in Ha as [Ha|Ha].
    + inversion Ha; subst. right. split; [reflexivity|]. exists r. exact E.
    + left. right. right. right. left. inversion Ha as [|? ? ? x Ex Px| | | | | | | | | | | | ]; subst. apply nth_skip in Ex. exists x, r. split; [rewrite Ex, E; reflexivity|].
      apply orb_true_iff in Px as [Px|Px]; apply N.eqb_eq in Px; subst x; reflexivity.
  - apply rel_rseq2 in H as (q & Ha & Hb). apply rel_is_ch in Hb as (_ & r & E). left. right. right. right. left.
    inversion Ha as [|? ? ? x Ex Px| | | | | | | | | | | | ]; subst. apply nth_skip in Ex. exists x, r. split; [rewrite Ex, E; reflexivity|exact Px].
  - apply rel_rstr in H as (_ & r & E). left. right. right. right. right. left. exists r. exact E.
  - apply rel_rstr in H as (_ & r & E). left. right. right. right. right. right. left. exists r. exact E.
  - apply rel_rseq2 in H as (q & Ha & Hb). apply rel_is_ch in Ha as (-> & r & E). left. right. right. right. right. right. right. exists r. split; [exact E|].
    intros y z ->. inversion Hb as [| | | | | | | | | | |? ? ? N| | ]; subst. specialize (N []). unfold rcls in N. cbn [rm] in N.
    assert (E1 : skipn (S k) t = y :: z) by (eapply skipn_more1; exact E). unfold next_is in N. rewrite nth_error_skipn, E1 in N. destruct (in_str _ y); [discriminate|reflexivity].
Qed.

Lemma esc_special : forall x, In x escapable -> in_str (lit "$%&_#{}^~\") x = true /\ x <> c_bs /\ x <> 94%N /\ isspace x = false.
Proof. intros x H. cbn in H. repeat (destruct H as [<-|H]; [split; [reflexivity|]; split; [discriminate|]; split; [discriminate|reflexivity]|]). destruct H. Qed.
Lemma inert_head : forall w x r, inert false w -> w = x :: r -> x <> c_lb.
Proof.
  intros w x r H. remember false as b eqn:Eb. intros E. destruct H as [b|b y w' N H|b y w' I H|w' N H].
  - discriminate.
  - injection E as -> ->. intros ->. apply N. cbn. tauto.
  - injection E as E _. subst x. discriminate.
  - discriminate.
Qed.
Lemma inert_last : forall b w, inert b w -> forall a x, w = a ++ [x] -> x <> c_bs.
Proof.
  intros b w H. induction H as [b|b y w N H IH|b y w I H IH|w N H IH]; intros a x E.
  - destruct a; discriminate.
  - destruct a as [|c a].
    + injection E as -> ->. intros ->. apply N. cbn. tauto.
    + injection E as -> E. eapply IH. exact E.
  - destruct a as [|c [|c' a]].
    + discriminate.
    + injection E as E1 E2 E3. subst. destruct (esc_special x I) as (_ & N & _). exact N.
    + injection E as E1 E2 E3. eapply IH. exact E3.
  - destruct a as [|c a].
    + injection E as E1 E2. subst. discriminate.
    + injection E as E1 E2. eapply IH. exact E2.
Qed.
(** no delimiter inside the text *)
Lemma inert_quiet : forall b w, inert b w -> forall (pre d : str) i j, (b = true -> pre <> []) -> (forall r, d = c_lb :: r -> forall a x, w = a ++ [x] -> isspace x = false) -> (forall r, d <> c_rb :: r) ->
  length pre <= i < length pre + length w -> ~ rel DELIM (pre ++ w ++ d) i j.
Proof.
  intros b w H. induction H as [b|b x w N H IH|b x w I H IH|w N H IH]; intros pre d i j Hb Hd Hr L R.
  - cbn in L. lia.
  - destruct (Nat.eq_dec i (length pre)) as [->|Ne].
    + apply delim_shape in R as (_ & [R|(Z & r & E)]).
      * rewrite skip_pre in R. cbn [app] in R.
        assert (Nx : x <> c_bs /\ x <> c_dollar /\ x <> c_pct /\ x <> c_lb) by (cbn in N; repeat split; intros ->; tauto). destruct Nx as (N1 & N2 & N3 & N4).
        destruct R as [(r & E)|[(r & E)|[(r & E)|[(y & r & E & Sy)|[(r & E)|[(r & E)|(r & E & _)]]]]]]; injection E as; try congruence.
        subst y. rewrite Sy in H. cbn [negb] in H. destruct w as [|z w].
        -- cbn [app] in *. specialize (Hd r ltac:(assumption) [] x eq_refl). congruence.
        -- cbn [app] in *. match goal with E : _ :: _ = c_lb :: _ |- _ => injection E as E0 _ end. eapply inert_head; [exact H|reflexivity|exact E0].
      * destruct pre; [|discriminate]. cbn [app] in E. injection E as -> _. apply N. cbn. tauto.
    + specialize (IH (pre ++ [x]) d i j). rewrite <- !app_assoc in IH. cbn [app] in IH. apply IH; [| |exact Hr| |exact R].
      * intros _. destruct pre; discriminate.
      * intros r E a y E2. apply (Hd r E (x :: a) y). rewrite E2. reflexivity.
      * rewrite app_length. cbn [List.length] in *. lia.
  - destruct (esc_special x I) as (S1 & S2 & S3 & S4). destruct (Nat.eq_dec i (length pre)) as [->|Ne]; [|destruct (Nat.eq_dec i (S (length pre))) as [->|Ne2]].
    + apply delim_shape in R as (_ & [R|(Z & r & E)]).
      * rewrite skip_pre in R. cbn [app] in R.
        destruct R as [(r & E)|[(r & E)|[(r & E)|[(y & r & E & Sy)|[(r & E)|[(r & E)|(r & E & Q)]]]]]]; try discriminate.
        -- injection E as E _. congruence.
        -- injection E as E _. subst y. discriminate.
        -- injection E as E _. congruence.
        -- injection E as E. specialize (Q x _ (eq_sym E)). congruence.
      * destruct pre; [|discriminate]. discriminate.
    + apply delim_shape in R as (P & _). cbn [prev_is] in P. rewrite nth_error_app2 in P by lia. rewrite Nat.sub_diag in P. discriminate.
    + specialize (IH (pre ++ [c_bs; x]) d i j). rewrite <- !app_assoc in IH. cbn [app] in IH. apply IH; [| |exact Hr| |exact R].
      * intros _. destruct pre; discriminate.
      * intros r E a y E2. apply (Hd r E (c_bs :: x :: a) y). rewrite E2. reflexivity.
      * rewrite app_length. cbn [List.length] in *. lia.
  - destruct (Nat.eq_dec i (length pre)) as [->|Ne].
    + apply delim_shape in R as (_ & [R|(Z & r & E)]).
      * rewrite skip_pre in R. cbn [app] in R.
        destruct R as [(r & E)|[(r & E)|[(r & E)|[(y & r & E & Sy)|[(r & E)|[(r & E)|(r & E & _)]]]]]]; try discriminate.
        -- injection E as E _. subst y. discriminate.
        -- injection E as E. destruct w as [|z w]; cbn [app] in E; [exact (Hr r E)|]. injection E as -> _. exact (N w eq_refl).
      * apply (Hb eq_refl). destruct pre; [reflexivity|discriminate].
    + specialize (IH (pre ++ [c_lb]) d i j). rewrite <- !app_assoc in IH. cbn [app] in IH. apply IH; [| |exact Hr| |exact R].
      * intros _. destruct pre; discriminate.
      * intros r E a y E2. apply (Hd r E (c_lb :: a) y). rewrite E2. reflexivity.
      * rewrite app_length. cbn [List.length] in *. lia.
Qed.
Lemma inert_none : forall w, inert false w -> re_search DELIM w = None.
Proof.
  intros w H. unfold re_search. apply re_search_none. intros i j L R.
  destruct (Nat.eq_dec i (length w)) as [->|Ne].
  - apply delim_shape in R as (_ & [R|(Z & r & E)]).
    + rewrite skipn_all in R. destruct R as [(r & E)|[(r & E)|[(r & E)|[(y & r & E & _)|[(r & E)|[(r & E)|(r & E & _)]]]]]]; discriminate.
    + subst w. discriminate.
  - apply (inert_quiet false w H [] [] i j); [discriminate|discriminate|discriminate|cbn; lia|]. rewrite app_nil_r. exact R.
Qed.

(** the delimiter itself *)
Lemma start_rel : forall (w d : str), inert false w -> command_start d -> exists j, rel DELIM (w ++ d) (length w) j.
Proof.
  intros w d H (x & r & E & C).
  assert (P : prev_is (N.eqb c_bs) (w ++ d) (length w) = false).
  { destruct (rev w) as [|y v] eqn:R.
    - apply (f_equal (@rev ch)) in R. rewrite rev_involutive in R. subst w. reflexivity.
    - apply (f_equal (@rev ch)) in R. rewrite rev_involutive in R. cbn [rev] in R. pose proof (inert_last false w H (rev v) y R) as N.
      subst w. rewrite app_length. cbn [List.length]. rewrite Nat.add_1_r. cbn [prev_is]. rewrite <- app_assoc. rewrite nth_error_app2 by lia. rewrite Nat.sub_diag. cbn [app nth_error]. apply N.eqb_neq. congruence. }
  assert (Sk : skipn (length w) (w ++ d) = x :: r) by (rewrite skip_pre; exact E).
  assert (B : rel (RBehind true (N.eqb c_bs)) (w ++ d) (length w) (length w)) by (constructor; rewrite P; reflexivity).
  destruct C as [->|[->|[-> C]]].
  - eexists. eapply rel_seq; [exact B|]. cbn [ralt]. apply rel_altr, rel_altl. apply rel_is_ch. split; [reflexivity|]. eexists. exact Sk.
  - eexists. eapply rel_seq; [exact B|]. cbn [ralt]. apply rel_altr, rel_altr, rel_altl. apply rel_is_ch. split; [reflexivity|]. eexists. exact Sk.
  - destruct r as [|y q].
    + eexists. eapply rel_seq; [exact B|]. cbn [ralt]. do 7 apply rel_altr. eapply rel_seq; [apply rel_is_ch; split; [reflexivity|eexists; exact Sk]|].
      apply rel_nahead. intros c. unfold rcls. cbn [rm]. unfold next_is. rewrite nth_error_skipn. rewrite (skipn_more1 _ _ _ _ Sk). reflexivity.
    + specialize (C y q eq_refl). destruct (N.eq_dec y c_bs) as [->|N1]; [|destruct (N.eq_dec y 94%N) as [->|N2]].
      * eexists. eapply rel_seq; [exact B|]. cbn [ralt]. apply rel_altl. apply rel_rstr. split; [reflexivity|]. eexists. exact Sk.
      * eexists. eapply rel_seq; [exact B|]. cbn [ralt]. do 6 apply rel_altr. apply rel_altl. apply rel_rstr. split; [reflexivity|]. eexists. exact Sk.
      * eexists. eapply rel_seq; [exact B|]. cbn [ralt]. do 7 apply rel_altr. eapply rel_seq; [apply rel_is_ch; split; [reflexivity|eexists; exact Sk]|].
        apply rel_nahead. intros c. unfold rcls. cbn [rm]. unfold next_is. rewrite nth_error_skipn. rewrite (skipn_more1 _ _ _ _ Sk).
        assert (F : in_str (lit "$%&_#{}^~\") y = false); [|rewrite F; reflexivity].
        destruct (in_str (lit "$%&_#{}^~\") y) eqn:F; [|reflexivity]. exfalso. unfold in_str in F. apply existsb_exists in F as (z & I & Z). apply N.eqb_eq in Z. subst z.
        cbn in I. apply C. cbn. unfold c_bs in *. repeat (destruct I as [<-|I]; [try tauto; congruence|]). destruct I.
Qed.
Lemma found_at : forall (w d : str) j, inert false w -> (forall r, d <> c_rb :: r) -> (forall r, d = c_lb :: r -> forall a x, w = a ++ [x] -> isspace x = false) ->
  rel DELIM (w ++ d) (length w) j -> exists m, re_search DELIM (w ++ d) = Some m /\ m_start m = length w.
Proof.
  intros w d j H Hr Hd R. unfold re_search. destruct (re_search_from DELIM (w ++ d) 0) as [m|] eqn:E.
  - exists m. split; [reflexivity|]. apply re_search_some in E as (_ & _ & Rm & _ & N).
    destruct (Nat.lt_trichotomy (m_start m) (length w)) as [L|[L|L]]; [exfalso|exact L|exfalso].
    + apply (inert_quiet false w H [] d (m_start m) (m_end m)); [discriminate|exact Hd|exact Hr|cbn; lia|exact Rm].
    + apply (N (length w) j); [lia|exact R].
  - exfalso. rewrite re_search_none in E. apply (E (length w) j); [|exact R]. rewrite app_length. lia.
Qed.
Lemma delimits_found : forall w d, inert false w -> delimits w d -> exists m, re_search DELIM (w ++ d) = Some m /\ m_start m = length w.
Proof.
  intros w d H D. destruct D as [d C|x r Sx|r Sx].
  - destruct (start_rel w d H C) as (j & R). destruct C as (x & r & E & C). eapply found_at; [exact H| | |exact R].
    + intros r' E'. rewrite E' in E. injection E as <- <-. destruct C as [C|[C|[C _]]]; discriminate.
    + intros r' E' a y _. exfalso. rewrite E' in E. injection E as <- <-. destruct C as [C|[C|[C _]]]; discriminate.
  - assert (B : prev_is (N.eqb c_bs) (w ++ x :: c_lb :: r) (length w) = false).
    { destruct (rev w) as [|y v] eqn:R.
      - apply (f_equal (@rev ch)) in R. rewrite rev_involutive in R. subst w. reflexivity.
      - apply (f_equal (@rev ch)) in R. rewrite rev_involutive in R. cbn [rev] in R. pose proof (inert_last false w H (rev v) y R) as N.
        subst w. rewrite app_length. cbn [List.length]. rewrite Nat.add_1_r. cbn [prev_is]. rewrite <- app_assoc. rewrite nth_error_app2 by lia. rewrite Nat.sub_diag. cbn [app nth_error]. apply N.eqb_neq. congruence. }
    eapply found_at; [exact H| | |].
    + intros r' E. injection E as -> _. discriminate.
    + intros r' E a y _. injection E as -> _. discriminate.
    + eapply rel_seq; [constructor; rewrite B; reflexivity|]. cbn [ralt]. do 4 apply rel_altr. apply rel_altl.
      pose proof (skip_pre w (x :: c_lb :: r)) as Sk. eapply rel_seq; [econstructor; [rewrite nth_error_skipn, Sk; reflexivity|exact Sx]|].
      apply rel_is_ch. split; [reflexivity|]. eexists. eapply skipn_more1. exact Sk.
  - assert (B : prev_is (N.eqb c_bs) (w ++ c_lb :: c_rb :: r) (length w) = false).
    { destruct (rev w) as [|y v] eqn:R.
      - apply (f_equal (@rev ch)) in R. rewrite rev_involutive in R. subst w. reflexivity.
      - apply (f_equal (@rev ch)) in R. rewrite rev_involutive in R. cbn [rev] in R. pose proof (inert_last false w H (rev v) y R) as N.
        subst w. rewrite app_length. cbn [List.length]. rewrite Nat.add_1_r. cbn [prev_is]. rewrite <- app_assoc. rewrite nth_error_app2 by lia. rewrite Nat.sub_diag. cbn [app nth_error]. apply N.eqb_neq. congruence. }
    eapply found_at; [exact H| | |].
    + intros r' E. discriminate.
    + intros r' E a y E2. eapply Sx. exact E2.
    + eapply rel_seq; [constructor; rewrite B; reflexivity|]. cbn [ralt]. do 5 apply rel_altr. apply rel_altl.
      apply rel_rstr. split; [reflexivity|]. eexists. exact (skip_pre w (c_lb :: c_rb :: r)).
Qed.
