From Coq Require Import List NArith ZArith PeanoNat Lia Bool.
From Verif Require Import PyStr Regex RegexLemmas RegexLocal RegexHead Json TexUtilsModel DelimSpec DelimProofs BuilderModel FactoryModel TableSpec TableModel.
Import ListNotations.

Lemma level_app : forall a b, brace_level (a ++ b) = (brace_level a + brace_level b)%Z.
Proof. induction a as [|x a IH]; intros b; cbn [brace_level app]; [lia|]. rewrite IH. lia. Qed.

(** the loop without strip and filter *)
Fixpoint raw_loop (content d : str) (i skip : nat) (nesting : Z) (cur rest : str) : list str :=
  match rest with
  | [] => [cur]
  | x :: r =>
      match skip with
      | S k => raw_loop content d (S i) k nesting cur r
      | O =>
          if N.eqb x c_lb then raw_loop content d (S i) 0 (nesting + 1) (cur ++ [x]) r
          else if N.eqb x c_rb then raw_loop content d (S i) 0 (nesting - 1) (cur ++ [x]) r
          else if startswith rest d && Z.eqb nesting 0 && negb (is_escaped i content)
          then cur :: raw_loop content d (S i) (length d - 1) nesting [] r
          else raw_loop content d (S i) 0 nesting (cur ++ [x]) r
      end
  end.
Lemma split_raw : forall rows content d rest i skip nest cur,
  split_loop rows content d i skip nest cur rest = flat_map (flush rows) (raw_loop content d i skip nest cur rest).
Proof.
  intros rows content d rest. induction rest as [|x r IH]; intros i skip nest cur.
  - cbn. rewrite app_nil_r. reflexivity.
  - cbn [split_loop raw_loop]. destruct skip; [|apply IH]. destruct (N.eqb x c_lb); [apply IH|]. destruct (N.eqb x c_rb); [apply IH|].
    destruct (startswith (x :: r) d && Z.eqb nest 0 && negb (is_escaped i content)); [|apply IH].
    cbn [flat_map]. rewrite IH. reflexivity.
Qed.
Lemma raw_skip : forall content d nest cur k i rest, k <= length rest ->
  raw_loop content d i k nest cur rest = raw_loop content d (i + k) 0 nest cur (skipn k rest).
Proof.
  intros content d nest cur. induction k as [|k IH]; intros i rest H.
  - rewrite Nat.add_0_r. reflexivity.
  - destruct rest as [|x r]; [cbn in H; lia|]. cbn [raw_loop skipn]. rewrite IH by (cbn in H; lia). f_equal. lia.
Qed.
Lemma raw_nonempty : forall content d rest i skip nest cur, raw_loop content d i skip nest cur rest <> [].
Proof.
  intros content d rest. induction rest as [|x r IH]; intros i skip nest cur; [discriminate|]. cbn [raw_loop].
  destruct skip; [|apply IH]. destruct (N.eqb x c_lb); [apply IH|]. destruct (N.eqb x c_rb); [apply IH|].
  destruct (startswith (x :: r) d && Z.eqb nest 0 && negb (is_escaped i content)); [discriminate|apply IH].
Qed.

Lemma delim_facts : forall d, table_delimiter d -> d <> [] /\ brace_level d = 0%Z /\
  (forall q, startswith (c_lb :: q) d = false /\ startswith (c_rb :: q) d = false) /\
  (* separators do not overlap *)
  (forall before q b2 a2, separator d before (d ++ q) -> before ++ d ++ q = b2 ++ a2 -> separator d b2 a2 ->
     length before < length b2 -> length before + length d <= length b2).
Proof.
  intros d [-> | ->]; (split; [discriminate|]); (split; [reflexivity|]); (split; [intros; split; reflexivity|]).
  - intros before q b2 a2 _ _ _ H. cbn. lia.
  - intros before q b2 a2 (_ & C & _) E (_ & C2 & _) H. cbn [length].
    destruct (Nat.eq_dec (length b2) (S (length before))) as [L|]; [|lia]. exfalso.
    assert (b2 = before ++ [c_bs]).
    { assert (firstn (S (length before)) (before ++ [c_bs; c_bs] ++ q) = firstn (S (length before)) (b2 ++ a2)) as F by (f_equal; exact E).
      rewrite <- L in F at 2. rewrite firstn_app, firstn_all2, Nat.sub_succ_l, Nat.sub_diag in F by lia. cbn in F.
      rewrite firstn_app, Nat.sub_diag, firstn_all in F. cbn in F. rewrite app_nil_r in F. symmetry. exact F. }
    subst b2. apply closes_after_esc in C. apply closes_after_esc in C2. rewrite esc_end_app, C in C2. cbn in C2. discriminate.
Qed.

Section S.
Variable d : str.
Hypothesis Hd : table_delimiter d.

Lemma separator_test : forall (before : str) (x : ch) (r : str),
  (N.eqb x c_lb = false -> N.eqb x c_rb = false ->
   startswith (x :: r) d && Z.eqb (brace_level before) 0 && negb (is_escaped (length before) (before ++ x :: r)) = true <->
   separator d before (x :: r)).
Proof.
  intros before x r _ _. unfold separator. rewrite is_escaped_pre, !andb_true_iff, negb_true_iff, Z.eqb_eq, startswith_spec, closes_after_esc. tauto.
Qed.

Lemma join_cons2 : forall x y r, join d (x :: y :: r) = x ++ d ++ join d (y :: r).
Proof. reflexivity. Qed.
Lemma join_len : forall a, a <> [] -> forall x, length (join d (x :: a)) = length x + length d + length (join d a).
Proof. intros [|y a] H x; [congruence|]. rewrite join_cons2, !app_length. lia. Qed.

Lemma app_len_inj : forall (a b c e : str), a ++ b = c ++ e -> length a = length c -> a = c /\ b = e.
Proof.
  induction a as [|x a IH]; intros b [|y c] e H L; cbn in *; try discriminate; [auto|].
  injection H as -> H. injection L as L. destruct (IH _ _ _ H L) as [-> ->]. auto.
Qed.

(** [done ++ cur] has been read; no separator starts inside [cur]. *)
Lemma raw_spec : forall n rest, length rest <= n -> forall done cur,
  (forall b a, cur ++ rest = b ++ a -> length b < length cur -> ~ separator d (done ++ b) a) ->
  let raw := raw_loop (done ++ cur ++ rest) d (length (done ++ cur)) 0 (brace_level (done ++ cur)) cur rest in
  join d raw = cur ++ rest /\
  forall b a, cur ++ rest = b ++ a ->
    (separator d (done ++ b) a <-> exists p q, p <> [] /\ q <> [] /\ raw = p ++ q /\ b = join d p).
Proof.
  destruct (delim_facts d Hd) as (Hne & Hbal & Hbr & Hov).
  induction n as [|n IH]; intros rest Hn done cur Hno.
  all: assert (Hend : rest = [] -> let raw := raw_loop (done ++ cur ++ rest) d (length (done ++ cur)) 0 (brace_level (done ++ cur)) cur rest in
    join d raw = cur ++ rest /\ forall b a, cur ++ rest = b ++ a ->
    (separator d (done ++ b) a <-> exists p q, p <> [] /\ q <> [] /\ raw = p ++ q /\ b = join d p)).
  1,3: (intros ->; cbn [raw_loop]; cbn zeta; rewrite app_nil_r in *; split; [reflexivity|]; intros b a E; split;
      [ intros S; exfalso;
        destruct (Nat.lt_ge_cases (length b) (length cur)) as [L|L]; [exact (Hno b a E L S)|];
        assert (length cur = length b + length a) by (rewrite E, app_length; reflexivity);
        assert (a = []) by (apply length_zero_iff_nil; lia); subst a; destruct S as (_ & _ & q & Sq);
        symmetry in Sq; apply app_eq_nil in Sq; tauto
      | intros (p & q & Hp & Hq & Er & _); exfalso; destruct p as [|x p]; [congruence|]; cbn in Er; injection Er as _ Er; destruct p, q; cbn in Er; congruence ]).
  { destruct rest; [apply Hend; reflexivity|cbn in Hn; lia]. }
  destruct rest as [|x r]; [apply Hend; reflexivity|]. clear Hend. cbn [length] in Hn.
  cbn zeta. cbn [raw_loop].
  (* the step that appends x *)
  assert (Step : ~ separator d (done ++ cur) (x :: r) ->
    let raw := raw_loop (done ++ cur ++ x :: r) d (S (length (done ++ cur))) 0 (brace_level (done ++ cur ++ [x])) (cur ++ [x]) r in
    join d raw = cur ++ x :: r /\ forall b a, cur ++ x :: r = b ++ a ->
    (separator d (done ++ b) a <-> exists p q, p <> [] /\ q <> [] /\ raw = p ++ q /\ b = join d p)).
  { intros NS. specialize (IH r ltac:(lia) done (cur ++ [x])). rewrite <- !app_assoc in IH. cbn [app] in IH.
    rewrite !app_length in *. cbn [length] in *. replace (S (length done + length cur)) with (length done + (length cur + 1)) by lia.
    apply IH. intros b a E L. destruct (Nat.eq_dec (length b) (length cur)) as [Eq|Ne].
    - destruct (app_len_inj _ _ _ _ E (eq_sym Eq)) as [<- <-]. exact NS.
    - apply Hno; [exact E|lia]. }
  assert (Hpre : done ++ cur ++ x :: r = (done ++ cur) ++ x :: r) by (rewrite app_assoc; reflexivity).
  destruct (N.eqb x c_lb) eqn:E1.
  { apply N.eqb_eq in E1. subst x.
    replace (brace_level (done ++ cur) + 1)%Z with (brace_level (done ++ cur ++ [c_lb])) by (rewrite !level_app; change (brace_level [c_lb]) with 1%Z; change (brace_level [c_rb]) with (-1)%Z; lia).
    apply Step. intros (_ & _ & q & Sq). destruct (Hbr r) as [Hb _]. rewrite Sq, startswith_app in Hb. discriminate. }
  destruct (N.eqb x c_rb) eqn:E2.
  { apply N.eqb_eq in E2. subst x.
    replace (brace_level (done ++ cur) - 1)%Z with (brace_level (done ++ cur ++ [c_rb])) by (rewrite !level_app; change (brace_level [c_lb]) with 1%Z; change (brace_level [c_rb]) with (-1)%Z; lia).
    apply Step. intros (_ & _ & q & Sq). destruct (Hbr r) as [_ Hb]. rewrite Sq, startswith_app in Hb. discriminate. }
  rewrite Hpre. pose proof (separator_test (done ++ cur) x r E1 E2) as T.
  destruct (startswith (x :: r) d && Z.eqb (brace_level (done ++ cur)) 0 && negb (is_escaped (length (done ++ cur)) ((done ++ cur) ++ x :: r))) eqn:Tst.
  - (* a separator *)
    apply proj1 in T. specialize (T eq_refl). pose proof T as (Tl & _ & q & Eq).
    assert (Hlen : S (length r) = length d + length q) by (apply (f_equal (@length _)) in Eq; rewrite app_length in Eq; exact Eq).
    destruct (length d) as [|k] eqn:Ek; [destruct d; [congruence|discriminate]|].
    rewrite raw_skip by lia.
    assert (Er : skipn (S k - 1) r = q).
    { replace (S k - 1) with k by lia. etransitivity; [exact (f_equal (skipn (S k)) Eq)|]. rewrite <- Ek, skipn_app, skipn_all, Nat.sub_diag. reflexivity. }
    rewrite Er. specialize (IH q ltac:(lia) ((done ++ cur) ++ d) []).
    assert (Q : ((done ++ cur) ++ d) ++ [] ++ q = (done ++ cur) ++ x :: r) by (etransitivity; [|exact (f_equal (fun z => (done ++ cur) ++ z) (eq_sym Eq))]; cbn [app]; rewrite <- !app_assoc; reflexivity).
    rewrite Q, app_nil_r in IH. clear Q.
    replace (length ((done ++ cur) ++ d)) with (S (length (done ++ cur)) + (S k - 1)) in IH by (rewrite (app_length (done ++ cur) d); lia).
    rewrite (level_app (done ++ cur) d), Hbal, Z.add_0_r in IH. cbn [app] in IH.
    specialize (IH ltac:(intros b a _ L; cbn in L; lia)). cbn zeta in IH. revert IH.
    set (raw := raw_loop ((done ++ cur) ++ x :: r) d (S (length (done ++ cur)) + (S k - 1)) 0 (brace_level (done ++ cur)) [] q).
    assert (Hraw : raw <> []) by apply raw_nonempty. clearbody raw. intros [IHj IHs].
    split.
    { destruct raw as [|y raw]; [congruence|]. rewrite join_cons2, IHj, Eq. reflexivity. }
    intros b a E. rewrite Eq in E. split.
    + intros S. destruct (Nat.lt_ge_cases (length b) (length cur)) as [L|L].
      { exfalso. apply (Hno b a); [rewrite Eq; exact E|exact L|exact S]. }
      destruct (Nat.eq_dec (length b) (length cur)) as [Lb|Lb].
      { destruct (app_len_inj _ _ _ _ E (eq_sym Lb)) as [<- _]. exists [cur], raw. repeat split; [discriminate|exact Hraw]. }
      assert (Lb2 : length (done ++ cur) + length d <= length (done ++ b)).
      { rewrite Eq in T. rewrite Ek. apply (Hov (done ++ cur) q (done ++ b) a); [exact T| |exact S|rewrite !app_length; lia].
        rewrite <- !app_assoc. f_equal. exact E. }
      rewrite !app_length in Lb2.
      assert (exists b', b = cur ++ d ++ b' /\ q = b' ++ a) as (b' & -> & Eqa).
      { exists (skipn (length cur + length d) b). 
        assert (F : cur ++ d = firstn (length cur + length d) b).
        { apply (f_equal (firstn (length cur + length d))) in E. rewrite app_assoc in E. rewrite (firstn_app _ (cur ++ d)) in E.
          rewrite app_length, Nat.sub_diag, <- app_length, firstn_all in E. cbn in E. rewrite app_nil_r in E. rewrite E, firstn_app.
          replace (length (cur ++ d) - length b) with 0 by (rewrite app_length; lia). cbn [firstn]. rewrite app_nil_r, app_length. reflexivity. }
        assert (Eb : b = cur ++ d ++ skipn (length cur + length d) b).
        { rewrite app_assoc, F, firstn_skipn. reflexivity. }
        split; [exact Eb|]. rewrite Eb in E at 1. rewrite <- !app_assoc in E. apply app_inv_head in E. apply app_inv_head in E. exact E. }
      destruct (IHs b' a Eqa) as [IH1 _]. rewrite <- !app_assoc in IH1.
      destruct (IH1 S) as (p & q' & Hp & Hq & Erq & ->). exists (cur :: p), q'. repeat split; try assumption; [discriminate|rewrite Erq; reflexivity|].
      destruct p; [congruence|]. reflexivity.
    + intros (p & q' & Hp & Hq & Erq & Ej). destruct p as [|y p]; [congruence|]. cbn in Erq. injection Erq as <- Erq.
      destruct p as [|z p].
      * cbn in Ej. subst b. apply app_inv_head in E. subst a. rewrite Eq in T. exact T.
      * rewrite join_cons2 in Ej. subst b. rewrite <- !app_assoc in E. apply app_inv_head in E. apply app_inv_head in E.
        rewrite app_assoc, app_assoc. apply (IHs _ a E). exists (z :: p), q'. repeat split; try assumption. discriminate.
  - rewrite <- Hpre. replace (brace_level (done ++ cur)) with (brace_level (done ++ cur ++ [x])).
    + apply Step. intros C. apply T in C. discriminate.
    + rewrite !level_app. cbn [brace_level]. rewrite E1, E2. lia.
Qed.

Lemma split_pieces : forall content, exists raw, pieces d content raw /\
  split_latex_content content d false = map strip raw /\
  split_latex_content content d true = filter (fun p => negb (nilb p)) (map strip raw).
Proof.
  intros content. destruct (raw_spec (length content) content (le_n _) [] []) as [H1 H2]; [intros b a _ L; cbn in L; lia|].
  cbn [app length brace_level] in H1, H2. exists (raw_loop content d 0 0 0 [] content).
  split; [split; [apply raw_nonempty|split; assumption]|].
  unfold split_latex_content. rewrite !split_raw. generalize (raw_loop content d 0 0 0 [] content). intros l. split.
  - induction l as [|x l IH]; [reflexivity|]. cbn [flat_map map]. rewrite IH. reflexivity.
  - induction l as [|x l IH]; [reflexivity|]. cbn [flat_map map filter]. rewrite IH. unfold flush. cbn [andb]. destruct (nilb (strip x)); reflexivity.
Qed.

Lemma raw_pieces : forall content, pieces d content (raw_loop content d 0 0 0 [] content).
Proof.
  intros content. destruct (raw_spec (length content) content (le_n _) [] []) as [H1 H2]; [intros b a _ L; cbn in L; lia|].
  cbn [app length brace_level] in H1, H2. split; [apply raw_nonempty|split; assumption].
Qed.

(** the pieces are determined *)
Lemma pieces_go : forall raw raw' (base : str), raw <> [] -> raw' <> [] -> join d raw = join d raw' ->
  (forall before after, join d raw = before ++ after ->
     ((exists a b, a <> [] /\ b <> [] /\ raw = a ++ b /\ before = join d a) <-> (exists a b, a <> [] /\ b <> [] /\ raw' = a ++ b /\ before = join d a))) ->
  raw = raw'.
Proof.
  destruct (delim_facts d Hd) as (Hne & _). assert (Ld : 0 < length d) by (destruct d; [congruence|cbn; lia]).
  induction raw as [|x raw IH]; intros [|y raw'] base H1 H2 J S; try congruence.
  assert (Hmin : forall x raw y raw', join d (x :: raw) = join d (y :: raw') ->
     (forall before after, join d (x :: raw) = before ++ after ->
     ((exists a b, a <> [] /\ b <> [] /\ y :: raw' = a ++ b /\ before = join d a) -> (exists a b, a <> [] /\ b <> [] /\ x :: raw = a ++ b /\ before = join d a))) ->
     raw' <> [] -> length x <= length y /\ raw <> []).
  { clear. intros x raw y raw' J S Hr. destruct raw' as [|y2 raw']; [congruence|].
    rewrite join_cons2 in J. destruct (S _ _ J) as (a & b & Ha & Hb & E & ->).
    - exists [y], (y2 :: raw'). repeat split; discriminate.
    - destruct a as [|a0 a]; [congruence|]. injection E as <- E. split.
      + destruct a; [cbn; lia|]. rewrite join_cons2, app_length. lia.
      + rewrite E. destruct a; [exact Hb|discriminate]. }
  destruct raw as [|x2 raw].
  - destruct raw' as [|y2 raw']; [cbn in J; congruence|]. exfalso. destruct (Hmin x [] y (y2 :: raw') J) as [_ C]; [|discriminate|congruence].
    intros before after E. apply (S before after E).
  - destruct raw' as [|y2 raw'].
    + exfalso. destruct (Hmin y [] x (x2 :: raw) (eq_sym J)) as [_ C]; [|discriminate|congruence].
      intros before after E. rewrite <- J in E. apply (S before after E).
    + assert (L1 : length x <= length y) by (destruct (Hmin x (x2 :: raw) y (y2 :: raw') J) as [C _]; [intros before after E; apply (S before after E)|discriminate|exact C]).
      assert (L2 : length y <= length x) by (destruct (Hmin y (y2 :: raw') x (x2 :: raw) (eq_sym J)) as [C _]; [intros before after E; rewrite <- J in E; apply (S before after E)|discriminate|exact C]).
      pose proof J as J0. rewrite !join_cons2 in J0. destruct (app_len_inj _ _ _ _ J0) as [-> J1]; [lia|]. apply app_inv_head in J1. f_equal.
      apply (IH (y2 :: raw') base); [discriminate|discriminate|exact J1|].
      intros before after E. specialize (S (y ++ d ++ before) after). rewrite join_cons2 in S. rewrite E, <- !app_assoc in S. specialize (S eq_refl).
      assert (Aux : forall z (l : list str), (exists a b, a <> [] /\ b <> [] /\ y :: z :: l = a ++ b /\ y ++ d ++ before = join d a) <->
                                  (exists a b, a <> [] /\ b <> [] /\ z :: l = a ++ b /\ before = join d a)).
      { intros z l. split.
        - intros (a & b & Ha & Hb & Eab & Ej). destruct a as [|a0 a]; [congruence|]. injection Eab as <- Eab. destruct a as [|a1 a].
          + exfalso. cbn in Ej. apply (f_equal (@length _)) in Ej. rewrite !app_length in Ej. lia.
          + rewrite join_cons2 in Ej. apply app_inv_head in Ej. apply app_inv_head in Ej. exists (a1 :: a), b. repeat split; [discriminate|exact Hb|exact Eab|exact Ej].
        - intros (a & b & Ha & Hb & Eab & Ej). exists (y :: a), b. repeat split; [discriminate|exact Hb|rewrite Eab; reflexivity|].
          destruct a; [congruence|]. rewrite join_cons2, <- Ej. reflexivity. }
      rewrite !Aux in S. exact S.
Qed.
Lemma pieces_fun : forall content raw raw', pieces d content raw -> pieces d content raw' -> raw = raw'.
Proof.
  intros content raw raw' (N & J & S) (N' & J' & S'). apply (pieces_go raw raw' []); [exact N|exact N'|congruence|].
  intros before after E. rewrite J in E. rewrite <- (S before after E), <- (S' before after E). reflexivity.
Qed.
End S.
