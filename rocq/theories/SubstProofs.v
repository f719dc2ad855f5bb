From Coq Require Import List NArith PeanoNat Lia Bool String Wf_nat.
From Verif Require Import PyStr Regex RegexLemmas SubstModel SubstSpec.
Import ListNotations.
Notation length := List.length.
Notation concat := List.concat.
Open Scope list_scope.

Definition hashrun (s : str) : nat := runlen (N.eqb c_hash) s.
Definition digrun (s : str) : nat := runlen isdigit s.

Lemma hash_not_digit : forall x, N.eqb c_hash x = true -> isdigit x = false.
Proof. intros x H. apply N.eqb_eq in H. subst. reflexivity. Qed.

(** what the two patterns match at a position, in terms of the suffix *)
Lemma run_match : forall a b t i c,
  rm (RSeq (RGrp a (rplus (is_ch c_hash))) (RGrp b (rplus rdigit))) t i c =
  match hashrun (skipn i t) with
  | O => []
  | S h => match digrun (skipn (i + S h) t) with
           | O => []
           | S k => map (fun j => (j, (b, (i + S h, j)) :: (a, (i, i + S h)) :: c)) (downto (S (i + S h)) k)
           end
  end.
Proof.
  intros a b t i c. unfold is_ch, rdigit. rewrite rm_two_runs by exact hash_not_digit.
  unfold hashrun, digrun. destruct (runlen (N.eqb c_hash) (skipn i t)) as [|h]; [reflexivity|].
  rewrite rm_rplus_chr. destruct (runlen isdigit (skipn (i + S h) t)) as [|k]; [reflexivity|].
  rewrite map_map. reflexivity.
Qed.

Definition mk_param (a b i h k : nat) : mobj :=
  {| m_start := i; m_end := i + h + k; m_caps := [(b, (i + h, i + h + k)); (a, (i, i + h))] |}.

Lemma HASH_match_param : forall t i h k,
  hashrun (skipn i t) = S h -> digrun (skipn (i + S h) t) = S k ->
  re_match_at HASH_NUMBER_PATTERN t i = Some (mk_param 2 3 i (S h) (S k)).
Proof.
  intros t i h k H1 H2. unfold re_match_at, HASH_NUMBER_PATTERN.
  change (rm (RAlt (RGrp 1 (rstr [c_bs; c_hash])) (RSeq (RGrp 2 (rplus (is_ch c_hash))) (RGrp 3 (rplus rdigit)))) t i []) with
   (rm (RGrp 1 (rstr [c_bs; c_hash])) t i [] ++ rm (RSeq (RGrp 2 (rplus (is_ch c_hash))) (RGrp 3 (rplus rdigit))) t i []).
  rewrite run_match, H1, H2.
  replace (rm (RGrp 1 (rstr [c_bs; c_hash])) t i []) with (@nil (nat * caps)).
  - cbn [app]. rewrite downto_hd. cbn [map]. unfold mk_param. f_equal. f_equal; [lia|]. do 3 f_equal. lia.
  - cbn [rm rstr]. unfold is_ch. cbn [rm]. unfold next_is. rewrite nth_error_skipn.
    unfold hashrun in H1. destruct (skipn i t) as [|x r]; [reflexivity|]. cbn in H1.
    destruct (N.eqb c_hash x) eqn:E; [|discriminate]. apply N.eqb_eq in E. subst x. reflexivity.
Qed.

Lemma HASH_match_esc : forall t i r, skipn i t = c_bs :: c_hash :: r ->
  exists m, re_match_at HASH_NUMBER_PATTERN t i = Some m /\ m_start m = i /\ m_end m = i + 2 /\ cap_get 1 (m_caps m) = Some (i, i + 2).
Proof.
  intros t i r H. unfold re_match_at, HASH_NUMBER_PATTERN.
  change (rm (RAlt (RGrp 1 (rstr [c_bs; c_hash])) (RSeq (RGrp 2 (rplus (is_ch c_hash))) (RGrp 3 (rplus rdigit)))) t i []) with
   (map (fun jc => (fst jc, (1, (i, fst jc)) :: snd jc)) (rm (rstr [c_bs; c_hash]) t i []) ++ rm (RSeq (RGrp 2 (rplus (is_ch c_hash))) (RGrp 3 (rplus rdigit))) t i []).
  rewrite rm_rstr, H. cbn [startswith]. change (N.eqb c_bs c_bs && (N.eqb c_hash c_hash && true)) with true. cbv iota.
  cbn [map app fst snd]. eexists. split; [reflexivity|]. cbn. auto.
Qed.

Lemma HASH_match_none : forall t i, ~ esc_start (skipn i t) ->
  (hashrun (skipn i t) = 0 \/ digrun (skipn (i + hashrun (skipn i t)) t) = 0) ->
  re_match_at HASH_NUMBER_PATTERN t i = None.
Proof.
  intros t i He Hr. unfold re_match_at, HASH_NUMBER_PATTERN.
  change (rm (RAlt (RGrp 1 (rstr [c_bs; c_hash])) (RSeq (RGrp 2 (rplus (is_ch c_hash))) (RGrp 3 (rplus rdigit)))) t i []) with
   (rm (RGrp 1 (rstr [c_bs; c_hash])) t i [] ++ rm (RSeq (RGrp 2 (rplus (is_ch c_hash))) (RGrp 3 (rplus rdigit))) t i []).
  rewrite run_match. destruct (rm (RGrp 1 (rstr [c_bs; c_hash])) t i []) as [|[j c] l] eqn:E.
  - cbn [app]. destruct (hashrun (skipn i t)) as [|h]; [reflexivity|]. destruct Hr as [Hr|Hr]; [discriminate|]. rewrite Hr. reflexivity.
  - exfalso. cbn [rm] in E. destruct (rm (rstr [c_bs; c_hash]) t i []) as [|[j' c'] l'] eqn:E2; [discriminate|].
    destruct (Nat.le_gt_cases i (length t)) as [Hi|Hi].
    + assert (Hin : In (j', c') (rm (rstr [c_bs; c_hash]) t i [])) by (rewrite E2; left; reflexivity).
      apply rm_sound in Hin; [|exact Hi]. apply rel_rstr in Hin. destruct Hin as [_ (r & Hin)]. apply He. exists r. exact Hin.
    + cbn in E2. unfold next_is in E2. rewrite nth_error_skipn, skipn_all2 in E2 by lia. discriminate.
Qed.

(** param_start in terms of runs *)
Lemma runlen_app : forall p a b, forallb p a = true -> (forall x r, b = x :: r -> p x = false) -> runlen p (a ++ b) = length a.
Proof.
  intros p a b Ha Hb. induction a as [|x a IH]; cbn in *.
  - destruct b as [|y b]; cbn; [reflexivity|]. rewrite (Hb y b eq_refl). reflexivity.
  - apply andb_true_iff in Ha. destruct Ha as [Hx Ha]. rewrite Hx, IH by exact Ha. reflexivity.
Qed.

Lemma runlen_split : forall p s, s = firstn (runlen p s) s ++ skipn (runlen p s) s /\ forallb p (firstn (runlen p s) s) = true /\
  length (firstn (runlen p s) s) = runlen p s /\ (forall x r, skipn (runlen p s) s = x :: r -> p x = false).
Proof.
  intros p s. split; [symmetry; apply firstn_skipn|].
  induction s as [|x s (IH1 & IH2 & IH3)]; cbn [runlen]; [repeat split; auto; discriminate|].
  destruct (p x) eqn:E; cbn.
  - rewrite E. repeat split; auto.
  - repeat split; auto. intros y r H. congruence.
Qed.

Lemma forallb_hash : forall s : str, forallb (N.eqb c_hash) s = true -> s = repeat c_hash (length s).
Proof.
  induction s as [|x s IH]; cbn; intros H; [reflexivity|]. apply andb_true_iff in H. destruct H as [H1 H2].
  apply N.eqb_eq in H1. subst. rewrite IH at 1 by exact H2. reflexivity.
Qed.
Lemma forallb_repeat_hash : forall h, forallb (N.eqb c_hash) (repeat (c_hash : ch) h) = true.
Proof. induction h; cbn; auto. Qed.

Lemma digits_not_hash : forall d s x r, d <> [] -> forallb isdigit d = true -> d ++ s = x :: r -> N.eqb c_hash x = false.
Proof.
  intros [|y d] s x r Hne Hd H; [congruence|]. cbn in *. injection H as -> _. apply andb_true_iff in Hd. destruct Hd as [Hd _].
  destruct (N.eqb c_hash x) eqn:E; [|reflexivity]. apply hash_not_digit in E. congruence.
Qed.

Lemma param_runs : forall h d s, 0 < h -> d <> [] -> forallb isdigit d = true ->
  hashrun (repeat c_hash h ++ d ++ s) = h /\ skipn h (repeat c_hash h ++ d ++ s) = d ++ s.
Proof.
  intros h d s Hh Hd Hdd. split.
  - unfold hashrun. rewrite runlen_app; [apply repeat_length|apply forallb_repeat_hash|]. intros x r H. eapply digits_not_hash; eauto.
  - rewrite skipn_app, repeat_length, Nat.sub_diag. rewrite skipn_all2 by (rewrite repeat_length; lia). reflexivity.
Qed.

Lemma param_start_iff : forall s, param_start s <-> 0 < hashrun s /\ 0 < digrun (skipn (hashrun s) s).
Proof.
  intros s. split.
  - intros (h & d & r & H1 & H2 & H3 & ->). destruct (param_runs h d r H1 H2 H3) as [E1 E2]. rewrite E1, E2.
    split; [exact H1|]. destruct d as [|x d]; [congruence|]. cbn in *. apply andb_true_iff in H3. destruct H3 as [H3 _]. rewrite H3. lia.
  - intros [H1 H2]. unfold hashrun, digrun in *.
    destruct (runlen_split (N.eqb c_hash) s) as (E1 & E2 & E3 & _).
    set (s' := skipn (runlen (N.eqb c_hash) s) s) in *.
    destruct (runlen_split isdigit s') as (F1 & F2 & F3 & _).
    exists (runlen (N.eqb c_hash) s), (firstn (runlen isdigit s') s'), (skipn (runlen isdigit s') s').
    split; [exact H1|]. split; [intros H; apply (f_equal (@length ch)) in H; rewrite F3 in H; cbn in H; lia|].
    split; [exact F2|]. rewrite <- F1. apply forallb_hash in E2. rewrite E3 in E2. rewrite <- E2. exact E1.
Qed.

(** every text can be read *)
Lemma reads_exists : forall s, exists ps, reads_as s ps.
Proof.
  intros s. induction s as [s IH] using (induction_ltof1 _ (@length ch)); unfold ltof in IH.
  destruct s as [|x s]; [exists []; constructor|].
  destruct (Nat.eq_dec (hashrun (x :: s)) 0) as [Hh|Hh].
  - assert (Hnp : ~ param_start (x :: s)) by (rewrite param_start_iff; lia).
    destruct (N.eqb x c_bs) eqn:Ex.
    + apply N.eqb_eq in Ex. subst x. destruct s as [|y s].
      * destruct (IH []) as (ps & H); [cbn; lia|]. exists (PChar c_bs :: ps). apply ra_char; auto. intros (r & H'). discriminate.
      * destruct (N.eqb y c_hash) eqn:Ey.
        -- apply N.eqb_eq in Ey. subst y. destruct (IH s) as (ps & H); [cbn; lia|]. exists (PEsc :: ps). apply (ra_esc s). exact H.
        -- apply N.eqb_neq in Ey. destruct (IH (y :: s)) as (ps & H); [cbn; lia|]. exists (PChar c_bs :: ps). apply ra_char; auto.
           intros (r & H'). injection H' as -> _. congruence.
    + apply N.eqb_neq in Ex. destruct (IH s) as (ps & H); [cbn; lia|]. exists (PChar x :: ps). apply ra_char; auto.
      intros (r & H'). injection H' as -> _. congruence.
  - destruct (Nat.eq_dec (digrun (skipn (hashrun (x :: s)) (x :: s))) 0) as [Hd|Hd].
    + destruct (IH s) as (ps & H); [cbn; lia|]. exists (PChar x :: ps). apply ra_char; auto.
      * intros (r & H'). injection H' as -> ->. apply Hh. reflexivity.
      * rewrite param_start_iff. lia.
    + unfold hashrun, digrun in *.
      destruct (runlen_split (N.eqb c_hash) (x :: s)) as (E1 & E2 & E3 & _).
      set (s' := skipn (runlen (N.eqb c_hash) (x :: s)) (x :: s)) in *.
      destruct (runlen_split isdigit s') as (F1 & F2 & F3 & F4).
      destruct (IH (skipn (runlen isdigit s') s')) as (ps & H).
      { apply (f_equal (@length ch)) in E1. rewrite app_length, E3 in E1. apply (f_equal (@length ch)) in F1. rewrite app_length, F3 in F1. lia. }
      exists (PParam (runlen (N.eqb c_hash) (x :: s)) (firstn (runlen isdigit s') s') :: ps).
      rewrite E1 at 1. apply forallb_hash in E2. rewrite E3 in E2. rewrite E2. rewrite F1 at 1.
      apply ra_param; auto; [lia|]. intros H'; apply (f_equal (@length ch)) in H'; rewrite F3 in H'; cbn [length] in H'; congruence.
Qed.

Lemma reads_render : forall s ps, reads_as s ps -> render_all ps = s.
Proof.
  induction 1 as [|s ps H IH|h d s ps H1 H2 H3 H4 H IH|c s ps H1 H2 H IH]; unfold render_all in *; cbn; [reflexivity| | |].
  - rewrite IH. reflexivity.
  - rewrite IH, <- app_assoc. reflexivity.
  - rewrite IH. reflexivity.
Qed.

(** the reading is unique *)
Lemma reads_fun : forall s ps, reads_as s ps -> forall ps', reads_as s ps' -> ps = ps'.
Proof.
  assert (Hp_e : forall h (d s : str), 0 < h -> esc_start (repeat c_hash h ++ d ++ s) -> False).
  { intros [|h] d s Hh (r & H); [lia|]. discriminate. }
  assert (Hp_p : forall h d s, 0 < h -> d <> [] -> forallb isdigit d = true -> param_start (repeat c_hash h ++ d ++ s)).
  { intros h d s H1 H2 H3. exists h, d, s. auto. }
  induction 1 as [|s ps H IH|h d s ps H1 H2 H3 H4 H IH|c s ps H1 H2 H IH]; intros ps' H'.
  - inversion H'; subst; auto. destruct h; [lia|discriminate].
  - inversion H' as [|s2 ps2 K|h2 d2 s2 ps2 K1 K2 K3 K4 K E|c2 s2 ps2 K1 K2 K]; subst.
    + f_equal. apply IH. assumption.
    + exfalso. destruct h2; [lia|discriminate].
    + exfalso. apply K1. exists s. reflexivity.
  - remember (repeat c_hash h ++ d ++ s) as t eqn:Et.
    inversion H' as [|s2 ps2 K|h2 d2 s2 ps2 K1 K2 K3 K4 K E|c2 s2 ps2 K1 K2 K]; subst.
    + destruct h; [lia|discriminate].
    + destruct h; [lia|discriminate].
    + destruct (param_runs h2 d2 s2 K1 K2 K3) as [E1 E2]. destruct (param_runs h d s H1 H2 H3) as [F1 F2].
      assert (h2 = h) by congruence. subst h2. assert (Ed : d2 ++ s2 = d ++ s) by congruence.
      assert (length d2 = length d).
      { rewrite <- (runlen_app isdigit d2 s2 K3 K4), <- (runlen_app isdigit d s H3 H4). congruence. }
      assert (d2 = d /\ s2 = s) as [-> ->].
      { split; [apply (f_equal (firstn (length d))) in Ed|apply (f_equal (skipn (length d))) in Ed];
         rewrite <- H0 in Ed at 1; [rewrite !firstn_app, !Nat.sub_diag, !firstn_all in Ed; cbn in Ed; rewrite !app_nil_r in Ed|
           rewrite !skipn_app, !Nat.sub_diag, !skipn_all in Ed; cbn in Ed]; exact Ed. }
      f_equal. apply IH. assumption.
    + exfalso. apply K2. rewrite H0. apply Hp_p; assumption.
  - inversion H' as [|s2 ps2 K|h2 d2 s2 ps2 K1 K2 K3 K4 K E|c2 s2 ps2 K1 K2 K]; subst.
    + exfalso. apply H1. exists s2. reflexivity.
    + exfalso. apply H2. rewrite <- E. apply Hp_p; assumption.
    + f_equal. apply IH. assumption.
Qed.

(* ------------------------------------------------------------------ *)
(** * the parameters found by the unescaped-hash pattern *)

Lemma NO_ESC_minlen : 0 < minlen NO_ESC_HASH_NUMBER_PATTERN. Proof. cbn. lia. Qed.
Lemma HASH_minlen : 0 < minlen HASH_NUMBER_PATTERN. Proof. cbn. lia. Qed.

Lemma NO_ESC_match : forall t i,
  re_match_at NO_ESC_HASH_NUMBER_PATTERN t i =
  if prev_is (N.eqb c_bs) t i then None else
  match hashrun (skipn i t) with
  | O => None
  | S h => match digrun (skipn (i + S h) t) with
           | O => None
           | S k => Some (mk_param 1 2 i (S h) (S k))
           end
  end.
Proof.
  intros t i. unfold re_match_at, NO_ESC_HASH_NUMBER_PATTERN.
  change (rm (RSeq (RBehind true (N.eqb c_bs)) (RSeq (RGrp 1 (rplus (is_ch c_hash))) (RGrp 2 (rplus rdigit)))) t i []) with
   (flat_map (fun jc => rm (RSeq (RGrp 1 (rplus (is_ch c_hash))) (RGrp 2 (rplus rdigit))) t (fst jc) (snd jc))
      (if xorb true (prev_is (N.eqb c_bs) t i) then [(i, @nil (nat * (nat * nat)))] else [])).
  destruct (prev_is (N.eqb c_bs) t i); cbn [xorb]; [reflexivity|].
  cbn [flat_map fst snd]. rewrite app_nil_r, run_match.
  destruct (hashrun (skipn i t)) as [|h]; [reflexivity|].
  destruct (digrun (skipn (i + S h) t)) as [|k]; [reflexivity|].
  rewrite downto_hd. cbn [map]. unfold mk_param. f_equal. f_equal; [lia|]. do 3 f_equal. lia.
Qed.

Lemma skipn_pre : forall (pre s : str) n, n = length pre -> skipn n (pre ++ s) = s.
Proof. intros pre s n ->. rewrite skipn_app, Nat.sub_diag, skipn_all. reflexivity. Qed.

Lemma prev_is_pre : forall p (pre s : str), prev_is p (pre ++ s) (length pre) = last_is p pre.
Proof.
  intros p pre s. destruct pre as [|x pre _] using rev_ind; [reflexivity|].
  unfold last_is. rewrite rev_app_distr. cbn. rewrite app_length. cbn. rewrite Nat.add_1_r. cbn.
  rewrite <- app_assoc. cbn. rewrite nth_error_app2 by lia. rewrite Nat.sub_diag. reflexivity.
Qed.

Lemma slice_pre : forall (pre a s : str) i j, i = length pre -> j = length pre + length a -> slice i j (pre ++ a ++ s) = a.
Proof.
  intros pre a s i j -> ->. unfold slice. rewrite (skipn_pre pre (a ++ s) _ eq_refl).
  replace (length pre + length a - length pre) with (length a) by lia.
  rewrite firstn_app, Nat.sub_diag, firstn_all. cbn. apply app_nil_r.
Qed.

Lemma esc_ok_step : forall c s, ~ esc_start (c :: s) -> c = c_bs -> head_is (N.eqb c_hash) s = false.
Proof.
  intros c s H ->. destruct s as [|y s]; [reflexivity|]. cbn. destruct (N.eqb c_hash y) eqn:E; [|reflexivity].
  apply N.eqb_eq in E. subst. exfalso. apply H. exists s. reflexivity.
Qed.

Lemma last_is_app : forall p a x, last_is p (a ++ [x]) = p x.
Proof. intros p a x. unfold last_is. rewrite rev_app_distr. reflexivity. Qed.

Lemma last_digit_not_bs : forall pre h d, d <> [] -> forallb isdigit d = true ->
  last_is (N.eqb c_bs) (pre ++ repeat c_hash h ++ d) = false.
Proof.
  intros pre h d Hd H. destruct d as [|x d _] using rev_ind; [congruence|]. rewrite !app_assoc, last_is_app.
  rewrite forallb_app in H. apply andb_true_iff in H. destruct H as [_ H]. cbn in H.
  destruct (N.eqb c_bs x) eqn:E; [|reflexivity]. apply N.eqb_eq in E. subst. discriminate.
Qed.

Lemma app_nonnil : forall (d s : str), d <> [] -> d ++ s <> [].
Proof. intros [|x d] s H; [congruence|discriminate]. Qed.

Lemma noesc_params : forall s ps, reads_as s ps -> forall pre,
  (last_is (N.eqb c_bs) pre = true -> head_is (N.eqb c_hash) s = false) ->
  map (group_len (pre ++ s) 1) (iter_at NO_ESC_HASH_NUMBER_PATTERN (pre ++ s) (length pre)) = params ps.
Proof.
  induction 1 as [|s ps H IH|h d s ps H1 H2 H3 H4 H IH|c s ps H1 H2 H IH]; intros pre Hpre.
  - rewrite iter_at_end; [reflexivity|exact NO_ESC_minlen|rewrite app_nil_r; lia].
  - rewrite iter_at_step; [|exact NO_ESC_minlen|rewrite app_length; cbn; lia].
    assert (E0 : re_match_at NO_ESC_HASH_NUMBER_PATTERN (pre ++ [c_bs; c_hash] ++ s) (length pre) = None).
    { rewrite NO_ESC_match. rewrite (skipn_pre pre _ _ eq_refl). cbn [app]. change (hashrun (c_bs :: c_hash :: s)) with 0.
      destruct (prev_is _ _ _); reflexivity. }
    rewrite E0. cbn [app].
    rewrite iter_at_step; [|exact NO_ESC_minlen|rewrite app_length; cbn; lia].
    rewrite NO_ESC_match.
    replace (pre ++ c_bs :: c_hash :: s) with ((pre ++ [c_bs]) ++ c_hash :: s) by (rewrite <- app_assoc; reflexivity).
    replace (S (length pre)) with (length (pre ++ [c_bs])) by (rewrite app_length; cbn; lia).
    rewrite prev_is_pre, last_is_app. change (N.eqb c_bs c_bs) with true. cbv iota.
    replace ((pre ++ [c_bs]) ++ c_hash :: s) with ((pre ++ [c_bs; c_hash]) ++ s) by (rewrite <- !app_assoc; reflexivity).
    replace (S (length (pre ++ [c_bs]))) with (length (pre ++ [c_bs; c_hash])) by (rewrite !app_length; cbn; lia).
    cbn [params]. apply IH. rewrite <- (app_assoc pre [c_bs] [c_hash]) || idtac.
    replace (pre ++ [c_bs; c_hash]) with ((pre ++ [c_bs]) ++ [c_hash]) by (rewrite <- app_assoc; reflexivity).
    rewrite last_is_app. discriminate.
  - assert (Hnp : last_is (N.eqb c_bs) pre = false).
    { destruct (last_is (N.eqb c_bs) pre) eqn:E; [|reflexivity]. specialize (Hpre eq_refl). destruct h; [lia|discriminate]. }
    rewrite iter_at_step; [|exact NO_ESC_minlen|rewrite !app_length, repeat_length; lia].
    rewrite NO_ESC_match, prev_is_pre, Hnp. rewrite (skipn_pre pre _ _ eq_refl).
    destruct (param_runs h d s H1 H2 H3) as [E1 E2]. rewrite E1. destruct h as [|h']; [lia|].
    remember (S h') as h eqn:Hh.
    replace (skipn (length pre + h) (pre ++ repeat c_hash h ++ d ++ s)) with (d ++ s).
    2:{ rewrite <- skipn_add, (skipn_pre pre _ _ eq_refl), E2. reflexivity. }
    unfold digrun. rewrite (runlen_app isdigit d s H3 H4). destruct (length d) as [|k] eqn:Ek; [destruct d; [congruence|discriminate]|].
    cbn [map params]. f_equal.
    + unfold group_len, m_group, mk_param. cbn [m_caps cap_get Nat.eqb option_map].
      rewrite slice_pre; [apply repeat_length|reflexivity|rewrite repeat_length; reflexivity].
    + unfold mk_param. cbn [m_end]. rewrite <- Ek.
      replace (pre ++ repeat c_hash h ++ d ++ s) with ((pre ++ repeat c_hash h ++ d) ++ s) by (rewrite <- !app_assoc; reflexivity).
      replace (length pre + h + length d) with (length (pre ++ repeat c_hash h ++ d)) by (rewrite !app_length, repeat_length; lia).
      apply IH. rewrite last_digit_not_bs by assumption. discriminate.
  - rewrite iter_at_step; [|exact NO_ESC_minlen|rewrite app_length; cbn; lia].
    rewrite NO_ESC_match. rewrite (skipn_pre pre _ _ eq_refl).
    assert (E : (if prev_is (N.eqb c_bs) (pre ++ c :: s) (length pre) then None else
      match hashrun (c :: s) with
      | O => None
      | S h => match digrun (skipn (length pre + S h) (pre ++ c :: s)) with
               | O => None
               | S k => Some (mk_param 1 2 (length pre) (S h) (S k))
               end
      end) = None).
    { destruct (prev_is _ _ _); [reflexivity|]. destruct (hashrun (c :: s)) as [|h] eqn:Eh; [reflexivity|].
      rewrite <- skipn_add, (skipn_pre pre _ _ eq_refl).
      destruct (digrun (skipn (S h) (c :: s))) eqn:Ed; [reflexivity|]. exfalso. apply H2. apply param_start_iff. rewrite Eh, Ed. lia. }
    rewrite E. cbn [params].
    replace (pre ++ c :: s) with ((pre ++ [c]) ++ s) by (rewrite <- app_assoc; reflexivity).
    replace (S (length pre)) with (length (pre ++ [c])) by (rewrite app_length; cbn; lia).
    apply IH. rewrite last_is_app. intros Hc. apply N.eqb_eq in Hc. eapply esc_ok_step; eauto.
Qed.

(* ------------------------------------------------------------------ *)
Section Main.
Variable isalpha : ch -> bool.
Variable args : list (option str).
Variable math : bool.

Lemma next_is_pre : forall p (pre a s : str) n, n = length pre + length a -> next_is p (pre ++ a ++ s) n = head_is p s.
Proof.
  intros p pre a s n ->. unfold next_is. rewrite nth_error_skipn.
  replace (skipn (length pre + length a) (pre ++ a ++ s)) with s; [destruct s; reflexivity|].
  rewrite <- skipn_add, (skipn_pre pre _ _ eq_refl), (skipn_pre a _ _ eq_refl). reflexivity.
Qed.

Lemma digits_int : forall d, d <> [] -> forallb isdigit d = true -> exists k, int_of_str d = Some k.
Proof.
  intros d Hd H. assert (G : forall acc, exists k, nat_of_digits acc d = Some k).
  { clear Hd. induction d as [|x d IH]; intros acc; cbn in *; [eauto|]. apply andb_true_iff in H. destruct H as [H1 H2]. rewrite H1. apply IH. exact H2. }
  destruct d; [congruence|]. apply G.
Qed.

Lemma sub_pieces : forall m s ps, reads_as s ps -> no_zero ps -> forall pre,
  sub_at HASH_NUMBER_PATTERN (sub_fn isalpha (pre ++ s) args math m) (pre ++ s) (length pre) =
  subst_pieces isalpha math args m pre ps.
Proof.
  intros m.
  induction 1 as [|s ps H IH|h d s ps H1 H2 H3 H4 H IH|c s ps H1 H2 H IH]; intros Hz pre.
  - rewrite sub_at_end; [reflexivity|exact HASH_minlen|rewrite app_nil_r; lia].
  - rewrite sub_at_step; [|exact HASH_minlen|rewrite app_length; cbn; lia].
    destruct (HASH_match_esc (pre ++ [c_bs; c_hash] ++ s) (length pre) s) as (mm & E1 & E2 & E3 & E4).
    { rewrite (skipn_pre pre _ _ eq_refl). reflexivity. }
    rewrite E1. cbn [subst_pieces]. f_equal.
    + unfold sub_fn, m_group. rewrite E4. cbn [option_map]. unfold m_group0. rewrite E2, E3. apply slice_pre; reflexivity.
    + rewrite E3.
      replace (pre ++ [c_bs; c_hash] ++ s) with ((pre ++ [c_bs; c_hash]) ++ s) by (rewrite <- !app_assoc; reflexivity).
      replace (length pre + 2) with (length (pre ++ [c_bs; c_hash])) by (rewrite !app_length; cbn; lia).
      apply IH. intros h d Hin. apply (Hz h d). right. exact Hin.
  - rewrite sub_at_step; [|exact HASH_minlen|rewrite !app_length, repeat_length; lia].
    destruct (param_runs h d s H1 H2 H3) as [E1 E2]. destruct h as [|h']; [lia|]. remember (S h') as h eqn:Hh.
    destruct (length d) as [|k'] eqn:Ek; [destruct d; [congruence|discriminate]|]. 
    rewrite (HASH_match_param _ (length pre) h' k').
    2:{ rewrite (skipn_pre pre _ _ eq_refl), E1. exact Hh. }
    2:{ rewrite <- skipn_add, (skipn_pre pre _ _ eq_refl), <- Hh, E2. unfold digrun. rewrite (runlen_app isdigit d s H3 H4). exact Ek. }
    rewrite <- Hh, <- Ek. cbn [subst_pieces].
    assert (Hall : forall X, sub_at HASH_NUMBER_PATTERN (sub_fn isalpha (pre ++ repeat c_hash h ++ d ++ s) args math m) (pre ++ repeat c_hash h ++ d ++ s)
        (m_end (mk_param 2 3 (length pre) h (length d))) = X <->
        subst_pieces isalpha math args m (pre ++ render (PParam h d)) ps = X).
    { intros X. unfold mk_param. cbn [m_end render].
      replace (pre ++ repeat c_hash h ++ d ++ s) with ((pre ++ repeat c_hash h ++ d) ++ s) by (rewrite <- !app_assoc; reflexivity).
      replace (length pre + h + length d) with (length (pre ++ repeat c_hash h ++ d)) by (rewrite !app_length, repeat_length; lia).
      rewrite IH; [tauto|]. intros h2 d2 Hin. apply (Hz h2 d2). right. exact Hin. }
    f_equal; [|apply Hall; reflexivity].
    unfold sub_fn, m_group, mk_param. cbn [m_caps cap_get Nat.eqb option_map].
    assert (Hg0 : m_group0 (pre ++ repeat c_hash h ++ d ++ s)
        {| m_start := length pre; m_end := length pre + h + length d;
           m_caps := [(3, (length pre + h, length pre + h + length d)); (2, (length pre, length pre + h))] |} = repeat c_hash h ++ d).
    { unfold m_group0. cbn [m_start m_end].
      replace (pre ++ repeat c_hash h ++ d ++ s) with (pre ++ (repeat c_hash h ++ d) ++ s) by (rewrite <- !app_assoc; reflexivity).
      apply slice_pre; [reflexivity|rewrite app_length, repeat_length; lia]. }
    rewrite Hg0.
    rewrite slice_pre; [|reflexivity|rewrite repeat_length; reflexivity]. rewrite repeat_length.
    replace (slice (length pre + h) (length pre + h + length d) (pre ++ repeat c_hash h ++ d ++ s)) with d.
    2:{ symmetry. replace (pre ++ repeat c_hash h ++ d ++ s) with ((pre ++ repeat c_hash h) ++ d ++ s) by (rewrite <- !app_assoc; reflexivity).
        apply slice_pre; rewrite app_length, repeat_length; lia. }
    cbn [render].
    destruct (digits_int d H2 H3) as (k & Hk). rewrite Hk.
    destruct k as [|k]; [exfalso; apply (Hz h d); [left; reflexivity|exact Hk]|].
    destruct (Nat.eqb h m); [|reflexivity].
    destruct (Nat.ltb (length args) (S k)) eqn:El.
    + apply Nat.ltb_lt in El. rewrite (proj2 (nth_error_None args k)) by lia. reflexivity.
    + apply Nat.ltb_ge in El. cbn [arg_at].
      destruct (nth_error args k) as [a|] eqn:Ea; [|apply nth_error_None in Ea; lia].
      rewrite (nth_error_nth _ _ _ Ea). destruct a as [a|]; [|rewrite andb_false_r; reflexivity].
      cbn [m_start m_end]. rewrite prev_is_pre.
      replace (pre ++ repeat c_hash h ++ d ++ s) with (pre ++ (repeat c_hash h ++ d) ++ s) by (rewrite <- !app_assoc; reflexivity).
      rewrite next_is_pre by (rewrite app_length, repeat_length; lia).
      rewrite (reads_render _ _ H).
      destruct math; [|reflexivity]. cbn [andb].
      destruct a as [|a0 a]; cbn [nilb negb str_eqb]; [rewrite andb_false_r; reflexivity|]. rewrite andb_true_r. reflexivity.
  - rewrite sub_at_step; [|exact HASH_minlen|rewrite app_length; cbn; lia].
    rewrite HASH_match_none.
    + cbn [subst_pieces render]. f_equal.
      * apply (slice_pre pre [c] s); cbn; lia.
      * replace (pre ++ c :: s) with ((pre ++ [c]) ++ s) by (rewrite <- app_assoc; reflexivity).
        replace (S (length pre)) with (length (pre ++ [c])) by (rewrite app_length; cbn; lia).
        apply IH. intros h d Hin. apply (Hz h d). right. exact Hin.
    + rewrite (skipn_pre pre _ _ eq_refl). exact H1.
    + rewrite (skipn_pre pre _ _ eq_refl). rewrite <- skipn_add, (skipn_pre pre _ _ eq_refl).
      destruct (Nat.eq_dec (hashrun (c :: s)) 0) as [E|E]; [left; exact E|right].
      destruct (Nat.eq_dec (digrun (skipn (hashrun (c :: s)) (c :: s))) 0) as [E2|E2]; [exact E2|].
      exfalso. apply H2. apply param_start_iff. lia.
Qed.
End Main.

Lemma params_in : forall ps h, In h (params ps) <-> exists d, In (PParam h d) ps.
Proof.
  induction ps as [|p ps IH]; intros h; cbn.
  - split; [tauto|]. intros (d & []).
  - destruct p as [c| |h' d']; cbn; rewrite IH; split.
    + intros (d & H). eauto.
    + intros (d & [H|H]); [discriminate|eauto].
    + intros (d & H). eauto.
    + intros (d & [H|H]); [discriminate|eauto].
    + intros [->|(d & H)]; eauto.
    + intros (d & [H|H]); [injection H as -> ->; auto|eauto].
Qed.

Lemma list_min_spec : forall l, l <> [] -> In (list_min l) l /\ forall x, In x l -> list_min l <= x.
Proof.
  intros [|x l] H; [congruence|]. clear H. cbn [list_min]. revert x. induction l as [|y l IH]; intros x; cbn [fold_left].
  - split; [left; reflexivity|]. intros z [->|[]]. lia.
  - destruct (IH (Nat.min x y)) as [I1 I2]. split.
    + destruct I1 as [I1|I1]; [|right; right; exact I1]. rewrite <- I1. destruct (Nat.min_dec x y) as [E|E]; rewrite E; [left|right; left]; reflexivity.
    + intros z [->|[->|Hz]].
      * specialize (I2 (Nat.min z y) (or_introl eq_refl)). lia.
      * specialize (I2 (Nat.min x z) (or_introl eq_refl)). lia.
      * apply I2. right. exact Hz.
Qed.

(** with no parameter, or none in range, substitution is the identity *)
Lemma subst_no_params : forall isalpha math args m ps pre, params ps = [] -> subst_pieces isalpha math args m pre ps = render_all ps.
Proof.
  intros isalpha math args m. induction ps as [|p ps IH]; intros pre H; [reflexivity|].
  unfold render_all. cbn [map concat subst_pieces]. fold (render_all ps).
  destruct p as [c| |h d]; cbn in H; try discriminate; cbn [render]; f_equal; apply IH; exact H.
Qed.
Lemma subst_no_args : forall isalpha math m ps pre, subst_pieces isalpha math [] m pre ps = render_all ps.
Proof.
  intros isalpha math m. induction ps as [|p ps IH]; intros pre; [reflexivity|].
  unfold render_all. cbn [map concat subst_pieces]. fold (render_all ps). f_equal; [|apply IH].
  destruct p as [c| |h d]; cbn [render]; try reflexivity. destruct (int_of_str d) as [[|k]|]; try reflexivity.
  destruct (Nat.eqb h m); destruct k; reflexivity.
Qed.

Lemma params_pos : forall s ps h, reads_as s ps -> In h (params ps) -> 0 < h.
Proof.
  induction 1 as [|s ps H IH|h' d s ps H1 H2 H3 H4 H IH|c s ps H1 H2 H IH]; cbn; intros Hin; auto; [destruct Hin|].
  destruct Hin as [->|Hin]; auto.
Qed.

Lemma substitute_args_spec : forall isalpha definition args math ps,
  reads_as definition ps -> no_zero ps ->
  (params ps = [] -> substitute_args isalpha definition args math = definition) /\
  (forall m, min_hashes_of ps m ->
     substitute_args isalpha definition args math = subst_pieces isalpha math args m [] ps).
Proof.
  intros isalpha definition args math ps Hr Hz.
  pose proof (noesc_params _ _ Hr [] ltac:(discriminate)) as Hp. cbn [app length] in Hp.
  pose proof (reads_render _ _ Hr) as Hren. split.
  - intros Hnp. unfold substitute_args. destruct args as [|a args]; [reflexivity|].
    unfold re_finditer. fold (iter_at NO_ESC_HASH_NUMBER_PATTERN definition 0).
    rewrite Hnp in Hp. apply map_eq_nil in Hp. rewrite Hp. reflexivity.
  - intros m [[d Hin] Hmin]. unfold substitute_args. destruct args as [|a args].
    + rewrite subst_no_args. symmetry. exact Hren.
    + unfold re_finditer. fold (iter_at NO_ESC_HASH_NUMBER_PATTERN definition 0).
      assert (Hm : list_min (params ps) = m).
      { assert (Hne : params ps <> []) by (intros E; assert (K : In m (params ps)) by (apply params_in; eauto); rewrite E in K; destruct K).
        destruct (list_min_spec _ Hne) as [K1 K2]. apply params_in in K1 as (d' & K1).
        apply Nat.le_antisymm; [apply K2, params_in; eauto|eapply Hmin; eauto]. }
      rewrite <- Hm, <- Hp. rewrite <- Hp in Hm.
      destruct (iter_at NO_ESC_HASH_NUMBER_PATTERN definition 0) as [|m0 ms] eqn:Ei.
      { cbn in Hp. assert (K : In m (params ps)) by (apply params_in; eauto). rewrite <- Hp in K. destruct K. }
      assert (0 < m) by (eapply params_pos; [exact Hr|apply params_in; eauto]).
      replace (Nat.ltb (list_min (map (group_len definition 1) (m0 :: ms))) 1) with false by (symmetry; apply Nat.ltb_ge; lia).
      rewrite Hm. rewrite re_sub_at0. apply (sub_pieces isalpha (a :: args) math m definition ps Hr Hz []).
Qed.
