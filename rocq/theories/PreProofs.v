From Coq Require Import List NArith PeanoNat Lia Bool String Permutation.
From Verif Require Import PyStr Regex RegexLemmas RegexLocal RegexHead RegexShift Json TexUtilsModel DelimSpec DelimFinal CommandModel ParseModel TextModel Placeholder PlaceModel PlaceProofs PreModel PreSpec.
Import ListNotations. Notation length := List.length. Notation concat := List.concat. Open Scope list_scope.

(** * Delimiters *)
Definition special (x : ch) : Prop := x = c_bs \/ x = c_dollar \/ x = c_pct \/ x = c_lb \/ x = c_tick \/ isspace x = true.
Lemma delim_head : forall t i j, rel DELIM_QUOTES t i j -> exists x r, skipn i t = x :: r /\ special x.
Proof.
  intros t i j H. unfold special. apply rel_alt2 in H as [H|H].
  2:{ apply rel_is_ch in H as (_ & r & E). exists c_tick, r. tauto. }
  unfold DELIM in H. apply rel_rseq2 in H as (k & Hk & H).
  assert (k = i) by (inversion Hk; reflexivity). subst k. cbn [ralt] in H.
  assert (Ch : forall x m, rel (is_ch x) t i m -> exists r, skipn i t = x :: r) by (intros x m R; apply rel_is_ch in R as (_ & r & E); eauto).
  assert (Sx : forall x s m, rel (rstr (x :: s)) t i m -> exists r, skipn i t = x :: r).
  { intros x s m R. cbn [rstr] in R. apply rel_rseq2 in R as (q & R & _). eapply Ch; eauto. }
  assert (Cx : forall p m, rel (RChr p) t i m -> exists x r, skipn i t = x :: r /\ p x = true).
  { intros p m R. inversion R; subst. match goal with N : nth_error _ _ = Some ?x |- _ => exists x; apply nth_error_split in N as (l1 & l2 & -> & L); exists l2; rewrite <- L, skipn_app, skipn_all, Nat.sub_diag; auto end. }
  repeat (apply rel_alt2 in H as [H|H]).
  - apply Sx in H as (r & E). rewrite E. eauto 6.
  - apply Ch in H as (r & E). rewrite E. eexists _, _. split; [reflexivity|tauto].
  - apply Ch in H as (r & E). rewrite E. eexists _, _. split; [reflexivity|tauto].
  - apply rel_rseq2 in H as (q & Ha & Hb). apply rel_alt2 in Ha as [Ha|Ha].
    + inversion Ha; subst. apply Ch in Hb as (r & E). rewrite E. eexists _, _. split; [reflexivity|tauto].
    + apply Cx in Ha as (x & r & E & P). exists x, r. split; [exact E|]. right. right. right. right. right. apply orb_true_iff in P as [P|P]; apply N.eqb_eq in P; subst x; reflexivity.
  - apply rel_rseq2 in H as (q & Ha & Hb). apply Cx in Ha as (x & r & E & P). exists x, r. tauto.
  - apply Sx in H as (r & E). rewrite E. eexists _, _. split; [reflexivity|tauto].
  - apply Sx in H as (r & E). rewrite E. eexists _, _. split; [reflexivity|tauto].
  - apply rel_rseq2 in H as (q & Ha & Hb). apply Ch in Ha as (r & E). rewrite E. eexists _, _. split; [reflexivity|tauto].
Qed.
Lemma delim_none_at : forall t i x r, skipn i t = x :: r -> ~ special x -> re_match_at DELIM_QUOTES t i = None.
Proof.
  intros t i x r E N. apply re_match_at_none.
  - destruct (Nat.le_gt_cases i (length t)) as [L|L]; [exact L|]. rewrite skipn_all2 in E by lia. discriminate.
  - intros j H. apply delim_head in H as (y & q & Ey & S). rewrite E in Ey. injection Ey as <- _. contradiction.
Qed.

(** the search behind a placeholder *)
Lemma search_after : forall q x t, (forall y, In y (q ++ [x]) -> ~ special y) ->
  option_map m_start (re_search DELIM_QUOTES (q ++ x :: t)) = option_map (fun m => length q + m_start m) (re_search DELIM_QUOTES (x :: t)).
Proof.
  intros q x t H.
  assert (At : forall k y, nth_error (q ++ [x]) k = Some y -> exists r, skipn k (q ++ x :: t) = y :: r).
  { intros k y N. apply nth_error_split in N as (l1 & l2 & E & L). exists (l2 ++ t). replace (q ++ x :: t) with ((q ++ [x]) ++ t) by (rewrite <- app_assoc; reflexivity).
    rewrite E, <- L, <- app_assoc, skipn_app, skipn_all, Nat.sub_diag. reflexivity. }
  assert (No : forall k, k < length q + 1 -> re_match_at DELIM_QUOTES (q ++ x :: t) k = None).
  { intros k Hk. destruct (nth_error (q ++ [x]) k) as [y|] eqn:E.
    - destruct (At k y E) as (r & Er). eapply delim_none_at; [exact Er|]. apply H. eapply nth_error_In. exact E.
    - apply nth_error_None in E. rewrite app_length in E. cbn [length] in E. lia. }
  unfold re_search. rewrite (search_from_skip _ _ (length q + 1) 0); [|rewrite app_length; cbn [length]; lia|intros; apply No; lia].
  rewrite (search_from_next _ (x :: t) 0); [|cbn; lia|].
  2:{ eapply delim_none_at; [reflexivity|]. apply H, in_or_app. right. left. reflexivity. }
  cbn [plus]. rewrite search_shift; [|lia|cbn [length]; lia]. destruct (re_search_from DELIM_QUOTES (x :: t) 1); reflexivity.
Qed.

(** * Keys *)
Definition mW := lit "__MATH_BLOCK".
Definition mkey (i : nat) : str := lit "_" ++ str_of_nat i ++ lit "__".
Definition mclean (t : str) : Prop := ~ occurs (lit "MATH_BLOCK") t.
Lemma math_key_split : forall i, math_key i = placeholder mW mkey i.
Proof. intros i. unfold math_key, placeholder, mkey. rewrite app_assoc. reflexivity. Qed.
Lemma mkey_prefix : forall i j r s, mkey i ++ r = mkey j ++ s -> i = j.
Proof.
  intros i j r s E. unfold mkey in E. rewrite <- !app_assoc in E. apply app_inv_head in E. cbn [lit list_ascii_of_string map app] in E.
  eapply num_cut in E; [exact E|reflexivity|reflexivity].
Qed.
Lemma mclean_gap : forall i t, mclean t -> ~ occurs mW (mkey i ++ t).
Proof.
  intros i t H O. apply H. apply (occurs_suffix (lit "__")) in O. eapply occurs_head_out; [|exact O].
  unfold mkey. intros C. apply in_app_or in C as [C|C]; [cbn in C; intuition discriminate|]. apply in_app_or in C as [C|C]; [|cbn in C; intuition discriminate].
  apply num_digit in C. discriminate.
Qed.
Lemma mclean_text : forall t, mclean t -> ~ occurs mW t.
Proof. intros t H O. apply H. apply (occurs_suffix (lit "__")) in O. exact O. Qed.
Theorem math_restore : forall t0 segs, mclean (with_blocks t0 segs) -> NoDup (map (fun s => fst (fst s)) segs) ->
  restore_placeholder_blocks (with_placeholders mW mkey t0 segs) (map (fun s => (math_key (fst (fst s)), snd (fst s))) segs) = with_blocks t0 segs.
Proof.
  intros t0 segs Hc ND.
  rewrite <- (restore_all mW (borderless_ok mW eq_refl) ltac:(discriminate) mkey mkey_prefix mclean (fun a b H => absent_app _ a b H) mclean_gap mclean_text
     (map (fun s => (fst (fst s), snd (fst s))) segs) t0 segs (Permutation_refl _)); [|rewrite map_map; exact ND|exact Hc].
  unfold restore, restore_placeholder_blocks. rewrite map_map. reflexivity.
Qed.
Definition specialb (x : ch) : bool := N.eqb x c_bs || N.eqb x c_dollar || N.eqb x c_pct || N.eqb x c_lb || N.eqb x c_tick || isspace x.
Lemma specialb_ok : forall x, special x -> specialb x = true.
Proof. intros x S. unfold specialb. rewrite !orb_true_iff, !N.eqb_eq. unfold special in S. tauto. Qed.
Lemma math_key_plain : forall n y, In y (math_key n) -> ~ special y.
Proof.
  intros n y H S. apply specialb_ok in S. unfold math_key in H. apply in_app_or in H as [H|H]; [|apply in_app_or in H as [H|H]].
  - assert (F : forallb (fun x => negb (specialb x)) (lit "__MATH_BLOCK_") = true) by reflexivity. rewrite forallb_forall in F. specialize (F y H). rewrite S in F. discriminate.
  - apply num_digit in H. unfold isdigit, in_range in H. destruct (N.leb 48 y) eqn:E1; [|discriminate]. apply N.leb_le in E1. cbn [andb] in H. apply N.leb_le in H.
    assert (E : (y = 48 \/ y = 49 \/ y = 50 \/ y = 51 \/ y = 52 \/ y = 53 \/ y = 54 \/ y = 55 \/ y = 56 \/ y = 57)%N) by lia.
    repeat (destruct E as [E|E]; [subst y; discriminate S|]). subst y; discriminate S.
  - assert (F : forallb (fun x => negb (specialb x)) (lit "__") = true) by reflexivity. rewrite forallb_forall in F. specialize (F y H). rewrite S in F. discriminate.
Qed.

(** text after the last block *)
Lemma extend : forall segs t0 u, exists t0' segs', with_placeholders mW mkey t0' segs' = with_placeholders mW mkey t0 segs ++ u /\
  with_blocks t0' segs' = with_blocks t0 segs ++ u /\ map fst segs' = map fst segs.
Proof.
  induction segs as [|[[i b] t] r IH]; intros t0 u.
  - exists (t0 ++ u), []. repeat split.
  - destruct (IH t u) as (t' & r' & H1 & H2 & H3). exists t0, ((i, b, t') :: r'). cbn [with_placeholders with_blocks map]. rewrite H1, H2, H3, <- !app_assoc. repeat split.
Qed.
Lemma add_block : forall segs t0 n b, with_placeholders mW mkey t0 (segs ++ [(n, b, [])]) = with_placeholders mW mkey t0 segs ++ math_key n /\
  with_blocks t0 (segs ++ [(n, b, [])]) = with_blocks t0 segs ++ b.
Proof.
  induction segs as [|[[i c] t] r IH]; intros t0 n b; cbn [app with_placeholders with_blocks].
  - split; [rewrite (math_key_split n), (app_nil_r (placeholder mW mkey n)); reflexivity|rewrite (app_nil_r b); reflexivity].
  - destruct (IH t n b) as [H1 H2]. rewrite H1, H2, <- !app_assoc. split; reflexivity.
Qed.

Section Loop.
Variable St : Type.
Variable math : str -> nat.
Variable define : St -> str -> res (definition St).
Variable usepackage : St -> str -> res (St * nat).
Variable format : str -> option (str * nat).
Variable expand if_else : St -> str -> res (option (str * nat)).
Notation round := (round St math define usepackage format expand if_else).
Notation pre_loop := (pre_loop St math define usepackage format expand if_else).
Notation rewritten := (rewritten St round).

Definition blocks_of (segs : list (nat * str * str)) : list (str * str) := map (fun s => (math_key (fst (fst s)), snd (fst s))) segs.
Definition numbered (segs : list (nat * str * str)) : Prop := map (fun s => fst (fst s)) segs = seq 0 (length segs).

Lemma pre_loop_S : forall f s before rest blocks, pre_loop (S f) s before rest blocks =
  match rest with
  | [] => Some (Ok (s, restore_placeholder_blocks before blocks))
  | _ =>
      match round s rest with
      | Raise e => Some (Raise e)
      | Ok Finish => Some (Ok (s, restore_placeholder_blocks (before ++ rest) blocks))
      | Ok (Move s1 t n) => pre_loop f s1 (before ++ firstn n t) (skipn n t) blocks
      | Ok (Math n) => pre_loop f s before (math_key (length blocks) ++ skipn n rest) (blocks ++ [(math_key (length blocks), firstn n rest)])
      end
  end.
Proof. reflexivity. Qed.

(** the round after a formula *)
Lemma round_key : forall s n t k, plain_after t k -> round s (math_key n ++ t) =
  match re_search DELIM_QUOTES (math_key n ++ t) with Some _ => Ok (Move s (math_key n ++ t) (length (math_key n) + k)) | None => Ok Finish end /\
  (re_search DELIM_QUOTES (math_key n ++ t) = None -> k = length t).
Proof.
  intros s n t k H.
  assert (K : math_key n = (lit "__MATH_BLOCK_" ++ str_of_nat n ++ lit "_") ++ [95%N]) by (unfold math_key; rewrite <- !app_assoc; reflexivity).
  pose proof (search_after (lit "__MATH_BLOCK_" ++ str_of_nat n ++ lit "_") 95%N t ltac:(intros y Hy; apply (math_key_plain n); rewrite K; exact Hy)) as S.
  set (q := lit "__MATH_BLOCK_" ++ str_of_nat n ++ lit "_") in *.
  assert (E : math_key n ++ t = q ++ 95%N :: t) by (rewrite K, <- app_assoc; reflexivity).
  assert (S' : option_map m_start (re_search DELIM_QUOTES (math_key n ++ t)) = option_map (fun m => length q + m_start m) (re_search DELIM_QUOTES (95%N :: t))) by (rewrite E; exact S). clear S. rename S' into S. clearbody q.
  unfold plain_after in H. change (lit "_" ++ t) with (95%N :: t) in H. unfold PreModel.round.
  destruct (re_search DELIM_QUOTES (math_key n ++ t)) as [m|]; destruct (re_search DELIM_QUOTES (95%N :: t)) as [m'|]; cbn [option_map] in S; try discriminate S.
  - injection S as S. split; [|discriminate]. rewrite S, H. replace (Nat.ltb 0 (length q + Datatypes.S k)) with true by (symmetry; apply Nat.ltb_lt; lia). f_equal. assert (LK : length (math_key n) = length q + 1) by (rewrite K, app_length; reflexivity). rewrite LK. f_equal. clear. lia.
  - split; [|intros _; exact H]. replace (Nat.ltb 0 (length (math_key n ++ t))) with true; [reflexivity|]. symmetry. apply Nat.ltb_lt. rewrite K, !app_length. cbn [length]. lia.
Qed.
Lemma plain_after_total : forall t, exists k, plain_after t k.
Proof.
  intros t. unfold plain_after. destruct (re_search DELIM_QUOTES (lit "_" ++ t)) as [m|] eqn:E; [|eauto].
  destruct (m_start m) as [|k] eqn:Z; [|eauto]. exfalso. apply re_search_some in E as (_ & _ & _ & E & _). rewrite Z in E.
  rewrite (delim_none_at _ 0 95%N t) in E; [discriminate|reflexivity|]. intros S. repeat (destruct S as [S|S]; try discriminate S).
Qed.
Lemma plain_after_fun : forall t k k', plain_after t k -> plain_after t k' -> k = k'.
Proof. intros t k k' H H'. unfold plain_after in *. destruct (re_search DELIM_QUOTES (lit "_" ++ t)); congruence. Qed.
Lemma firstn_app_more : forall (a b : str) k, firstn (length a + k) (a ++ b) = a ++ firstn k b.
Proof. intros. rewrite firstn_app, firstn_all2 by lia. f_equal. f_equal. lia. Qed.

Lemma numbered_nodup : forall segs, numbered segs -> NoDup (map (fun s : nat * str * str => fst (fst s)) segs).
Proof. intros segs H. rewrite H. apply seq_NoDup. Qed.
Lemma numbered_same : forall (a b : list (nat * str * str)), map fst a = map fst b -> numbered b -> numbered a.
Proof.
  intros a b E H. unfold numbered in *. replace (map (fun s : nat * str * str => fst (fst s)) a) with (map fst (map fst a)) by (rewrite map_map; reflexivity).
  rewrite E, map_map, H. f_equal. apply (f_equal (@List.length _)) in E. rewrite !map_length in E. congruence.
Qed.
Lemma blocks_same : forall (a b : list (nat * str * str)), map fst a = map fst b -> blocks_of a = blocks_of b.
Proof.
  intros a b E. unfold blocks_of. rewrite <- (map_map fst (fun p => (math_key (fst p), snd p)) a), E, map_map. reflexivity.
Qed.
Lemma numbered_snoc : forall segs b, numbered segs -> numbered (segs ++ [(length segs, b, [])]).
Proof. intros segs b H. unfold numbered in *. rewrite map_app, H, app_length. cbn [map fst length]. rewrite Nat.add_1_r, seq_S. reflexivity. Qed.

Lemma restored : forall t0 segs u, numbered segs -> mclean (with_blocks t0 segs ++ u) ->
  restore_placeholder_blocks (with_placeholders mW mkey t0 segs ++ u) (blocks_of segs) = with_blocks t0 segs ++ u.
Proof.
  intros t0 segs u N C. destruct (extend segs t0 u) as (t0' & segs' & H1 & H2 & H3). rewrite <- H1, <- H2, <- (blocks_same _ _ H3).
  apply math_restore; [rewrite H2; exact C|]. apply numbered_nodup. eapply numbered_same; eassumption.
Qed.

Lemma loop_sound : forall f s t0 segs rest s' out, numbered segs ->
  pre_loop f s (with_placeholders mW mkey t0 segs) rest (blocks_of segs) = Some (Ok (s', out)) ->
  exists o, rewritten s rest s' o /\ (mclean (with_blocks t0 segs ++ o) -> out = with_blocks t0 segs ++ o).
Proof.
  induction f as [f IH] using (well_founded_induction Wf_nat.lt_wf). intros s t0 segs rest s' out Nm H. destruct f as [|f]; [discriminate|]. rewrite pre_loop_S in H.
  destruct rest as [|x rest].
  { injection H as <- <-. exists []. split; [constructor|]. intros C. rewrite <- (app_nil_r (with_placeholders _ _ _ _)). apply restored; assumption. }
  pose (r := (x :: rest) : str). assert (Er : r = x :: rest) by reflexivity. clearbody r. assert (Ne : r <> []) by (rewrite Er; discriminate). assert (H' : match round s r with
      | Raise e => Some (Raise e)
      | Ok Finish => Some (Ok (s, restore_placeholder_blocks (with_placeholders mW mkey t0 segs ++ r) (blocks_of segs)))
      | Ok (Move s1 t n) => pre_loop f s1 (with_placeholders mW mkey t0 segs ++ firstn n t) (skipn n t) (blocks_of segs)
      | Ok (Math n) => pre_loop f s (with_placeholders mW mkey t0 segs) (math_key (length (blocks_of segs)) ++ skipn n r) (blocks_of segs ++ [(math_key (length (blocks_of segs)), firstn n r)])
      end = Some (Ok (s', out))) by (rewrite Er; exact H).
  cut (exists o : str, rewritten s r s' o /\ (mclean (with_blocks t0 segs ++ o) -> out = with_blocks t0 segs ++ o)); [rewrite Er; exact (fun z => z)|]. clear H Er x rest. rename H' into H.
  destruct (round s r) as [[s1 t n|n|]|e] eqn:R; try discriminate H.
  - destruct (extend segs t0 (firstn n t)) as (t0' & segs' & H1 & H2 & H3). rewrite <- H1, <- (blocks_same _ _ H3) in H.
    destruct (IH f ltac:(lia) s1 t0' segs' (skipn n t) s' out) as (o & Ro & Co); [eapply numbered_same; eassumption|exact H|].
    exists (firstn n t ++ o). split; [eapply rw_move; eassumption|]. rewrite app_assoc, <- H2. exact Co.
  - assert (L : length (blocks_of segs) = length segs) by (unfold blocks_of; apply map_length). rewrite L in H.
    destruct (plain_after_total (skipn n r)) as (k & Pk). destruct f as [|f]; [discriminate|]. rewrite pre_loop_S in H.
    destruct (round_key s (length segs) (skipn n r) k Pk) as [Rk Nk].
    assert (Kn : exists y u, math_key (length segs) ++ skipn n r = y :: u) by (unfold math_key; eexists _, _; reflexivity).
    destruct Kn as (y & u & Kn). rewrite Kn in H. rewrite <- Kn in H. clear Kn y u. rewrite Rk in H.
    destruct (add_block segs t0 (length segs) (firstn n r)) as [A1' A2']. pose (segs1 := segs ++ [(length segs, firstn n r, [])]). assert (Es1 : segs1 = segs ++ [(length segs, firstn n r, [])]) by reflexivity.
    assert (A1 : with_placeholders mW mkey t0 segs1 = with_placeholders mW mkey t0 segs ++ math_key (length segs)) by exact A1'.
    assert (A2 : with_blocks t0 segs1 = with_blocks t0 segs ++ firstn n r) by exact A2'. clear A1' A2'. clearbody segs1.
    assert (B1 : blocks_of segs ++ [(math_key (length segs), firstn n r)] = blocks_of segs1) by (rewrite Es1; unfold blocks_of; rewrite map_app; reflexivity).
    assert (N1 : numbered segs1) by (rewrite Es1; apply numbered_snoc; exact Nm). rewrite B1 in H.
    destruct (re_search DELIM_QUOTES (math_key (length segs) ++ skipn n r)) as [m|].
    + rewrite firstn_app_more, (app_assoc (with_placeholders _ _ _ _)), <- A1 in H.
      replace (skipn (length (math_key (length segs)) + k) (math_key (length segs) ++ skipn n r)) with (skipn k (skipn n r)) in H by (rewrite skipn_shift; reflexivity).
      destruct (extend segs1 t0 (firstn k (skipn n r))) as (t0' & segs' & H1 & H2 & H3).
      destruct (IH f ltac:(lia) s t0' segs' (skipn k (skipn n r)) s' out) as (o & Ro & Co); [eapply numbered_same; eassumption|rewrite H1, (blocks_same _ _ H3); exact H|].
      exists (firstn n r ++ firstn k (skipn n r) ++ o). split; [eapply rw_math; eassumption|]. 
      assert (E : with_blocks t0' segs' ++ o = with_blocks t0 segs ++ firstn n r ++ firstn k (skipn n r) ++ o) by (rewrite H2, A2, <- !app_assoc; reflexivity).
      rewrite <- E. exact Co.
    + injection H as <- <-. specialize (Nk eq_refl). subst k. exists (firstn n r ++ firstn (length (skipn n r)) (skipn n r) ++ []).
      split; [eapply rw_math; [exact Ne|exact R|exact Pk|rewrite skipn_all; constructor]|]. rewrite firstn_all, app_nil_r. intros C.
      pose proof (restored t0 segs1 (skipn n r) N1) as Q. rewrite A1, A2, <- !app_assoc in Q. exact (Q C).
  - injection H as <- <-. exists r. split; [apply rw_finish; assumption|]. apply restored. exact Nm.
Qed.
Lemma loop_complete : forall s rest s' o, rewritten s rest s' o -> forall t0 segs, numbered segs ->
  exists fuel out, pre_loop fuel s (with_placeholders mW mkey t0 segs) rest (blocks_of segs) = Some (Ok (s', out)).
Proof.
  induction 1 as [s|s t Ne R|s t s1 t1 n s2 o Ne R W IH|s t n k s2 o Ne R P W IH]; intros t0 segs Nm.
  - exists 1. eexists. reflexivity.
  - exists 1. eexists. rewrite pre_loop_S. destruct t; [congruence|]. rewrite R. reflexivity.
  - destruct (extend segs t0 (firstn n t1)) as (t0' & segs' & H1 & H2 & H3).
    destruct (IH t0' segs' ltac:(eapply numbered_same; eassumption)) as (f & out & E). exists (S f), out. rewrite pre_loop_S. destruct t as [|x t]; [congruence|]. rewrite R, <- H1, <- (blocks_same _ _ H3). exact E.
  - destruct (add_block segs t0 (length segs) (firstn n t)) as [A1' A2']. pose (segs1 := segs ++ [(length segs, firstn n t, [])]). assert (Es1 : segs1 = segs ++ [(length segs, firstn n t, [])]) by reflexivity.
    assert (A1 : with_placeholders mW mkey t0 segs1 = with_placeholders mW mkey t0 segs ++ math_key (length segs)) by exact A1'.
    assert (A2 : with_blocks t0 segs1 = with_blocks t0 segs ++ firstn n t) by exact A2'. clear A1' A2'. clearbody segs1.
    assert (B1 : blocks_of segs ++ [(math_key (length segs), firstn n t)] = blocks_of segs1) by (rewrite Es1; unfold blocks_of; rewrite map_app; reflexivity).
    destruct (round_key s (length segs) (skipn n t) k P) as [Rk Nk].
    assert (L : length (blocks_of segs) = length segs) by (unfold blocks_of; apply map_length).
    assert (Kn : exists y u, math_key (length segs) ++ skipn n t = y :: u) by (unfold math_key; eexists _, _; reflexivity). destruct Kn as (y & u & Kn).
    destruct (extend segs1 t0 (firstn k (skipn n t))) as (t0' & segs' & H1 & H2 & H3).
    destruct (IH t0' segs' ltac:(eapply numbered_same; [eassumption|rewrite Es1; apply numbered_snoc; exact Nm])) as (f & out & E). exists (S (S f)).
    destruct (re_search DELIM_QUOTES (math_key (length segs) ++ skipn n t)) as [m|] eqn:D.
    + exists out. rewrite pre_loop_S. destruct t as [|x t]; [congruence|]. rewrite R, L, B1, pre_loop_S. rewrite Kn at 1. cbv iota. rewrite Rk, firstn_app_more, skipn_shift, app_assoc, <- A1, <- H1, <- (blocks_same _ _ H3). exact E.
    + specialize (Nk eq_refl). subst k. rewrite skipn_all in W. assert (Q : s2 = s) by (inversion W; subst; congruence). subst s2.
      eexists. rewrite pre_loop_S. destruct t as [|x t]; [congruence|]. rewrite R, L, B1, pre_loop_S. rewrite Kn at 1. cbv iota. rewrite Rk.
      reflexivity.
Qed.
End Loop.
