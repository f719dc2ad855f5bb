(** C88: the loop follows [preprocessed]. *)
From Coq Require Import List NArith PeanoNat Lia Bool String.
From Verif Require Import PyStr Regex RegexLemmas RegexHead Json DelimSpec CommandSpec ParseModel ParseRead ParseReadProofs PreModel PreSpec PreRead.
From Verif Require RegexLocal PreProofs PreProofs3 PreCases DelimFinal.
Import ListNotations. Notation length := List.length. Open Scope list_scope.

Lemma quotes_rel : forall t i j, rel DELIM_QUOTES t i j -> rel DELIM t i j \/ exists r, skipn i t = c_tick :: r.
Proof. intros t i j H. apply rel_alt2 in H as [H|H]; [left; exact H|right]. apply rel_is_ch in H as (_ & r & E). exists r. exact E. Qed.
Lemma tick_rel : forall (w r : str), rel DELIM_QUOTES (w ++ c_tick :: r) (length w) (S (length w)).
Proof. intros w r. apply rel_altr. apply rel_is_ch. split; [reflexivity|]. exists r. apply skip_pre. Qed.
Lemma in_skip : forall (w : str) i x r, skipn i w = x :: r -> In x w.
Proof. intros w i x r E. rewrite <- (firstn_skipn i w), E. apply in_or_app. right. left. reflexivity. Qed.

Lemma stops_found : forall w d, wordy false w -> stops w d -> exists m, re_search DELIM_QUOTES (w ++ d) = Some m /\ m_start m = length w.
Proof.
  intros w d [I T] H.
  assert (Nq : forall i j, i < length w -> ~ rel DELIM (w ++ d) i j).
  { destruct H as [H|(r & ->)].
    - destruct (delimits_found w d I H) as (m & E & S0). unfold re_search in E. apply re_search_some in E as (_ & _ & _ & _ & N). intros i j L R. apply (N i j); [rewrite S0; lia|exact R].
    - intros i j L. apply (inert_quiet false w I [] (c_tick :: r) i j); [discriminate|discriminate|discriminate|cbn; lia]. }
  assert (At : exists j, rel DELIM_QUOTES (w ++ d) (length w) j).
  { destruct H as [H|(r & ->)]; [|eexists; apply tick_rel].
    destruct (delimits_found w d I H) as (m & E & S0). unfold re_search in E. apply re_search_some in E as (_ & _ & R & _ & _). rewrite S0 in R. eexists. apply rel_altl. exact R. }
  destruct At as (j & R). unfold re_search. destruct (re_search_from DELIM_QUOTES (w ++ d) 0) as [m|] eqn:E.
  - exists m. split; [reflexivity|]. apply re_search_some in E as (_ & _ & Rm & _ & N).
    destruct (Nat.lt_trichotomy (m_start m) (length w)) as [L|[L|L]]; [exfalso|exact L|exfalso].
    + apply quotes_rel in Rm as [Rm|(r & Rm)]; [exact (Nq _ _ L Rm)|]. rewrite skipn_app in Rm. destruct (skipn (m_start m) w) as [|x q] eqn:Es.
      * apply (f_equal (@List.length ch)) in Es. rewrite skipn_length in Es. cbn in Es. lia.
      * cbn [app] in Rm. injection Rm as -> _. apply T. eapply in_skip. exact Es.
    + apply (N (length w) j); [lia|exact R].
  - exfalso. rewrite re_search_none in E. apply (E (length w) j); [|exact R]. rewrite app_length. lia.
Qed.
Lemma wordy_none : forall w, wordy false w -> re_search DELIM_QUOTES w = None.
Proof.
  intros w [I T]. unfold re_search. apply re_search_none. intros i j L R. apply quotes_rel in R as [R|(r & R)].
  - pose proof (inert_none w I) as N. unfold re_search in N. rewrite re_search_none in N. exact (N i j L R).
  - apply T. eapply in_skip. exact R.
Qed.
Lemma asked_zero : forall d, asked d -> exists m, re_search DELIM_QUOTES d = Some m /\ m_start m = 0.
Proof.
  intros d [H|(r & ->)].
  - apply (stops_found [] d); [|exact H]. split; [constructor|intros []].
  - assert (R : rel DELIM_QUOTES (c_lb :: r) 0 1).
    { apply rel_altl. eapply rel_seq; [constructor; reflexivity|]. cbn [ralt]. do 3 apply rel_altr. apply rel_altl. eapply rel_seq; [apply rel_altl; constructor; reflexivity|]. apply rel_is_ch. split; [reflexivity|]. exists r. reflexivity. }
    unfold re_search. destruct (re_search_from DELIM_QUOTES (c_lb :: r) 0) as [m|] eqn:E.
    + exists m. split; [reflexivity|]. apply re_search_some in E as (_ & _ & _ & _ & N). destruct (m_start m) as [|k] eqn:K; [reflexivity|exfalso]. apply (N 0 1); [lia|exact R].
    + exfalso. rewrite re_search_none in E. apply (E 0 1); [lia|exact R].
Qed.
Lemma wordy_us : forall w, wordy true w -> wordy false (95%N :: w).
Proof.
  intros w [I T]. split.
  - apply in_char; [cbn; unfold c_bs, c_dollar, c_pct, c_lb; intuition discriminate|exact I].
  - intros [C|C]; [discriminate|exact (T C)].
Qed.
Lemma plain_at : forall w d, wordy true w -> stops (95%N :: w) d -> plain_after (w ++ d) (length w).
Proof. intros w d H S0. destruct (stops_found _ _ (wordy_us w H) S0) as (m & E & Es). unfold plain_after. change (re_search DELIM_QUOTES (lit "_" ++ w ++ d)) with (re_search DELIM_QUOTES (((95%N :: w) : str) ++ d)). unfold str in *. rewrite E. exact Es. Qed.
Lemma plain_end : forall w, wordy true w -> plain_after w (length w).
Proof. intros w H. unfold plain_after. change (re_search DELIM_QUOTES (lit "_" ++ w)) with (re_search DELIM_QUOTES ((95%N :: w) : str)). rewrite (wordy_none _ (wordy_us w H)). reflexivity. Qed.
Lemma addto_head : forall d, (forall r, d <> lit "\addto" ++ r) -> re_match_at ADD_TO d 0 = None.
Proof.
  intros d H. apply re_match_at_none; [lia|]. intros j R. unfold ADD_TO in R. cbn [rseq] in R. apply rel_rseq2 in R as (k & R & _). apply rel_rstr in R as (_ & r & R). exact (H r R).
Qed.
Lemma converted_nonempty : forall d t, asked d -> quotes_converted d t -> d <> [].
Proof. intros d t A _ ->. destruct (asked_zero [] A) as (m & E & _). vm_compute in E. discriminate. Qed.

Section Follows.
Variable St : Type.
Variable math : str -> nat.
Variable define : St -> str -> res (definition St).
Variable usepackage : St -> str -> res (St * nat).
Variable format : str -> option (str * nat).
Variable expand : St -> str -> res (option (str * nat)).
Variable if_else : St -> str -> res (option (str * nat)).
Notation rnd := (round St math define usepackage format expand if_else).
Notation rest_of := (dispatch_rest St define usepackage format expand if_else).
Notation rewritten := (rewritten St rnd).
Notation preprocessed := (preprocessed St math define usepackage format expand if_else).
Notation no_formula := (no_formula math).

Lemma round_rest : forall s d t, no_formula d t -> rnd s d = rest_of s t.
Proof.
  intros s d t (A & M & H & Q). unfold round. destruct (asked_zero d A) as (m & E & E0). rewrite E, E0. cbn [Nat.ltb Nat.leb]. rewrite (addto_head d H), M. cbn [Nat.ltb Nat.leb]. rewrite (PreProofs3.quotes_exact d t Q). reflexivity.
Qed.
Lemma silent_handled : forall x, silent x -> handled x = None.
Proof. intros x [->|(b & ->)]; reflexivity. Qed.
Lemma found_handled : forall (use : str) b, use <> [] -> handled (Some (b, length use)) = Some (b, length use).
Proof. intros use b H. destruct use; [congruence|reflexivity]. Qed.
Definition tail (s2 : St) (t : str) : res (action St) :=
  match handled (format t) with
  | Some (b, n) => Ok (Move s2 (b ++ skipn n t) 0)
  | None =>
  do x <- expand s2 t;
  match handled x with
  | Some (b, n) => Ok (Move s2 (b ++ skipn n t) 0)
  | None =>
  do x <- if_else s2 t;
  match handled x with
  | Some (b, n) => Ok (Move s2 (b ++ skipn n t) 0)
  | None => Ok (Move s2 t 1)
  end end end.
Lemma declared_rest : forall s t s1, no_definition St define s t s1 ->
  rest_of s t = (do (s2, e) <- usepackage s1 t; if Nat.ltb 0 e then Ok (Move s2 (skipn e t) 0) else tail s2 t).
Proof. intros s t s1 [(H & ->)|H]; unfold dispatch_rest; rewrite H; reflexivity. Qed.
Lemma not_declared_rest : forall s t s2, not_declared St define usepackage s t s2 -> rest_of s t = tail s2 t.
Proof. intros s t s2 (s1 & H & U). rewrite (declared_rest s t s1 H), U. reflexivity. Qed.

Lemma formula_round : forall s f r, asked (f ++ r) -> (forall q, f ++ r <> lit "\addto" ++ q) -> f <> [] -> math (f ++ r) = length f -> rnd s (f ++ r) = Ok (Math (length f)).
Proof.
  intros s f r A H F M. unfold round. destruct (asked_zero _ A) as (m & E & E0). rewrite E, E0. cbn [Nat.ltb Nat.leb]. rewrite (addto_head _ H), M.
  destruct f as [|x f]; [congruence|]. reflexivity.
Qed.
Lemma ne_app : forall (a b : str), a <> [] -> a ++ b <> [].
Proof. intros [|x a] b H; [congruence|discriminate]. Qed.
Lemma nf_ne : forall d t, no_formula d t -> d <> [].
Proof. intros d t (A & _ & _ & Q). exact (converted_nonempty d t A Q). Qed.
Lemma move0 : forall s d s1 t s' o, d <> [] -> rnd s d = Ok (Move s1 t 0) -> rewritten s1 t s' o -> rewritten s d s' o.
Proof. intros s d s1 t s' o Ne R W. change o with (firstn 0 t ++ o). eapply rw_move; [exact Ne|exact R|exact W]. Qed.

Theorem follows : forall s d s' o, preprocessed s d s' o -> rewritten s d s' o.
Proof.
  intros s d s' o H.
  induction H as [s w W|s w d s' o Ne W T H IH|s f w d s' o A N Ne M W T H IH|s f w A N Ne M W|s d def rest s1 s' o F Ne D H IH|s d def rest s' o F D H IH
    |s d t decl rest s1 s2 s' o F E D Ne U H IH|s d t use rest s2 b s' o F E D Ne U H IH|s d t use rest s2 b s' o F E D Ne Q U H IH
    |s d t use rest s2 x b s' o F E D Ne Q X Qx U H IH|s d c rest s2 x y s' o F D Q X Qx Y Qy H IH].
  - destruct w as [|c w]; [constructor|]. apply rw_finish; [discriminate|]. unfold round. rewrite (wordy_none _ W). reflexivity.
  - rewrite <- (first_pre w d) at 2. eapply (rw_move St rnd s (w ++ d) s (w ++ d) (length w)); [apply ne_app; exact Ne| |rewrite skip_pre; exact IH].
    unfold round. destruct (stops_found w d W T) as (m & E & E0). rewrite E, E0. destruct w; [congruence|reflexivity].
  - pose proof (rw_math St rnd s (f ++ w ++ d) (length f) (length w) s' o (ne_app _ _ Ne) (formula_round s f (w ++ d) A N Ne M)) as R.
    rewrite !skip_pre, !first_pre in R. exact (R (plain_at w d W T) IH).
  - pose proof (rw_math St rnd s (f ++ w) (length f) (length w) s [] (ne_app _ _ Ne) (formula_round s f w A N Ne M)) as R.
    rewrite !skip_pre, !first_pre, skipn_all, firstn_all, app_nil_r in R. exact (R (plain_end w W) (rw_nil St rnd s)).
  - eapply move0; [exact (nf_ne _ _ F)| |exact IH]. rewrite (round_rest _ _ _ F). unfold dispatch_rest. rewrite D. cbn [bind]. destruct def as [|c def]; [congruence|]. exact (f_equal (fun z => Ok (Move s1 z 0)) (skip_pre (c :: def) rest)).
  - rewrite <- (first_pre def rest) at 1. eapply rw_move; [exact (nf_ne _ _ F)| |rewrite skip_pre; exact IH]. rewrite (round_rest _ _ _ F). unfold dispatch_rest. rewrite D. reflexivity.
  - eapply move0; [exact (nf_ne _ _ F)| |exact IH]. rewrite (round_rest _ _ _ F), (declared_rest s t s1 D), U. cbn [bind]. subst t. rewrite skip_pre. destruct decl; [congruence|reflexivity].
  - eapply move0; [exact (nf_ne _ _ F)| |exact IH]. rewrite (round_rest _ _ _ F), (not_declared_rest s t s2 D). unfold tail. rewrite U, (found_handled use b Ne). subst t. rewrite skip_pre. reflexivity.
  - eapply move0; [exact (nf_ne _ _ F)| |exact IH]. rewrite (round_rest _ _ _ F), (not_declared_rest s t s2 D). unfold tail. rewrite (silent_handled _ Q), U. cbn [bind]. rewrite (found_handled use b Ne). subst t. rewrite skip_pre. reflexivity.
  - eapply move0; [exact (nf_ne _ _ F)| |exact IH]. rewrite (round_rest _ _ _ F), (not_declared_rest s t s2 D). unfold tail. rewrite (silent_handled _ Q), X. cbn [bind]. rewrite (silent_handled _ Qx), U. cbn [bind]. rewrite (found_handled use b Ne). subst t. rewrite skip_pre. reflexivity.
  - change (c :: o) with (firstn 1 (c :: rest) ++ o). eapply rw_move; [exact (nf_ne _ _ F)| |exact IH].
    rewrite (round_rest _ _ _ F), (not_declared_rest s (c :: rest) s2 D). unfold tail. rewrite (silent_handled _ Q), X. cbn [bind]. rewrite (silent_handled _ Qx), Y. cbn [bind]. rewrite (silent_handled _ Qy). reflexivity.
Qed.

Theorem preprocessed_run : forall s d s' o, preprocessed s d s' o -> ~ RegexLocal.occurs (lit "MATH_BLOCK") o ->
  exists fuel, process_definitions_and_expand St math define usepackage format expand if_else fuel s d = Some (Ok (s', o)).
Proof. intros s d s' o H. apply PreCases.process_complete. apply follows. exact H. Qed.
End Follows.
