From Coq Require Import List NArith ZArith PeanoNat Lia Bool String.
From Verif Require Import PyStr Regex RegexLemmas RegexHead TexUtilsModel DelimSpec DelimProofs DelimFinal SubstModel SubstSpec SubstProofs ContentModel ContentSpec ContentProofs ContentProofs2 ContentProofs3 CommandModel CommandSpec CommandProofs CommandProofs2 CommandProofs3 CommandProofs4 CommandProofs6 TableProofs2.
Import ListNotations. Notation length := List.length. Notation concat := List.concat. Open Scope list_scope.

(** * Greedy stars token by token *)
Inductive star_steps (a : re) (t : str) : nat -> nat -> Prop :=
| ss_stop : forall i, i <= length t -> (forall c, rm a t i c = []) -> star_steps a t i i
| ss_step : forall i j k, i < j -> (forall c, first_match a t i c j c) -> star_steps a t j k -> star_steps a t i k.
Lemma star_steps_le : forall a t i k, star_steps a t i k -> i <= length t.
Proof. intros a t i k H. induction H; lia. Qed.
Lemma fm_star_steps : forall a t i k, star_steps a t i k -> forall c, first_match (RStar true a) t i c k c.
Proof.
  intros a t i k H c. unfold first_match. cbn [rm].
  assert (G : forall fuel c, length t - i < fuel -> exists l, star_run (rm a t) true fuel i c = (k, c) :: l).
  { induction H as [i Hi H|i j k Hij F H IH]; intros fuel c0 Hf; (destruct fuel as [|f]; [lia|]); rewrite star_run_S.
    - rewrite H. cbn. eexists. reflexivity.
    - destruct (F c0) as (l & R). rewrite R. cbn [flat_map fst snd]. replace (Nat.ltb i j) with true by (symmetry; apply Nat.ltb_lt; exact Hij).
      apply star_steps_le in H. destruct (IH f c0) as (l' & R'); [lia|]. rewrite R'. cbn [List.app]. eexists. reflexivity. }
  apply G. lia.
Qed.

(** * Arguments of a \def *)
Definition inner : re := ralt [no_brace; rstr [c_bs; c_lb]; rstr [c_bs; c_rb]; rseq [is_ch c_lb; rstar no_brace; is_ch c_rb]].
Lemma not_brace : forall x, x <> c_lb -> x <> c_rb -> negb (in_str [c_lb; c_rb] x) = true.
Proof. intros x H1 H2. unfold in_str. cbn [existsb]. apply N.eqb_neq in H1, H2. rewrite H1, H2. reflexivity. Qed.
Lemma rm_alt_none : forall a b t i c, rm a t i c = [] -> rm b t i c = [] -> rm (RAlt a b) t i c = [].
Proof. intros a b t i c H1 H2. cbn [rm]. rewrite H1, H2. reflexivity. Qed.
Lemma inner_steps : forall a (t : str) i r, shallow a -> skipn i t = a ++ c_rb :: r -> star_steps inner t i (i + length a).
Proof.
  intros a t i r H. revert i. induction H as [|x s Hx Hy H IH|g s Hl Hr H IH]; intros i E.
  - cbn [length]. rewrite Nat.add_0_r. cbn [List.app] in E. apply ss_stop; [eapply skipn_le; exact E|]. intros c. unfold inner, ralt. apply rm_alt_none; [apply rm_chr_none; rewrite E; reflexivity|]. apply rm_alt_none; [rewrite rm_rstr, E; reflexivity|]. apply rm_alt_none; [rewrite rm_rstr, E; reflexivity|].
    unfold rseq. apply rm_seq_none, rm_chr_none. rewrite E. reflexivity.
  - cbn [List.app] in E. apply ss_step with (j := S i); [lia| |].
    + intros c. unfold inner, ralt. apply fm_alt_left. eapply fm_chr; [exact E|]. apply not_brace; assumption.
    + replace (i + length (x :: s)) with (S i + length s) by (cbn; lia). apply IH. apply skipn_more1 in E. exact E.
  - rewrite <- !app_assoc in E. apply ss_step with (j := S (S i + length g)); [lia| |].
    + intros c. unfold inner, ralt. pose proof E as E0. cbn [List.app] in E0.
      apply fm_alt_right. { apply rm_chr_none. rewrite E0. reflexivity. }
      apply fm_alt_right. { rewrite rm_rstr, E0. reflexivity. }
      apply fm_alt_right. { rewrite rm_rstr, E0. reflexivity. }
      unfold rseq. eapply fm_seq; [apply (fm_is_ch c_lb t i c _ E)|]. apply skipn_more1 in E.
      eapply fm_seq. { apply (fm_star _ t (S i) c g ([c_rb] ++ s ++ c_rb :: r) E); [|reflexivity]. apply forallb_forall. intros z Hz. apply not_brace; intros ->; contradiction. }
      apply skipn_more in E. apply (fm_is_ch c_rb t _ c _ E).
    + replace (i + length ([c_lb] ++ g ++ [c_rb] ++ s)) with (S (S i + length g) + length s) by (rewrite !app_length; cbn; lia). apply IH.
      apply skipn_more1 in E. apply skipn_more in E. apply skipn_more1 in E. exact E.
Qed.
Definition call_ok (p : str * str) : Prop := blank (fst p) /\ shallow (snd p).
Lemma fm_arg : forall g (t : str) i c p r, skipn i t = call_part p ++ r -> call_ok p ->
  first_match (args_part_pattern g) t i c (i + length (call_part p)) ((g, (S (i + length (fst p)), S (i + length (fst p)) + length (snd p))) :: c).
Proof.
  intros g t i c [w a] r E [Hw Ha]. unfold call_part in *. cbn [fst snd] in *. rewrite <- !app_assoc in E. unfold args_part_pattern.
  eapply fm_seq; [apply (fm_star isspace t i c w _ E Hw); reflexivity|]. apply skipn_more in E. apply fm_alt_left. unfold rseq at 1.
  eapply fm_seq; [apply (fm_is_ch c_lb t _ c _ E)|]. apply skipn_more1 in E.
  eapply fm_seq; [apply fm_grp; apply (fm_star_steps inner t _ _ (inner_steps a t _ r Ha E))|]. apply skipn_more in E.
  replace (i + length (w ++ [c_lb] ++ a ++ [c_rb])) with (S (S (i + length w) + length a)) by (rewrite !app_length; cbn; lia). apply (fm_is_ch c_rb t _ _ _ E).
Qed.

(** * The pattern of a \def with parameters #1 ... #k *)
Definition hash (i : nat) : str := [c_hash] ++ str_of_nat i.
Lemma hash_min : 0 < minlen P_hash. Proof. cbn. lia. Qed.
Definition hashes (l : list nat) : str := concat (map hash l).
Lemma hashes_param : forall k, param_text k = hashes (seq 1 k). Proof. reflexivity. Qed.
Lemma hashes_head : forall l r, (match r with x :: _ => isdigit x | [] => false end) = false -> (match hashes l ++ r with x :: _ => isdigit x | [] => false end) = false.
Proof. intros [|i l] r H; [exact H|reflexivity]. Qed.
Lemma hash_match : forall (t : str) i n r, skipn i t = hash n ++ r -> (match r with x :: _ => isdigit x | [] => false end) = false ->
  re_match_at P_hash t i = Some {| m_start := i; m_end := i + length (hash n); m_caps := [(1, (S i, i + length (hash n)))] |}.
Proof.
  intros t i n r E Hr. apply fm_match. unfold P_hash. unfold hash in *. rewrite <- app_assoc in E.
  eapply fm_seq; [apply (fm_is_ch c_hash t i [] _ E)|]. apply skipn_more1 in E. replace (i + length ([c_hash] ++ str_of_nat n)) with (S i + length (str_of_nat n)) by (cbn; lia).
  apply fm_grp. apply (fm_plus isdigit t (S i) [] (str_of_nat n) r E (str_of_nat_nonempty n) (str_of_nat_digits n) Hr).
Qed.
(** the parts of the pattern *)
Fixpoint parts (g : nat) (l : list nat) : list re := match l with [] => [rstr []] | _ :: r => rstr [] :: args_part_pattern g :: parts (2 + g) r end.
Lemma def_parts_ok : forall l g pre t, t = pre ++ hashes l -> def_parts t (length pre) g (iter_at P_hash t (length pre)) = parts g l /\ length (iter_at P_hash t (length pre)) = length l.
Proof.
  induction l as [|n l IH]; intros g pre t Et.
  - cbn [hashes map concat] in Et. rewrite app_nil_r in Et. rewrite iter_at_end; [|exact hash_min|subst; lia]. cbn [def_parts parts]. rewrite Et, skipn_all. split; reflexivity.
  - assert (Eh : hashes (n :: l) = hash n ++ hashes l) by reflexivity. rewrite Eh in Et.
    assert (E : skipn (length pre) t = hash n ++ hashes l) by (rewrite Et, skipn_app, skipn_all, Nat.sub_diag; reflexivity).
    assert (Hh : (match hashes l with x :: _ => isdigit x | [] => false end) = false) by (destruct l; reflexivity).
    rewrite iter_at_step; [|exact hash_min|rewrite Et, !app_length; unfold hash; cbn; lia]. rewrite (hash_match t _ n _ E Hh). cbn [m_end].
    replace (length pre + length (hash n)) with (length (pre ++ hash n)) by (rewrite app_length; lia).
    destruct (IH (2 + g) (pre ++ hash n) t) as [I1 I2]; [rewrite Et, <- app_assoc; reflexivity|]. cbn [def_parts m_start m_end length]. rewrite I1, I2. split; [|reflexivity].
    cbn [parts]. f_equal. unfold slice. rewrite Nat.sub_diag. reflexivity.
Qed.
Lemma word_last : forall name, word name -> exists x, last_ch name = Some x /\ letter x = true.
Proof. intros name [_ (a & x & -> & L)]. exists x. unfold last_ch. rewrite rev_app_distr. split; [reflexivity|]. apply letter_spec. exact L. Qed.
Definition def_re (name : str) (k : nat) : re := match k with 0 => RSeq (rstr ([c_bs] ++ name)) USAGE_SUFFIX | _ => rseq (rstr ([c_bs] ++ name) :: USAGE_SUFFIX :: parts 1 (seq 1 k)) end.
Lemma hash_absent : forall name, word name -> forall (pre suf : str), name = pre ++ suf -> forall r c, suf <> [] -> rm P_hash (name ++ r) (length pre) c = [].
Proof.
  intros name W pre suf E r c Hs. unfold P_hash. apply rm_seq_none, rm_chr_none. rewrite E, <- app_assoc, skipn_app, skipn_all, Nat.sub_diag. cbn [skipn List.app]. destruct suf as [|x suf]; [congruence|]. cbn [List.app].
  apply word_forallb in W. rewrite E, forallb_app in W. apply andb_prop in W as [_ W]. cbn [forallb] in W. apply andb_prop in W as [W _]. apply name_ch_nospace in W. rewrite N.eqb_sym. apply W.
Qed.
Lemma def_pattern_ok : forall name k, word name -> def_pattern (name ++ param_text k) = (def_re name k, k, 2 * k).
Proof.
  intros name k W. rewrite hashes_param. set (t := name ++ hashes (seq 1 k)).
  assert (No : forall i, i < length name -> re_match_at P_hash t i = None).
  { intros i Hi. unfold re_match_at. pose proof (hash_absent name W (firstn i name) (skipn i name) (eq_sym (firstn_skipn i name)) (hashes (seq 1 k)) []) as H.
    rewrite firstn_length_le in H by lia. unfold t; rewrite H; [reflexivity|]. intros Q. apply (f_equal (@length ch)) in Q. rewrite skipn_length in Q. cbn in Q. lia. }
  unfold def_pattern. destruct k as [|k].
  - unfold t in *. cbn [seq hashes map concat]. rewrite app_nil_r in *.
    assert (S : re_search P_hash name = None).
    { apply re_search_none. intros i j Hi. apply (proj1 (re_match_at_none P_hash name i (proj2 Hi))). destruct (Nat.eq_dec i (length name)) as [->|Ne]; [|apply No; lia].
      unfold re_match_at, P_hash. rewrite rm_seq_none; [reflexivity|]. apply rm_chr_none. rewrite skipn_all. reflexivity. }
    rewrite S. reflexivity.
  - assert (E : skipn (length name) t = hash 1 ++ hashes (seq 2 k)) by (unfold t; rewrite skipn_app, skipn_all, Nat.sub_diag; reflexivity).
    assert (Hh : (match hashes (seq 2 k) with x :: _ => isdigit x | [] => false end) = false) by (destruct k; reflexivity).
    assert (S : re_search P_hash t = Some {| m_start := length name; m_end := length name + length (hash 1); m_caps := [(1, (S (length name), length name + length (hash 1)))] |}).
    { unfold re_search. apply (search_first P_hash t 0 (length name)); [lia|unfold t; rewrite app_length; lia|intros i _ Hi; apply No; exact Hi|]. apply (hash_match t _ 1 _ E Hh). }
    rewrite S. cbn [m_start]. replace (firstn (length name) t) with name by (unfold t; symmetry; apply firstn_app_exact; reflexivity). rewrite E.
    destruct (word_last name W) as (x & -> & ->). cbn [orb].
    destruct (def_parts_ok (seq 1 (Datatypes.S k)) 1 [] (hash 1 ++ hashes (seq 2 k)) eq_refl) as [D1 D2]. cbn [length] in D1, D2. change (re_finditer P_hash (hash 1 ++ hashes (seq 2 k))) with (iter_at P_hash (hash 1 ++ hashes (seq 2 k)) 0).
    rewrite D1, D2. rewrite seq_length. reflexivity.
Qed.
