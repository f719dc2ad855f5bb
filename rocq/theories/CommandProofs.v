From Coq Require Import List NArith ZArith PeanoNat Lia Bool String.
From Verif Require Import PyStr Regex RegexLemmas RegexHead TexUtilsModel DelimSpec DelimProofs DelimFinal SubstModel SubstSpec SubstProofs KeyvalProofs2 ContentSpec ContentProofs ContentProofs2 ContentProofs4 CommandModel CommandSpec.
Import ListNotations. Notation length := List.length. Notation concat := List.concat. Open Scope list_scope.

(** * Characters *)
Lemma range_spec : forall a b x, in_range a b x = true <-> (a <= x <= b)%N.
Proof. intros. unfold in_range. rewrite andb_true_iff, !N.leb_le. reflexivity. Qed.
Lemma letter_spec : forall x, letter x = true <-> is_letter x.
Proof. intros x. unfold letter, is_letter. rewrite orb_true_iff, !range_spec. reflexivity. Qed.
Lemma name_ch_spec : forall x, name_ch x = true <-> word_char x.
Proof. intros x. unfold name_ch, word_char. rewrite orb_true_iff, letter_spec, N.eqb_eq. reflexivity. Qed.
Lemma name_ch_false : forall x, name_ch x = false <-> ~ word_char x.
Proof. intros x. rewrite <- name_ch_spec, not_true_iff_false. reflexivity. Qed.
Lemma word_forallb : forall name, word name -> forallb name_ch name = true.
Proof. intros name [H _]. apply forallb_forall. intros x Hx. apply name_ch_spec. rewrite Forall_forall in H. auto. Qed.
Lemma word_nonempty : forall name, word name -> name <> [].
Proof. intros name [_ (a & x & -> & _)] H. destruct a; discriminate H. Qed.
Lemma word_end_head : forall r, word_end r <-> (match r with x :: _ => name_ch x | [] => false end) = false.
Proof.
  intros [|x r]; (split; [intros H|intros H y q E]); try reflexivity; try discriminate E.
  - apply name_ch_false. eapply H. reflexivity.
  - injection E as <- <-. apply name_ch_false. exact H.
Qed.
Lemma space_not_name : forall x, isspace x = true -> name_ch x = false.
Proof.
  intros x H. destruct (name_ch x) eqn:E; [|reflexivity]. exfalso. apply name_ch_spec in E. unfold isspace, in_range in H.
  repeat (apply orb_prop in H as [H|H]); try (apply andb_prop in H as [H1 H2]; apply N.leb_le in H1, H2); try apply N.eqb_eq in H;
  destruct E as [[E|E]|E]; lia.
Qed.
Lemma bs_not_name : name_ch c_bs = false. Proof. reflexivity. Qed.

(** * Usage patterns *)
Lemma usage_word : forall name, word name -> usage_pattern name = RSeq (rstr ([c_bs] ++ name)) USAGE_SUFFIX.
Proof.
  intros name [_ (a & x & -> & H)]. unfold usage_pattern, last_ch. rewrite rev_app_distr. cbn [rev List.app]. unfold name_alnum. apply letter_spec in H. rewrite H. reflexivity.
Qed.
Lemma suffix_yes : forall t i c, word_end (skipn i t) -> rm USAGE_SUFFIX t i c = [(i, c)].
Proof. intros t i c H. unfold USAGE_SUFFIX. cbn [rm]. apply word_end_head in H. unfold next_is. rewrite nth_error_skipn. destruct (skipn i t); [reflexivity|]. rewrite H. reflexivity. Qed.
Lemma suffix_no : forall t i c x r, skipn i t = x :: r -> name_ch x = true -> rm USAGE_SUFFIX t i c = [].
Proof. intros t i c x r E H. unfold USAGE_SUFFIX. cbn [rm]. unfold next_is. rewrite nth_error_skipn, E, H. reflexivity. Qed.
(** what the usage pattern of a word matches *)
Lemma usage_at : forall name t i, word name -> i <= length t ->
  (forall r, use_at name (skipn i t) r -> re_match_at (usage_pattern name) t i = Some {| m_start := i; m_end := i + S (length name); m_caps := [] |}) /\
  ((forall r, ~ use_at name (skipn i t) r) -> re_match_at (usage_pattern name) t i = None).
Proof.
  intros name t i W Hi. rewrite usage_word by exact W. split.
  - intros r [E Hr]. unfold re_match_at. cbn [rm]. rewrite rm_rstr, E. change ([c_bs] ++ name ++ r) with (([c_bs] ++ name) ++ r). rewrite startswith_app.
    cbn [flat_map fst snd]. rewrite suffix_yes; [cbn; reflexivity|]. rewrite <- skipn_add, E. change ([c_bs] ++ name ++ r) with (([c_bs] ++ name) ++ r). rewrite skipn_app, skipn_all, Nat.sub_diag. exact Hr.
  - intros H. unfold re_match_at. cbn [rm]. rewrite rm_rstr. destruct (startswith (skipn i t) ([c_bs] ++ name)) eqn:E; [|reflexivity].
    apply startswith_spec in E as (r & E). cbn [flat_map fst snd]. destruct r as [|x r].
    + exfalso. apply (H []). split; [rewrite E; reflexivity|]. intros ? ? D. discriminate D.
    + destruct (name_ch x) eqn:Ex.
      * rewrite (suffix_no _ _ _ x r); [reflexivity| |exact Ex]. apply (skipn_more t i _ _ E).
      * exfalso. apply (H (x :: r)). split; [rewrite E; reflexivity|]. apply word_end_head. exact Ex.
Qed.
Lemma use_at_fun : forall n1 n2 s r1 r2, word n1 -> word n2 -> use_at n1 s r1 -> use_at n2 s r2 -> n1 = n2 /\ r1 = r2.
Proof.
  intros n1 n2 s r1 r2 W1 W2 [E1 H1] [E2 H2]. rewrite E1 in E2. cbn in E2. injection E2 as E2. clear E1 s.
  apply word_forallb in W1, W2. revert n2 W2 E2. induction n1 as [|x n1 IH]; intros [|y n2] W2 E2; cbn in *.
  - auto.
  - subst r1. apply andb_prop in W2 as [W2 _]. apply word_end_head in H1. congruence.
  - subst r2. apply andb_prop in W1 as [W1 _]. apply word_end_head in H2. congruence.
  - injection E2 as -> E2. apply andb_prop in W1 as [_ W1]. apply andb_prop in W2 as [_ W2]. destruct (IH W1 n2 W2 E2) as [-> ->]. auto.
Qed.
Lemma use_dec : forall name s, (exists r, use_at name s r) \/ forall r, ~ use_at name s r.
Proof.
  intros name s. destruct (startswith s ([c_bs] ++ name)) eqn:E.
  - apply startswith_spec in E as (r & E). destruct (match r with x :: _ => name_ch x | [] => false end) eqn:Er.
    + right. intros r' [E' H']. rewrite E in E'. rewrite <- app_assoc in E'. apply app_inv_head in E'. apply app_inv_head in E'. subst r'. apply word_end_head in H'. congruence.
    + left. exists r. split; [rewrite E, <- app_assoc; reflexivity|]. apply word_end_head. exact Er.
  - right. intros r [E' _]. rewrite E' in E. change ([c_bs] ++ name ++ r) with (([c_bs] ++ name) ++ r) in E. rewrite startswith_app in E. discriminate E.
Qed.
Lemma uses_search : forall name s, word name -> (re_search (usage_pattern name) s = None <-> ~ uses name s).
Proof.
  intros name s W. split.
  - intros H (p & q & r & -> & U). unfold re_search in H. rewrite re_search_none in H.
    destruct (usage_at name (p ++ q) (length p) W) as [A _]; [rewrite app_length; lia|]. rewrite skipn_app, skipn_all, Nat.sub_diag in A. specialize (A r U).
    apply re_match_at_some in A; [|rewrite app_length; lia]. destruct A as (_ & R & _). cbn in R. eapply H; [|exact R]. split; [lia|rewrite app_length; lia].
  - intros H. unfold re_search. apply re_search_none. intros i j Hi R.
    destruct (usage_at name s i W) as [_ B]; [lia|]. destruct (use_dec name (skipn i s)) as [[r U]|N].
    + apply H. exists (firstn i s), (skipn i s), r. rewrite firstn_skipn. auto.
    + specialize (B N). exact (proj1 (re_match_at_none _ s i (proj2 Hi)) B j R).
Qed.
