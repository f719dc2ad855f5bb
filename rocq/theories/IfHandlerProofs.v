(** The concrete patterns read a well-formed text as its items (C83, C84). *)
From Coq Require Import List NArith PeanoNat Lia Bool String.
From Verif Require Import PyStr Regex RegexLemmas RegexHead Json TexUtilsModel DelimSpec CommandModel CommandSpec CommandProofs CommandProofs2 CommandProofs7 Placeholder IfModel IfSpec IfHandlerModel IfHandlerSpec.
Import ListNotations. Notation length := List.length. Notation concat := List.concat. Open Scope list_scope.

(** names declared by \newif, the newest first *)
Definition declared_ifs (names : list str) : list ifdef := fold_right process_newif default_ifs names.

(** ** No match *)
Lemma rstr_none : forall s t i c, startswith (skipn i t) s = false -> rm (rstr s) t i c = [].
Proof. intros s t i c H. rewrite rm_rstr, H. reflexivity. Qed.
Lemma sw_app : forall u p q, startswith u p = false -> startswith u (p ++ q) = false.
Proof. intros u p q H. destruct (startswith u (p ++ q)) eqn:E; [|reflexivity]. apply startswith_prefix in E. congruence. Qed.
Lemma fi_none : forall t i c, startswith (skipn i t) (lit "\fi") = false -> rm FI_PATTERN t i c = [].
Proof. intros t i c H. unfold FI_PATTERN. cbn [rseq]. apply rm_seq_none, rstr_none, H. Qed.
Lemma else_none : forall t i c, startswith (skipn i t) (lit "\else") = false -> rm ELSE_PATTERN t i c = [].
Proof. intros t i c H. unfold ELSE_PATTERN. cbn [rseq]. apply rm_seq_none, rstr_none, H. Qed.
Lemma elsif_none : forall t i c, startswith (skipn i t) (lit "\els") = false -> startswith (skipn i t) (lit "\or") = false -> rm ELSIF_PATTERN t i c = [].
Proof. intros t i c H1 H2. unfold ELSIF_PATTERN. cbn [rseq]. apply rm_alt_none; apply rm_seq_none, rstr_none; assumption. Qed.
Lemma seq_one : forall a b t i c j c', rm a t i c = [(j, c')] -> rm (RSeq a b) t i c = rm b t j c'.
Proof. intros a b t i c j c' H. cbn [rm]. rewrite H. cbn [flat_map fst snd]. apply app_nil_r. Qed.
Lemma seq_opt : forall a b t i c, rm (RSeq (ropt a) b) t i c = rm (RSeq a b) t i c ++ rm b t i c.
Proof. intros a b t i c. unfold ropt. cbn [rm]. rewrite flat_map_app. cbn [flat_map fst snd]. rewrite app_nil_r. reflexivity. Qed.
Lemma is_ch_one : forall x t i c q, skipn i t = x :: q -> rm (is_ch x) t i c = [(S i, c)].
Proof. intros x t i c q E. cbn [rm is_ch]. unfold next_is. rewrite nth_error_skipn, E, N.eqb_refl. reflexivity. Qed.
Lemma nil2 : forall A (x y : list A), x = [] -> y = [] -> x ++ y = [].
Proof. intros A x y -> ->. reflexivity. Qed.
Lemma seq3_none : forall r t i c, startswith (skipn i t) (lit "\if") = false -> startswith (skipn i t) (lit "\@if") = false ->
  rm (RSeq (is_ch c_bs) (RSeq (ropt (is_ch 64%N)) (RSeq (rstr (lit "if")) r))) t i c = [].
Proof.
  intros r t i c H1 H2. destruct (skipn i t) as [|x q] eqn:E.
  { apply rm_seq_none, rm_chr_none. rewrite E. reflexivity. }
  destruct (N.eqb c_bs x) eqn:Ex; [|apply rm_seq_none, rm_chr_none; rewrite E; exact Ex].
  apply N.eqb_eq in Ex. subst x. rewrite (seq_one _ _ _ _ _ _ _ (is_ch_one _ _ _ c _ E)). pose proof (skipn_more1 t i _ _ E) as Eq.
  rewrite seq_opt. apply nil2.
  - destruct q as [|y q]; [apply rm_seq_none, rm_chr_none; rewrite Eq; reflexivity|]. destruct (N.eqb 64 y) eqn:Ey; [|apply rm_seq_none, rm_chr_none; rewrite Eq; exact Ey].
    apply N.eqb_eq in Ey. subst y. rewrite (seq_one _ _ _ _ _ _ _ (is_ch_one _ _ _ c _ Eq)). apply rm_seq_none, rstr_none. rewrite (skipn_more1 t _ _ _ Eq). exact H2.
  - apply rm_seq_none, rstr_none. rewrite Eq. exact H1.
Qed.
Lemma if_none : forall t i c, startswith (skipn i t) (lit "\if") = false -> startswith (skipn i t) (lit "\@if") = false -> rm IF_PATTERN t i c = [].
Proof.
  intros t i c H1 H2. unfold IF_PATTERN. cbn [rseq]. apply seq3_none; assumption.
Qed.
Lemma newif_none : forall n t i c, startswith (skipn i t) (lit "\if" ++ n) = false -> rm (rseq [re_lit "\if"; rstr n; ropt (RAlt (re_lit "true") (re_lit "false"))]) t i c = [].
Proof.
  intros n t i c H. cbn [rseq]. change (rm (RSeq (re_lit "\if") (RSeq (rstr n) (ropt (RAlt (re_lit "true") (re_lit "false"))))) t i c) with
    (flat_map (fun jc : nat * caps => rm (RSeq (rstr n) (ropt (RAlt (re_lit "true") (re_lit "false")))) t (fst jc) (snd jc)) (rm (rstr (lit "\if")) t i c)).
  rewrite rm_rstr. destruct (startswith (skipn i t) (lit "\if")) eqn:E; [|reflexivity]. cbn [flat_map fst snd]. rewrite app_nil_r. apply rm_seq_none, rstr_none.
  apply startswith_spec in E as (r & E). rewrite (skipn_more t i _ _ E). rewrite E in H. destruct (startswith r n) eqn:E2; [|reflexivity].
  apply startswith_spec in E2 as (r2 & ->). rewrite app_assoc, startswith_app in H. discriminate.
Qed.
Lemma braced_none : forall (n : string) t i c, startswith (skipn i t) (lit n) = false -> rm (braced n) t i c = [].
Proof. intros n t i c H. unfold braced. cbn [rseq]. apply rm_seq_none, rstr_none, H. Qed.
Lemma ralt_cons : forall a l, l <> [] -> ralt (a :: l) = RAlt a (ralt l).
Proof. intros a [|b l] H; [congruence|reflexivity]. Qed.
Lemma declared_nonempty : forall names, map if_raw (declared_ifs names) <> [].
Proof. intros [|n names]; cbn; discriminate. Qed.
Lemma defaults_none : forall t i c, startswith (skipn i t) (lit "\if") = false -> startswith (skipn i t) (lit "\@if") = false -> startswith (skipn i t) (lit "\IfFileExists") = false ->
  rm (ralt (map if_raw default_ifs)) t i c = [].
Proof.
  intros t i c H1 H2 H3.
  assert (P1 : forall s, startswith (skipn i t) (lit "\if" ++ s) = false) by (intros; apply sw_app; exact H1).
  assert (P2 : forall s, startswith (skipn i t) (lit "\@if" ++ s) = false) by (intros; apply sw_app; exact H2).
  unfold default_ifs. cbn [map if_raw same ralt].
  repeat apply rm_alt_none.
  - apply braced_none. exact (P1 (lit "thenelse")).
  - unfold ifx_raw. cbn [rseq]. apply rm_seq_none, rstr_none. exact (P1 (lit "x")).
  - cbn [rseq]. apply rm_seq_none, rstr_none. exact H1.
  - unfold ifnum_pattern. cbn [rseq]. apply rm_seq_none, rstr_none. exact (P1 (lit "num")).
  - unfold ifdim_pattern. cbn [rseq]. apply rm_seq_none, rstr_none. exact (P1 (lit "dim")).
  - unfold ifcat_pattern. cbn [rseq]. apply rm_seq_none, rstr_none. exact (P1 (lit "cat")).
  - cbn [rseq]. apply rm_seq_none, rstr_none. exact (P1 (lit "case")).
  - apply braced_none. exact H3.
  - apply braced_none. exact (P2 (lit "classloaded")).
  - apply braced_none. exact (P2 (lit "packageloaded")).
  - apply braced_none. exact (P2 (lit "undefined")).
  - apply braced_none. exact (P2 (lit "star")).
  - apply if_none; assumption.
Qed.
Lemma compiled_none : forall names t i c, startswith (skipn i t) (lit "\if") = false -> startswith (skipn i t) (lit "\@if") = false -> startswith (skipn i t) (lit "\IfFileExists") = false ->
  rm (compiled (declared_ifs names)) t i c = [].
Proof.
  intros names t i c H1 H2 H3. unfold compiled. induction names as [|n names IH]; [apply defaults_none; assumption|].
  cbn [declared_ifs fold_right]. unfold process_newif at 1. cbn [map if_raw]. rewrite ralt_cons by apply declared_nonempty. apply rm_alt_none; [|exact IH].
  apply newif_none. apply sw_app. exact H1.
Qed.
