(** The concrete patterns read a well-formed text as its items, continued. *)
From Coq Require Import List NArith PeanoNat Lia Bool String.
From Verif Require Import PyStr Regex RegexLemmas RegexHead Json TexUtilsModel DelimSpec CommandModel CommandSpec CommandProofs CommandProofs2 CommandProofs3 CommandProofs7 EqProofs Placeholder IfModel IfSpec IfHandlerModel IfHandlerSpec IfHandlerProofs.
Import ListNotations. Notation length := List.length. Notation concat := List.concat. Open Scope list_scope.

(** ** Matches *)
Lemma bound_one : forall w t i c (a : str) x r, skipn i t = a ++ x :: r -> w x = true -> (match r with y :: _ => w y | [] => false end) = false ->
  rm (RBound w) t (i + length (a ++ [x])) c = [(i + length (a ++ [x]), c)].
Proof.
  intros w t i c a x r E Hx Hr. cbn [rm]. rewrite app_length. cbn [List.length]. replace (i + (length a + 1)) with (S (i + length a)) by lia.
  pose proof (skipn_more t i _ _ E) as E1. pose proof (skipn_more1 t _ _ _ E1) as E2.
  cbn [prev_is]. unfold next_is. rewrite !nth_error_skipn, E1, E2, Hx. destruct r as [|y r]; [reflexivity|]. rewrite Hr. reflexivity.
Qed.
Lemma bound_head : forall r, boundary r -> (match r with y :: _ => is_w y | [] => false end) = false.
Proof. intros [|y r] H; [reflexivity|exact H]. Qed.
Lemma fi_match : forall t i c r, skipn i t = lit "\fi" ++ r -> boundary r -> rm FI_PATTERN t i c = [(i + 3, c)].
Proof.
  intros t i c r E B. unfold FI_PATTERN. cbn [rseq]. rewrite (seq_one _ _ t i c (i + 3) c).
  - apply (bound_one is_w t i c (lit "\f") 105%N r E eq_refl). apply bound_head, B.
  - rewrite rm_rstr, E, startswith_app. reflexivity.
Qed.
Lemma else_match : forall t i c r, skipn i t = lit "\else" ++ r -> boundary r -> rm ELSE_PATTERN t i c = [(i + 5, c)].
Proof.
  intros t i c r E B. unfold ELSE_PATTERN. cbn [rseq]. rewrite (seq_one _ _ t i c (i + 5) c).
  - apply (bound_one is_w t i c (lit "\els") 101%N r E eq_refl). apply bound_head, B.
  - rewrite rm_rstr, E, startswith_app. reflexivity.
Qed.
Lemma else_no_elsif : forall t i c r, skipn i t = lit "\else" ++ r -> boundary r -> rm ELSIF_PATTERN t i c = [].
Proof.
  intros t i c r E B. unfold ELSIF_PATTERN. cbn [rseq]. apply rm_alt_none; [|apply rm_seq_none, rstr_none; rewrite E; reflexivity].
  rewrite (seq_one _ _ t i c (i + 4) c) by (rewrite rm_rstr, E; reflexivity).
  pose proof (skipn_more t i (lit "\els") (101%N :: r) E) as E1. change (i + length (lit "\els")) with (i + 4) in E1. rewrite seq_opt. apply nil2.
  - rewrite (seq_one _ _ _ _ _ _ _ (is_ch_one _ _ _ c _ E1)). apply rm_seq_none, rstr_none. rewrite (skipn_more1 t _ _ _ E1).
    destruct r as [|y r]; [reflexivity|]. cbn in B. cbn [startswith lit]. destruct (N.eqb y 105) eqn:Ey; [apply N.eqb_eq in Ey; subst y; discriminate B|].
    change (startswith (y :: r) (lit "if")) with (N.eqb 105 y && startswith r (lit "f")). rewrite N.eqb_sym, Ey. reflexivity.
  - apply rm_seq_none, rstr_none. rewrite E1. reflexivity.
Qed.

Lemma word_ch : forall x, word_char x -> isspace x = false /\ N.eqb c_bs x = false /\ N.eqb c_lb x = false /\ N.eqb c_rb x = false /\ N.eqb c_nl x = false /\ is_letter_at x = true.
Proof.
  intros x H. assert (S0 : isspace x = false).
  { destruct (isspace x) eqn:E; [|reflexivity]. apply space_not_name in E. apply name_ch_spec in H. congruence. }
  split; [exact S0|]. unfold c_bs, c_lb, c_rb, c_nl. rewrite !N.eqb_neq. unfold is_letter_at, in_range. rewrite !orb_true_iff, !andb_true_iff, !N.leb_le, N.eqb_eq.
  unfold word_char, is_letter in H. repeat split; lia.
Qed.
Lemma star_zero : forall p t i c, (match skipn i t with x :: _ => p x | [] => false end) = false -> rm (RStar true (RChr p)) t i c = [(i, c)].
Proof. intros p t i c H. rewrite rm_star_chr_greedy. destruct (skipn i t) as [|x r]; [reflexivity|]. cbn [runlen]. rewrite H. reflexivity. Qed.
Lemma opt_none : forall a t i c, rm a t i c = [] -> rm (ropt a) t i c = [(i, c)].
Proof. intros a t i c H. unfold ropt. cbn [rm]. rewrite H. reflexivity. Qed.
(** a character or command is one letter here *)
Lemma cc_one : forall t i c a b q, skipn i t = a :: b :: q -> word_char a -> word_char b -> rm re_char_or_command t i c = [(S i, c)].
Proof.
  intros t i c a b q E Ha Hb. destruct (word_ch a Ha) as (A1 & A2 & A3 & _ & _ & _). destruct (word_ch b Hb) as (B1 & _ & _ & B4 & _ & _).
  unfold re_char_or_command. cbn [rseq]. rewrite seq_opt. rewrite (rm_seq_none (RSeq (is_ch c_lb) (rstar rspace))); [|apply rm_seq_none, rm_chr_none; rewrite E; exact A3].
  cbn [List.app]. rewrite (seq_one _ _ t i c (S i) c).
  - pose proof (skipn_more1 t _ _ _ E) as E1. apply opt_none. cbn [rseq].
    rewrite (seq_one (rstar rspace) _ t (S i) c (S i) c) by (apply star_zero; rewrite E1; exact B1). apply rm_chr_none. rewrite E1. exact B4.
  - cbn [rm]. assert (Z : rm (rseq [is_ch c_bs; rplus (RChr is_letter_at)]) t i c = []) by (cbn [rseq]; apply rm_seq_none, rm_chr_none; rewrite E; exact A2).
    cbn [rm rseq] in Z |- *. rewrite Z. cbn [List.app]. unfold next_is. rewrite nth_error_skipn, E, A1. reflexivity.
Qed.
Definition stop : re := RAhead false (ralt [is_ch c_bs; rspace; REnd; is_ch c_nl]).
Lemma stop_none : forall t i c x q, skipn i t = x :: q -> word_char x -> rm stop t i c = [].
Proof.
  intros t i c x q E H. destruct (word_ch x H) as (X1 & X2 & _ & _ & X5 & _). unfold stop.
  assert (Z : rm (ralt [is_ch c_bs; rspace; REnd; is_ch c_nl]) t i c = []).
  { cbn [ralt]. repeat apply rm_alt_none; try (apply rm_chr_none; rewrite E; assumption). cbn [rm]. unfold at_end. rewrite E. destruct q; [rewrite N.eqb_sym, X5|]; reflexivity. }
  cbn [rm] in Z |- *. rewrite Z. reflexivity.
Qed.
Lemma stop_one : forall t i c x q, skipn i t = x :: q -> isspace x = true \/ x = c_bs -> rm stop t i c = [(i, c)].
Proof.
  intros t i c x q E H. unfold stop. assert (Z : rm (ralt [is_ch c_bs; rspace; REnd; is_ch c_nl]) t i c <> []).
  { cbn [ralt rm is_ch rspace]. unfold next_is. rewrite nth_error_skipn, E. destruct H as [H| ->].
    - rewrite H. destruct (N.eqb c_bs x); discriminate.
    - rewrite N.eqb_refl. discriminate. }
  cbn [rm] in Z |- *. match goal with |- context [nilb ?l] => destruct l as [|y l'] end; [congruence|reflexivity].
Qed.
Lemma seq_grp_alt : forall n a b r t i c, rm (RSeq (RGrp n (RAlt a b)) r) t i c = rm (RSeq (RGrp n a) r) t i c ++ rm (RSeq (RGrp n b) r) t i c.
Proof. intros n a b r t i c. cbn [rm]. rewrite map_app, flat_map_app. reflexivity. Qed.
Lemma lazy_stop : forall n (x0 : ch) (v : str) y t i c r, skipn i t = (x0 :: v) ++ y :: r -> Forall word_char (x0 :: v) -> isspace y = true \/ y = c_bs ->
  exists c', first_match (RSeq (RGrp n (rseq [rdot; rlazy rdot])) stop) t i c (i + length (x0 :: v)) c'.
Proof.
  intros n x0 v y t i c r E W Hy. inversion W as [|? ? W0 W']; subst.
  assert (D : forall z, word_char z -> negb (N.eqb z c_nl) = true) by (intros z Hz; destruct (word_ch z Hz) as (_ & _ & _ & _ & Z & _); rewrite N.eqb_sym, Z; reflexivity).
  pose proof (skipn_more1 t _ _ _ E) as E1. fold (v ++ y :: r) in E1.
  assert (L : length v < S (length t - S i)) by (rewrite <- (skipn_length (S i) t), E1, app_length; lia).
  assert (Hp : forallb (fun x => negb (N.eqb x c_nl)) v = true) by (apply forallb_forall; intros z Hz; apply D; rewrite Forall_forall in W'; auto).
  destruct (lazy_run (fun x => negb (N.eqb x c_nl)) v y t r _ (S i) c E1 Hp L) as (pre & tl & R & Hpre).
  assert (R0 : rm (rseq [rdot; rlazy rdot]) t i c = pre ++ (S i + length v, c) :: tl).
  { cbn [rseq]. rewrite (seq_one _ _ t i c (S i) c); [exact R|]. unfold rdot. cbn [rm]. unfold next_is. rewrite nth_error_skipn, E. cbn [List.app]. rewrite (D _ W0). reflexivity. }
  exists ((n, (i, S i + length v)) :: c). unfold first_match. change (rm (RSeq (RGrp n (rseq [rdot; rlazy rdot])) stop) t i c) with
    (flat_map (fun jc : nat * caps => rm stop t (fst jc) (snd jc)) (map (fun jc : nat * caps => (fst jc, (n, (i, fst jc)) :: snd jc)) (rm (rseq [rdot; rlazy rdot]) t i c))).
  rewrite R0, map_app, flat_map_app. cbn [map flat_map fst snd].
  assert (Z : flat_map (fun jc : nat * caps => rm stop t (fst jc) (snd jc)) (map (fun jc : nat * caps => (fst jc, (n, (i, fst jc)) :: snd jc)) pre) = []).
  { apply flat_map_nil. intros [j c2] I. apply in_map_iff in I as ([j' c3] & I1 & I2). injection I1 as <- <-. cbn [fst snd]. destruct (Hpre j' c3 I2) as (_ & z & q & Ez & Iz).
    eapply stop_none; [exact Ez|]. rewrite Forall_forall in W'. auto. }
  match goal with |- exists l, ?A ++ ?B = _ => let HA := fresh in assert (HA : A = []) by exact Z; rewrite HA; clear HA end. cbn [List.app].
  pose proof (skipn_more t _ _ _ E1) as E2. rewrite (stop_one t _ _ y r E2 Hy). cbn [List.app]. replace (i + length (x0 :: v)) with (S i + length v) by (cbn [List.length]; lia). eexists. reflexivity.
Qed.
Lemma if_match : forall name t i c x q, skipn i t = lit "\if" ++ name ++ x :: q -> Forall word_char name -> 3 <= length name -> isspace x = true \/ x = c_bs ->
  exists c', first_match IF_PATTERN t i c (i + 3 + length name) c'.
Proof.
  intros name t i c x q E W L Hx. destruct name as [|n0 [|n1 [|n2 v]]]; cbn in L; try lia. clear L.
  unfold first_match, IF_PATTERN. cbn [rseq re_default_if].
  assert (E0 : skipn i t = c_bs :: (lit "if" ++ (n0 :: n1 :: n2 :: v) ++ x :: q)) by exact E.
  rewrite (seq_one _ _ _ _ _ _ _ (is_ch_one _ _ _ c _ E0)). pose proof (skipn_more1 t _ _ _ E0) as E1. rewrite seq_opt.
  rewrite (rm_seq_none (is_ch 64%N)) by (apply rm_chr_none; rewrite E1; reflexivity). cbn [List.app].
  rewrite (seq_one (rstr (lit "if")) _ t (S i) c (S i + 2) c) by (rewrite rm_rstr, E1, startswith_app; reflexivity).
  pose proof (skipn_more t _ (lit "if") _ E1) as E2. change (S i + length (lit "if")) with (S i + 2) in E2.
  inversion W as [|? ? W0 Wa]; subst. inversion Wa as [|? ? W1 Wb]; subst. inversion Wb as [|? ? W2 Wc]; subst.
  unfold re_default_if. cbn [rseq].
  rewrite (seq_one (rstar rspace) _ t (S i + 2) c (S i + 2) c) by (apply star_zero; rewrite E2; apply (word_ch n0 W0)).
  rewrite seq_grp_alt.
  assert (Z : rm (RSeq (RGrp 1 (RSeq re_char_or_command (RSeq (rstar rspace) re_char_or_command))) stop) t (S i + 2) c = []).
  { change (rm (RSeq (RGrp 1 (RSeq re_char_or_command (RSeq (rstar rspace) re_char_or_command))) stop) t (S i + 2) c) with
      (flat_map (fun jc : nat * caps => rm stop t (fst jc) (snd jc)) (map (fun jc : nat * caps => (fst jc, (1, (S i + 2, fst jc)) :: snd jc)) (rm (RSeq re_char_or_command (RSeq (rstar rspace) re_char_or_command)) t (S i + 2) c))).
    pose proof (skipn_more1 t _ _ _ E2) as E3. pose proof (skipn_more1 t _ _ _ E3) as E4. cbn [List.app] in E2, E3, E4.
    rewrite (seq_one _ _ _ _ _ _ _ (cc_one _ _ c _ _ _ E2 W0 W1)).
    rewrite (seq_one (rstar rspace) _ t (S (S i + 2)) c (S (S i + 2)) c) by (apply star_zero; rewrite E3; apply (word_ch n1 W1)).
    rewrite (cc_one _ _ c _ _ _ E3 W1 W2). cbn [map flat_map fst snd]. rewrite app_nil_r. eapply stop_none; [exact E4|exact W2]. }
  fold stop. match goal with |- context [?A ++ _] => let HA := fresh in assert (HA : A = []) by exact Z; rewrite HA; clear HA end. cbn [List.app].
  destruct (lazy_stop 1 n0 (n1 :: n2 :: v) x t (S i + 2) c q E2 W Hx) as (c' & l & R). exists c'.
  replace (i + 3 + length (n0 :: n1 :: n2 :: v)) with (S i + 2 + length (n0 :: n1 :: n2 :: v)) by lia. exists l. exact R.
Qed.
