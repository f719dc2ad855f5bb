(** C98. *)
From Coq Require Import List NArith PeanoNat Lia Bool String Compare_dec.
From Verif Require LegacyProofs2 LegacyProofs5 StyleProofs2 StyleProofs3.
From Verif Require Import PyStr Regex RegexLemmas RegexHead RegexLocal DelimSpec DelimProofs DelimFinal Json TexUtilsModel CommandSpec StyleModel StyleSpec EqProofs DiacriticsModel DiacriticsSpec.
Import ListNotations. Notation length := List.length. Notation concat := List.concat. Open Scope list_scope.
Lemma skipn_more : forall (t : str) i a r, skipn i t = a ++ r -> skipn (i + length a) t = r.
Proof. intros t i a r H. rewrite <- skipn_add, H. apply skipn_app_exact. reflexivity. Qed.
Lemma skipn_more1 : forall (t : str) i x r, skipn i t = x :: r -> skipn (S i) t = r.
Proof. intros t i x r H. replace (S i) with (i + length [x]) by (cbn; lia). apply skipn_more. exact H. Qed.
(** what a pattern matches *)
Definition reading (key t ws : str) (x : ch) (r : str) : Prop := blank ws /\ isspace x = false /\ (x = c_lb \/ name_ends key ws x) /\ t = [c_bs] ++ key ++ ws ++ x :: r.
Definition key_ok (key : str) : Prop := (key <> [] /\ forallb is_letter key = true) \/ (exists x, key = [x] /\ is_letter x = false /\ isspace x = false).
Lemma keys_ok : forall key a, In (key, a) ACCENT_MAP -> key_ok key.
Proof. intros key a I. unfold ACCENT_MAP in I. cbn [In] in I. repeat (destruct I as [I|I]; [injection I as <- _; first [left; split; [discriminate|reflexivity]|right; eexists; split; [reflexivity|split; reflexivity]]|]). destruct I. Qed.
Lemma letter_iff : forall x, is_letter x = true <-> letter x.
Proof. intros x. split; [apply LegacyProofs2.letter_true|]. intros L. destruct (is_letter x) eqn:E; [reflexivity|]. apply StyleProofs3.letter_ok in E. contradiction. Qed.
Lemma rel_sp_ch : forall t i j p, rel (RSeq (rstar rspace) (RChr p)) t i j -> exists ws x r, blank ws /\ p x = true /\ skipn i t = ws ++ x :: r.
Proof.
  intros t i j p R. apply rel_rseq2 in R as (k & R1 & R). apply rel_star_chr in R1 as (ws & r & E & W & ->). apply LegacyProofs5.chr_inv in R as (-> & x & Ex & Hx). rewrite nth_error_skipn in Ex. rewrite (skipn_more t i ws r E) in Ex. destruct r as [|y r]; [discriminate|]. cbn in Ex. injection Ex as ->. exists ws, x, r. auto.
Qed.
Lemma pattern_hit : forall key t ws x r, key_ok key -> reading key t ws x r -> exists c, re_match_at (accent_pattern key) t 0 = Some {| m_start := 0; m_end := S (S (length key) + length ws); m_caps := c |}.
Proof.
  intros key t ws x r K (W & X & N & E). exists []. apply fm_match. unfold accent_pattern.
  assert (E1 : skipn (length (c_bs :: key)) t = ws ++ x :: r) by (rewrite E; apply (skipn_app_exact (c_bs :: key)); reflexivity).
  eapply fm_seq; [eapply (fm_rstr (c_bs :: key) t 0 []); rewrite E; reflexivity|]. change (0 + length (c_bs :: key)) with (length (c_bs :: key)). change (S (length key)) with (length (c_bs :: key)). set (i := length (c_bs :: key)) in *.
  assert (Li : i <= length t). { apply (f_equal (@List.length ch)) in E1. rewrite skipn_length, app_length in E1. cbn [List.length] in E1. lia. }
  assert (E2 := skipn_more _ _ _ _ E1). assert (Hst : (match x :: r with y :: _ => isspace y | [] => false end) = false) by exact X.
  destruct (alphabetic key) eqn:Al.
  - destruct (N.eqb_spec x c_lb) as [->|Nx]; [apply fm_alt_left; eapply fm_seq; [eapply (fm_star isspace _ _ _ ws); [exact E1|exact W|exact Hst]|eapply fm_is_ch; exact E2]|].
    apply fm_alt_right.
    { apply rm_none_rel; [exact Li|]. intros j R. apply rel_sp_ch in R as (ws' & y & r' & W' & Hy & E'). apply N.eqb_eq in Hy. subst y. rewrite E1 in E'.
      clear - E' W W' X Nx. revert ws' W' E'. induction ws as [|u ws IH]; intros [|v ws'] W' E'; cbn in E'; injection E' as Ea Eb.
      - congruence.
      - subst v. unfold blank in W'. cbn in W'. rewrite X in W'. discriminate.
      - subst u. discriminate W.
      - unfold blank in W, W'. cbn in W, W'. apply andb_prop in W as [_ W]. apply andb_prop in W' as [_ W']. exact (IH W _ W' Eb). }
    destruct ws as [|u ws].
    + apply fm_alt_right; [apply rm_none_rel; [exact Li|]; intros j R; apply rel_rseq2 in R as (k & R1 & _); unfold rplus in R1; apply rel_rseq2 in R1 as (k1 & R1 & _); apply LegacyProofs5.chr_inv in R1 as (_ & y & Ey & Hy); rewrite nth_error_skipn, E1 in Ey; cbn in Ey; injection Ey as <-; congruence|].
      destruct N as [->|N]; [congruence|]. destruct key as [|k kr]; [discriminate|]. destruct (N k kr eq_refl (proj1 (letter_iff k) Al) eq_refl) as (Nl & Na).
      rewrite Nat.add_0_r. eapply fm_seq; [|eapply fm_chr; [exact E1|apply negb_true_iff; exact X]]. exists []. cbn [rm]. unfold next_is. rewrite nth_error_skipn, E1. cbn [nth_error List.app].
      rewrite (proj2 (StyleProofs3.letter_ok x) Nl). destruct (N.eqb_spec x 64) as [E9|_]; [contradiction|]. reflexivity.
    + apply fm_alt_left. eapply fm_seq; [eapply (fm_plus isspace _ _ _ (u :: ws)); [exact E1|discriminate|exact W|exact Hst]|]. eapply fm_chr; [exact E2|apply negb_true_iff; exact X].
  - eapply fm_seq; [eapply (fm_star isspace _ _ _ ws); [exact E1|exact W|exact Hst]|]. destruct (N.eqb_spec x c_lb) as [->|Nx]; [apply fm_alt_left; eapply fm_is_ch; exact E2|].
    apply fm_alt_right; [|eapply fm_chr; [exact E2|apply negb_true_iff; exact X]]. cbn [rm is_ch]. unfold next_is. rewrite nth_error_skipn, E2. cbn [nth_error]. destruct (N.eqb_spec c_lb x) as [E9|_]; [exfalso; apply Nx; symmetry; exact E9|]. destruct (N.eqb_spec x c_lb) as [E9|_]; [contradiction|reflexivity].
Qed.
Lemma pattern_sound : forall key t m, key_ok key -> re_match_at (accent_pattern key) t 0 = Some m -> exists ws x r, reading key t ws x r.
Proof.
  intros key t m K M. unfold re_match_at in M. destruct (rm (accent_pattern key) t 0 []) as [|(j, c) l] eqn:Er; [discriminate|]. assert (R : rel (accent_pattern key) t 0 j) by (assert (I : In (j, c) (rm (accent_pattern key) t 0 [])) by (rewrite Er; left; reflexivity); apply rm_sound in I; [exact I|lia]).
  unfold accent_pattern in R. apply rel_rseq2 in R as (k & R1 & R). apply rel_rstr in R1 as (-> & s & E). cbn [skipn] in E. change (0 + length (c_bs :: key)) with (length (c_bs :: key)) in R. set (i := length (c_bs :: key)) in *.
  assert (Es : skipn i t = s) by (rewrite E; apply (skipn_app_exact (c_bs :: key)); reflexivity).
  assert (G : exists ws x r, blank ws /\ isspace x = false /\ (x = c_lb \/ name_ends key ws x) /\ s = ws ++ x :: r); [|destruct G as (ws & x & r & W & X & N & ->); exists ws, x, r; repeat split; assumption].
  destruct (alphabetic key) eqn:Al.
  - apply rel_alt2 in R as [R|R].
    + apply rel_sp_ch in R as (ws & x & r & W & Hx & E'). apply N.eqb_eq in Hx. subst x. rewrite Es in E'. exists ws, c_lb, r. repeat split; [exact W|left; reflexivity|exact E'].
    + apply rel_alt2 in R as [R|R]; apply rel_rseq2 in R as (k & R1 & R2); apply LegacyProofs5.chr_inv in R2 as (_ & x & Ex & Hx); apply negb_true_iff in Hx; rewrite nth_error_skipn in Ex.
      * unfold rplus in R1. apply rel_rseq2 in R1 as (k1 & R1 & R3). apply LegacyProofs5.chr_inv in R1 as (-> & y & Ey & Hy). rewrite nth_error_skipn, Es in Ey. destruct s as [|z s]; [discriminate|]. cbn in Ey. injection Ey as ->.
        assert (E3 := skipn_more1 _ _ _ _ Es). apply rel_star_chr in R3 as (ws & r & E4 & W & ->). rewrite (skipn_more _ _ _ _ E4) in Ex. rewrite E3 in E4. subst s. destruct r as [|z r]; [discriminate|]. cbn in Ex. injection Ex as ->.
        exists (y :: ws), x, r. split; [unfold blank; cbn; rewrite Hy; exact W|]. split; [exact Hx|]. split; [right; intros ? ? ? ? ?; discriminate|reflexivity].
      * assert (k = i /\ (is_letter x || N.eqb x 64)%N = false) as (-> & Nx).
        { inversion R1 as [| | | | | | | | | | |a t0 i0 Hn| | ]; subst. split; [reflexivity|]. specialize (Hn []). cbn [rm] in Hn. unfold next_is in Hn. rewrite nth_error_skipn in Hn. rewrite Ex in Hn. destruct (is_letter x || N.eqb x 64); [discriminate|reflexivity]. }
        exists [], x, (tl s). rewrite Es in Ex. destruct s as [|z s]; [discriminate|]. cbn in Ex. injection Ex as ->. apply orb_false_elim in Nx as (N1 & N2). split; [reflexivity|]. split; [exact Hx|]. split; [|reflexivity].
        right. intros k r _ _ _. split; [apply StyleProofs3.letter_ok; exact N1|apply N.eqb_neq; exact N2].
  - apply rel_rseq2 in R as (k & R1 & R). apply rel_star_chr in R1 as (ws & r & E1 & W & ->). assert (E2 := skipn_more _ _ _ _ E1). rewrite Es in E1. subst s.
    assert (Nm : forall x, name_ends key ws x). { intros x k kr Ek L. exfalso. subst key. cbn in Al. apply letter_iff in L. congruence. }
    apply rel_alt2 in R as [R|R].
    + apply rel_is_ch in R as (_ & q & E3). rewrite E2 in E3. subst r. exists ws, c_lb, q. repeat split; [exact W|left; reflexivity].
    + apply LegacyProofs5.chr_inv in R as (_ & x & Ex & Hx). apply negb_true_iff in Hx. rewrite nth_error_skipn, E2 in Ex. destruct r as [|z r]; [discriminate|]. cbn in Ex. injection Ex as ->. exists ws, x, r. repeat split; [exact W|exact Hx|right; apply Nm].
Qed.

(** * The name is read in one way *)
Lemma space_not_letter : forall x, isspace x = true -> is_letter x = false.
Proof. intros x S. destruct (is_letter x) eqn:L; [|reflexivity]. exfalso. unfold isspace, is_letter, in_range in *. repeat rewrite ?Bool.orb_true_iff, ?Bool.andb_true_iff, ?N.leb_le, ?N.eqb_eq in *. lia. Qed.
Lemma run_unique : forall (k1 k2 s1 s2 : str), forallb is_letter k1 = true -> forallb is_letter k2 = true -> (forall x r, s1 = x :: r -> is_letter x = false) -> (forall x r, s2 = x :: r -> is_letter x = false) -> k1 ++ s1 = k2 ++ s2 -> k1 = k2.
Proof.
  induction k1 as [|a k1 IH]; intros [|b k2] s1 s2 L1 L2 N1 N2 E; cbn in *; [reflexivity| | |].
  - apply andb_prop in L2 as [L2 _]. rewrite (N1 _ _ E) in L2. discriminate.
  - apply andb_prop in L1 as [L1 _]. rewrite (N2 _ _ (eq_sym E)) in L1. discriminate.
  - injection E as <- E. apply andb_prop in L1 as [_ L1]. apply andb_prop in L2 as [_ L2]. f_equal. exact (IH _ _ _ L1 L2 N1 N2 E).
Qed.
Lemma after_name : forall key t ws x r, key <> [] -> forallb is_letter key = true -> reading key t ws x r -> forall y q, ws ++ x :: r = y :: q -> is_letter y = false.
Proof.
  intros key t ws x r Ne L (W & X & N & _) y q E. destruct ws as [|u ws]; cbn in E; injection E as -> _.
  - destruct N as [->|N]; [reflexivity|]. destruct key as [|k kr]; [contradiction|]. cbn in L. apply andb_prop in L as [L _]. apply StyleProofs3.letter_ok. exact (proj1 (N k kr eq_refl (proj1 (letter_iff k) L) eq_refl)).
  - unfold blank in W. cbn in W. apply andb_prop in W as [W _]. apply space_not_letter. exact W.
Qed.
Lemma key_unique : forall k1 k2 t w1 x1 r1 w2 x2 r2, key_ok k1 -> key_ok k2 -> reading k1 t w1 x1 r1 -> reading k2 t w2 x2 r2 -> k1 = k2.
Proof.
  intros k1 k2 t w1 x1 r1 w2 x2 r2 [(N1 & L1)|(a & -> & A1 & A2)] [(N2 & L2)|(b & -> & B1 & B2)] R1 R2.
  - pose proof (after_name _ _ _ _ _ N1 L1 R1) as F1. pose proof (after_name _ _ _ _ _ N2 L2 R2) as F2. destruct R1 as (_ & _ & _ & E1). destruct R2 as (_ & _ & _ & E2). rewrite E1 in E2. cbn in E2. injection E2 as E2. exact (run_unique _ _ _ _ L1 L2 F1 F2 E2).
  - destruct R1 as (_ & _ & _ & E1). destruct R2 as (_ & _ & _ & E2). rewrite E1 in E2. destruct k1 as [|a k1]; [contradiction|]. cbn in E2. injection E2 as <- _. cbn in L1. apply andb_prop in L1 as [L1 _]. congruence.
  - destruct R1 as (_ & _ & _ & E1). destruct R2 as (_ & _ & _ & E2). rewrite E1 in E2. destruct k2 as [|b k2]; [contradiction|]. cbn in E2. injection E2 as <- _. cbn in L2. apply andb_prop in L2 as [L2 _]. congruence.
  - destruct R1 as (_ & _ & _ & E1). destruct R2 as (_ & _ & _ & E2). rewrite E1 in E2. cbn in E2. injection E2 as <- _. reflexivity.
Qed.
Lemma table_once : forall k a b, In (k, a) ACCENT_MAP -> In (k, b) ACCENT_MAP -> a = b.
Proof.
  intros k a b I J. assert (N : NoDup (map fst ACCENT_MAP)) by (apply StyleProofs2.nodupb_ok; vm_compute; reflexivity).
  revert N I J. induction ACCENT_MAP as [|(k', c) l IH]; cbn; [contradiction|]. intros N [I|I] [J|J]; apply NoDup_cons_iff in N as (N & N').
  - congruence.
  - injection I as -> ->. exfalso. apply N. apply in_map_iff. exists (k, b). auto.
  - injection J as -> ->. exfalso. apply N. apply in_map_iff. exists (k, a). auto.
  - exact (IH N' I J).
Qed.
Lemma good_body_group : forall body rest, good_body body -> group_at c_lb c_rb (c_lb :: body ++ [c_rb] ++ rest) body (S (S (length body))).
Proof. intros body rest [G1 G2]. exists [], rest. split; [reflexivity|]. split; [reflexivity|]. split; [exact G1|]. split; [exact G2|cbn; lia]. Qed.
Lemma group_shape : forall r body n, group_at c_lb c_rb (c_lb :: r) body n -> exists rest, r = body ++ [c_rb] ++ rest /\ good_body body.
Proof. intros r body n (ws & rest & E & W & G1 & G2 & _). destruct ws as [|u ws]; [|cbn in E; injection E as <- _; discriminate W]. cbn in E. injection E as ->. exists rest. split; [reflexivity|]. split; assumption. Qed.
Section Dia.
Variable nfc : ch -> ch -> str.
Definition text_tok (s : str) : val := VDict [(lit "type", VStr (lit "text")); (lit "content", VStr s)].
Lemma accents_hit : forall table t key a ws x r, (forall k b, In (k, b) table -> key_ok k) -> (forall b, In (key, b) table -> b = a) -> In (key, a) table -> reading key t ws x r ->
  accents nfc table t = (let '(converted, e) := parse_match nfc t (S (S (length key) + length ws)) a in (Some (text_tok converted), e)).
Proof.
  induction table as [|(k, b) table IH]; intros t key a ws x r K U I R; [destruct I|]. cbn [accents].
  destruct (re_match_at (accent_pattern k) t 0) as [m|] eqn:M.
  - destruct (pattern_sound _ _ _ (K k b (or_introl eq_refl)) M) as (ws' & x' & r' & R').
    assert (Kk : key_ok key) by (eapply K; exact I). pose proof (key_unique _ _ _ _ _ _ _ _ _ Kk (K k b (or_introl eq_refl)) R R') as <-. rewrite (U b (or_introl eq_refl)).
    destruct (pattern_hit _ _ _ _ _ Kk R) as (c & M'). rewrite M' in M. injection M as <-. reflexivity.
  - destruct I as [I|I]; [injection I as -> ->; destruct (pattern_hit _ _ _ _ _ (K key a (or_introl eq_refl)) R) as (c & M'); congruence|]. exact (IH t key a ws x r (fun k' b' H => K k' b' (or_intror H)) (fun b' H => U b' (or_intror H)) I R).
Qed.
Lemma handle_hit : forall t key a ws x r, In (key, a) ACCENT_MAP -> reading key t ws x r ->
  dia_handle nfc t = (let '(converted, e) := parse_match nfc t (S (S (length key) + length ws)) a in (Some (text_tok converted), e)).
Proof. intros t key a ws x r I R. eapply accents_hit; [exact keys_ok|intros b J; exact (table_once _ _ _ J I)|exact I|exact R]. Qed.
Lemma last_pos : forall t key ws x r, t = [c_bs] ++ key ++ ws ++ x :: r -> skipn (S (length key) + length ws) t = x :: r.
Proof. intros t key ws x r ->. replace ([c_bs] ++ key ++ ws ++ x :: r) with (((c_bs :: key) ++ ws) ++ x :: r) by (rewrite <- app_assoc; reflexivity). apply skipn_app_exact. rewrite app_length. reflexivity. Qed.
Lemma accent_same : forall base a, apply_accent nfc base a = with_accent nfc base a.
Proof. reflexivity. Qed.
Theorem dia_exact : forall key a t base rest, In (key, a) ACCENT_MAP -> accented key t base rest -> dia_handle nfc t = (Some (text_tok (with_accent nfc base a)), length t - length rest).
Proof.
  intros key a t base rest I A. pose proof (keys_ok _ _ I) as K.
  assert (G : exists ws x r, reading key t ws x r /\ parse_match nfc t (S (S (length key) + length ws)) a = (with_accent nfc base a, length t - length rest)).
  { destruct A as [ws body rest W B Nb|ws x rest W X Nx N|ws rest W N].
    - exists ws, c_lb, (body ++ [c_rb] ++ rest). set (t := [c_bs] ++ key ++ ws ++ [c_lb] ++ body ++ [c_rb] ++ rest). assert (E : t = [c_bs] ++ key ++ ws ++ c_lb :: body ++ [c_rb] ++ rest) by reflexivity. split; [repeat split; [exact W|left; reflexivity]|].
      unfold parse_match. replace (S (S (length key) + length ws) - 1) with (S (length key) + length ws) by lia. rewrite nth_error_skipn, (last_pos _ _ _ _ _ E). cbn [nth_error]. rewrite N.eqb_refl.
      rewrite (proj2 (extract_nested_content_iff _ _ _ _ _ delims_curly) (good_body_group body rest B)). destruct body as [|y body]; [contradiction|]. f_equal. unfold t. rewrite !app_length. cbn [List.length]. rewrite ?app_length. cbn [List.length]. lia.
    - exists ws, x, rest. set (t := [c_bs] ++ key ++ ws ++ [x] ++ rest). assert (E : t = [c_bs] ++ key ++ ws ++ x :: rest) by reflexivity. split; [repeat split; [exact W|exact X|right; exact N]|].
      unfold parse_match. replace (S (S (length key) + length ws) - 1) with (S (length key) + length ws) by lia. rewrite nth_error_skipn, (last_pos _ _ _ _ _ E). cbn [nth_error]. destruct (N.eqb_spec x c_lb) as [E9|_]; [contradiction|]. f_equal. unfold t. rewrite !app_length. cbn [List.length]. lia.
    - exists ws, c_lb, rest. set (t := [c_bs] ++ key ++ ws ++ [c_lb] ++ rest). assert (E : t = [c_bs] ++ key ++ ws ++ c_lb :: rest) by reflexivity. split; [repeat split; [exact W|left; reflexivity]|].
      unfold parse_match. replace (S (S (length key) + length ws) - 1) with (S (length key) + length ws) by lia. rewrite nth_error_skipn, (last_pos _ _ _ _ _ E). cbn [nth_error]. rewrite N.eqb_refl.
      assert (L : S (S (length key) + length ws) = length t - length rest) by (unfold t; rewrite !app_length; cbn [List.length]; lia).
      destruct (extract_nested_content (c_lb :: rest) c_lb c_rb) as ([[|y out]|], e) eqn:Ex; [rewrite <- L; reflexivity| |rewrite <- L; reflexivity].
      apply (proj1 (extract_nested_content_iff _ _ _ _ _ delims_curly)) in Ex. specialize (N _ _ Ex). discriminate. }
  destruct G as (ws & x & r & R & P). rewrite (handle_hit t key a ws x r I R), P. reflexivity.
Qed.
Theorem dia_none : forall t, (forall key a base rest, In (key, a) ACCENT_MAP -> ~ accented key t base rest) -> dia_handle nfc t = (None, 0).
Proof.
  intros t N. unfold dia_handle. assert (G : forall table, (forall k b, In (k, b) table -> In (k, b) ACCENT_MAP) -> accents nfc table t = (None, 0)); [|apply G; auto].
  induction table as [|(k, b) table IH]; intros S; [reflexivity|]. cbn [accents]. destruct (re_match_at (accent_pattern k) t 0) as [m|] eqn:M; [|apply IH; intros k' b' H; apply S; right; exact H].
  exfalso. pose proof (S k b (or_introl eq_refl)) as I. destruct (pattern_sound _ _ _ (keys_ok _ _ I) M) as (ws & x & r & W & X & Nm & E).
  destruct (N.eqb_spec x c_lb) as [->|Nx].
  - destruct (extract_nested_content (c_lb :: r) c_lb c_rb) as ([[|y out]|], e) eqn:Ex.
    + apply (N k b [c_lb] r I). rewrite E. apply (ac_brace k ws r W). intros body n G. apply (proj2 (extract_nested_content_iff _ _ _ _ _ delims_curly)) in G. congruence.
    + apply (proj1 (extract_nested_content_iff _ _ _ _ _ delims_curly)) in Ex. destruct (group_shape _ _ _ Ex) as (rest & -> & Gb). apply (N k b (strip (y :: out)) rest I). rewrite E. apply (ac_group k ws (y :: out) rest W Gb). discriminate.
    + apply (N k b [c_lb] r I). rewrite E. apply (ac_brace k ws r W). intros body n G. apply (proj2 (extract_nested_content_iff _ _ _ _ _ delims_curly)) in G. congruence.
  - destruct Nm as [Nm|Nm]; [contradiction|]. apply (N k b [x] r I). rewrite E. apply (ac_char k ws x r W X Nx Nm).
Qed.
End Dia.
