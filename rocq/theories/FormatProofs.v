(** C99: every text has an outcome. *)
From Coq Require Import List NArith PeanoNat Lia Bool String.
From Verif Require LegacyProofs2 LegacyProofs5.
From Verif Require Import PyStr Regex RegexLemmas RegexHead RegexAbs DelimSpec DelimProofs DelimProofs2 DelimFinal Json TexUtilsModel StyleModel StyleSpec FormatModel FormatSpec.
Import ListNotations. Notation length := List.length. Notation concat := List.concat. Open Scope list_scope.
Lemma skipn_more : forall (t : str) i a r, skipn i t = a ++ r -> skipn (i + length a) t = r.
Proof. intros t i a r H. rewrite <- skipn_add, H. apply skipn_app_exact. reflexivity. Qed.
(** * Numbers at the end of a token *)
Lemma num_head : forall t j, rel NUM t 0 j -> exists x r, t = x :: r /\ number_char x.
Proof.
  intros t j R. unfold NUM in R. cbn [rseq] in R. apply rel_rseq2 in R as (k & R1 & R). unfold ropt in R1. apply rel_alt2 in R1 as [R1|R1].
  - unfold rcls in R1. apply LegacyProofs5.chr_inv in R1 as (_ & x & Ex & Hx). destruct t as [|y r]; [discriminate|]. cbn in Ex. injection Ex as ->. exists x, r. split; [reflexivity|]. right. cbn in Hx. repeat rewrite orb_true_iff, ?N.eqb_eq in Hx. cbn. intuition.
  - assert (k = 0) as -> by (inversion R1; reflexivity). apply rel_rseq2 in R as (k & R1' & R). apply rel_star_chr in R1' as (ds & r & E & D & ->). cbn [skipn] in E. destruct ds as [|x ds].
    + cbn [List.length Nat.add] in R. cbn in E. apply rel_rseq2 in R as (k & R2 & R). apply rel_alt2 in R2 as [R2|R2].
      * apply rel_rstr in R2 as (_ & q & Eq). cbn [skipn] in Eq. exists 46%N, q. split; [exact Eq|]. right. cbn. auto.
      * assert (k = 0) as -> by (inversion R2; reflexivity). apply rel_rseq2 in R as (k & R3 & _). apply LegacyProofs5.chr_inv in R3 as (_ & x & Ex & Hx). destruct t as [|y q]; [discriminate|]. cbn in Ex. injection Ex as ->. exists x, q. split; [reflexivity|]. left. unfold isdigit, in_range in Hx. apply andb_prop in Hx as [H1 H2]. apply N.leb_le in H1, H2. split; assumption.
    + cbn in E. subst t. exists x, (ds ++ r). split; [reflexivity|]. left. cbn in D. apply andb_prop in D as [D _]. unfold isdigit, in_range in D. apply andb_prop in D as [H1 H2]. apply N.leb_le in H1, H2. split; assumption.
Qed.
Lemma match_rel : forall r t m, re_match_at r t 0 = Some m -> m_start m = 0 /\ rel r t 0 (m_end m).
Proof. intros r t m M. destruct (re_match_at_some _ _ _ _ (le_0_n _) M) as (S & R & _). split; assumption. Qed.
Lemma cut_exact : forall k text t, k <= length text -> cut_number text k = Some t -> exists a b, text = a ++ b ++ skipn k text /\ t = a /\ Forall number_char b.
Proof.
  induction k as [|i IH]; intros text t L H; [discriminate|]. cbn [cut_number] in H. destruct (re_match_at NUM (skipn i text) 0) as [m|] eqn:M.
  - apply match_rel in M as (_ & R). apply num_head in R as (x & r & E & X). destruct (IH text t ltac:(lia) H) as (a & b & E1 & -> & B). exists a, (b ++ [x]). split; [|split; [reflexivity|apply Forall_app; split; [exact B|constructor; [exact X|constructor]]]].
    rewrite (skipn_S_tl _ _ _ _ E). rewrite <- app_assoc. cbn [List.app]. rewrite <- E. exact E1.
  - injection H as <-. exists (firstn (S i) text), []. split; [symmetry; apply firstn_skipn|]. split; [reflexivity|constructor].
Qed.
Lemma num_chars : forall t i j, rel NUM t i j -> forall k x, i <= k < j -> nth_error t k = Some x -> number_char x.
Proof.
  assert (D : forall x, isdigit x = true -> number_char x) by (intros x H; left; unfold isdigit, in_range in H; apply andb_prop in H as [H1 H2]; apply N.leb_le in H1, H2; split; assumption).
  intros t i j R k x L Ex. unfold NUM in R. cbn [rseq] in R. apply rel_rseq2 in R as (k1 & R1 & R). apply rel_rseq2 in R as (k2 & R2 & R). apply rel_rseq2 in R as (k3 & R3 & R4).
  destruct (Compare_dec.le_lt_dec k1 k) as [L1|L1].
  - destruct (Compare_dec.le_lt_dec k2 k) as [L2|L2].
    + destruct (Compare_dec.le_lt_dec k3 k) as [L3|L3].
      * unfold rplus in R4. apply rel_rseq2 in R4 as (k5 & R4 & R6). apply LegacyProofs5.chr_inv in R4 as (-> & y & Ey & Hy). destruct (Nat.eq_dec k k3) as [->|N]; [rewrite Ex in Ey; injection Ey as ->; apply D; exact Hy|].
        apply rel_star_chr in R6 as (ds & r & E & F & ->). rewrite nth_error_skipn in Ex. assert (Ek : skipn k t = skipn (k - S k3) (ds ++ r)) by (rewrite <- E, skipn_add; f_equal; lia). rewrite Ek in Ex.
        assert (In x ds). { rewrite skipn_app in Ex. assert (Ls : k - S k3 < length ds) by lia. destruct (skipn (k - S k3) ds) as [|z q] eqn:Es; [apply (f_equal (@List.length ch)) in Es; rewrite skipn_length in Es; cbn in Es; lia|]. cbn in Ex. injection Ex as ->. rewrite <- (firstn_skipn (k - S k3) ds), Es. apply in_or_app. right. left. reflexivity. }
        apply D. rewrite forallb_forall in F. apply F. assumption.
      * apply rel_alt2 in R3 as [R3|R3]; [|inversion R3; subst; lia]. apply rel_rstr in R3 as (-> & q & E). cbn [List.length] in L3. change (length (lit ".")) with 1 in L3. assert (k = k2) as -> by lia. rewrite nth_error_skipn, E in Ex. cbn in Ex. injection Ex as <-. right. cbn. auto.
    + apply rel_star_chr in R2 as (ds & r & E & F & ->). rewrite nth_error_skipn in Ex. assert (Ek : skipn k t = skipn (k - k1) (ds ++ r)) by (rewrite <- E, skipn_add; f_equal; lia). rewrite Ek in Ex.
      assert (In x ds). { rewrite skipn_app in Ex. assert (Ls : k - k1 < length ds) by lia. destruct (skipn (k - k1) ds) as [|z q] eqn:Es; [apply (f_equal (@List.length ch)) in Es; rewrite skipn_length in Es; cbn in Es; lia|]. cbn in Ex. injection Ex as ->. rewrite <- (firstn_skipn (k - k1) ds), Es. apply in_or_app. right. left. reflexivity. }
      apply D. rewrite forallb_forall in F. apply F. assumption.
  - apply rel_alt2 in R1 as [R1|R1]; [|inversion R1; subst; lia]. apply LegacyProofs5.chr_inv in R1 as (-> & y & Ey & Hy). assert (k = i) as -> by lia. rewrite Ex in Ey. injection Ey as ->. right. cbn in Hy. repeat rewrite orb_true_iff, ?N.eqb_eq in Hy. cbn. intuition.
Qed.
Lemma whole_number : forall text m, re_match_at (RSeq RStart (RSeq NUM REnd)) text 0 = Some m -> Forall number_char text \/ exists b, text = b ++ [10%N] /\ Forall number_char b.
Proof.
  intros text m M. apply match_rel in M as (_ & R). apply rel_rseq2 in R as (k & R0 & R). assert (k = 0) as -> by (inversion R0; reflexivity). apply rel_rseq2 in R as (j & R1 & R2). pose proof (rel_bounds _ _ _ _ R1 (le_0_n _)) as B.
  inversion R2 as [| | | | | | | |t0 i0 E| | | | |]; subst. clear R2. set (n := m_end m) in *. clearbody n. clear R0 m.
  assert (F : Forall number_char (firstn n text)). { apply Forall_forall. intros x I. apply In_nth_error in I as (k & Ek). assert (Lk : k < n) by (assert (k < length (firstn n text)) by (apply nth_error_Some; congruence); rewrite firstn_length in *; lia). apply (num_chars text 0 n R1 k x); [lia|]. rewrite <- (firstn_skipn n text). apply nth_app_some. exact Ek. }
  unfold at_end in E. pose proof (firstn_skipn n text) as Es. destruct (skipn n text) as [|x [|y q]]; [left; rewrite <- Es, app_nil_r; exact F| |discriminate]. apply N.eqb_eq in E. subst x. right. exists (firstn n text). split; [symmetry; exact Es|exact F].
Qed.
Lemma strip_number_ok : forall v, token_ok v -> exists v', strip_trailing_number v = Ok v' /\ number_cut v v'.
Proof.
  intros v K. destruct v as [| | | | |[|kv d]]; try (eexists; split; [reflexivity|left; reflexivity]). cbn [strip_trailing_number]. set (dd := kv :: d) in *. unfold token_ok in K.
  destruct (val_eqb (get (lit "type") dd) (VStr (lit "text"))) eqn:Et; [|eexists; split; [reflexivity|left; reflexivity]].
  assert (Ht : get (lit "type") dd = VStr (lit "text")). { destruct (get (lit "type") dd) as [| | |s| |]; try discriminate. change (str_eqb s (lit "text") = true) in Et. apply str_eqb_spec in Et. rewrite Et. reflexivity. }
  destruct (K Ht) as (text & Ec). unfold getitem. rewrite Ec. cbn [bind]. destruct text as [|x text]; [eexists; split; [reflexivity|left; reflexivity]|]. set (tt := x :: text) in *.
  destruct (re_match_at (RSeq RStart (RSeq NUM REnd)) tt 0) as [m|] eqn:M.
  - eexists. split; [reflexivity|]. right. exists dd, [], tt. repeat split; [exact Ht|exact Ec|exact (whole_number _ _ M)].
  - destruct (cut_number tt (length tt)) as [t|] eqn:Cn; [|eexists; split; [reflexivity|left; reflexivity]]. eexists. split; [reflexivity|]. apply cut_exact in Cn as (a & b & E & -> & B); [|lia]. rewrite skipn_all, app_nil_r in E.
    right. exists dd, a, b. repeat split; [exact Ht|rewrite Ec, E; reflexivity|left; exact B].
Qed.

(** * The end of what is read *)
Lemma nested_end : forall o c s, delims_ok o c -> snd (extract_nested_content s o c) <= length s.
Proof. intros o c s D. destruct (c02_outcomes o c s D) as [E|(ct & n & E & L)]; rewrite E; cbn; lia. Qed.
Lemma blocks_end_ok : forall s o c k, delims_ok o c -> blocks_end s o c k <= length s.
Proof. intros s o c k D. unfold blocks_end. destruct (c03_blocks o c s (Some k) D) as (bs & p & E & G & _). rewrite E. cbn. destruct (c03_render _ _ _ _ _ G) as (_ & _ & _ & _ & L & _). exact L. Qed.
Definition groupish (a : action) : bool := match a with ADrop | AText _ | ANumber | APrev | ASpacing => false | _ => true end.
(** a match used with a group has at least two characters, any other at least one *)
Definition long_enough (e : string * (re * action)) : bool := Nat.leb (if groupish (snd (snd e)) then 2 else 1) (minlen (fst (snd e))).
Section Total.
Variable u : ch -> bool.
Variable quantize : str -> str -> option str.
Lemma table_long : forall name r a, In (name, (r, a)) (TABLE u) -> (if groupish a then 2 else 1) <= minlen r.
Proof. intros name r a I. assert (H : forallb long_enough (TABLE u) = true) by (vm_compute; reflexivity). rewrite forallb_forall in H. apply Nat.leb_le. exact (H _ I). Qed.
Lemma phantom_only : forall name r a, In (name, (r, a)) (TABLE u) -> a = APhantom -> r = P_phantom.
Proof. intros name r a I E. unfold TABLE in I. cbn [In] in I. repeat (destruct I as [I|I]; [injection I as <- <- <-; first [discriminate E|reflexivity]|]). destruct I. Qed.
Lemma start_bound : forall (content : str) start n, start <= length content -> n <= length (skipn start content) -> start + n <= length content.
Proof. intros content start n L H. rewrite skipn_length in H. lia. Qed.
Definition unclosed_phantom (content : str) : Prop := exists ws s, blank ws /\ content = lit "\hphantom" ++ ws ++ c_lb :: s /\ (forall b n, ~ group_at c_lb c_rb (c_lb :: s) b n).
Lemma phantom_shape : forall content j, rel P_phantom content 0 j -> startswith (firstn j content) (lit "\hphantom") = true -> exists ws s, blank ws /\ content = lit "\hphantom" ++ ws ++ c_lb :: s /\ skipn (j - 1) content = c_lb :: s.
Proof.
  intros content j R S. pose proof (rel_bounds _ _ _ _ R (le_0_n _)) as B. apply startswith_spec in S as (q & Eq). assert (Ec : exists s0, content = lit "\hphantom" ++ s0) by (exists (q ++ skipn j content); rewrite <- (firstn_skipn j content) at 1; rewrite Eq, <- app_assoc; reflexivity). destruct Ec as (s0 & ->).
  unfold P_phantom in R. cbn [rseq] in R. apply rel_rseq2 in R as (k & R1 & R). apply rel_rstr in R1 as (-> & q1 & E1). change (0 + length (lit "\")) with 1 in R. apply rel_rseq2 in R as (k & R1 & R). apply rel_rseq2 in R as (k2 & R2 & R3).
  assert (k = 9) as ->. { unfold words in R1. cbn [map ralt] in R1. repeat (apply rel_alt2 in R1 as [R1|R1]); apply rel_rstr in R1 as (-> & q2 & E2); cbn in E2; try discriminate; reflexivity. }
  apply rel_star_chr in R2 as (ws & r & E2 & W & ->). apply rel_rstr in R3 as (-> & q3 & E3). change (length (lit "{")) with 1 in *. replace (9 + length ws + 1 - 1) with (9 + length ws) by lia. rewrite (skipn_more _ _ _ _ E2) in E3. subst r.
  exists ws, q3. change (skipn 9 (lit "\hphantom" ++ s0)) with s0 in E2. split; [exact W|]. split; [rewrite E2; reflexivity|]. rewrite (skipn_more (lit "\hphantom" ++ s0) 9 ws (lit "{" ++ q3) E2). reflexivity.
Qed.
Definition outcome (content : str) (prev : val) (r : res (option val * nat * val)) : Prop :=
  (exists tok n after, r = Ok (tok, n, after) /\ 1 <= n <= length content /\ number_cut prev after) \/ (r = Raise TypeError /\ unclosed_phantom content).
Lemma act_ok : forall name r a content prev m, In (name, (r, a)) (TABLE u) -> token_ok prev -> re_match_at r content 0 = Some m -> outcome content prev (act quantize content prev a m).
Proof.
  intros name r a content prev m I K M. pose proof (table_long _ _ _ I) as Lm. apply match_rel in M as (_ & R). pose proof (minlen_ok _ _ _ _ R) as Ln. pose proof (rel_bounds _ _ _ _ R (le_0_n _)) as B. cbn [Nat.add] in Ln.
  assert (Done : forall t n, 1 <= n <= length content -> outcome content prev (Ok (t, n, prev))) by (intros t n H; left; exists t, n, prev; split; [reflexivity|]; split; [exact H|left; reflexivity]).
  assert (Before : forall e, 1 <= e <= length content -> outcome content prev (do p <- (if truthy prev then strip_trailing_number prev else Ok prev); Ok (@None val, e, p))).
  { intros e He. destruct (truthy prev); [|apply Done; exact He]. destruct (strip_number_ok prev K) as (v & E & C). rewrite E. left. exists None, e, v. auto. }
  assert (Le : 1 <= m_end m <= length content) by (destruct (groupish a); lia).
  unfold act. cbv zeta.
  assert (Inner : (groupish a = true -> 1 <= m_end m - 1)) by (intros G; rewrite G in Lm; lia).
  assert (Ls : m_end m - 1 <= length content) by lia.
  destruct a; cbn [groupish] in Inner;
    try (destruct (startswith (firstn (m_end m) content) (lit "\baselineskip")); [apply Before; exact Le|]);
    try (apply Done; exact Le); try (apply Before; exact Le); try specialize (Inner eq_refl).
  - destruct (str_eqb _ _); apply Done; exact Le.
  - apply Done. pose proof (start_bound _ _ _ Ls (nested_end c_lb c_rb _ delims_curly)). lia.
  - apply Done. pose proof (start_bound _ _ _ Ls (blocks_end_ok (skipn (m_end m - 1) content) c_lb c_rb n delims_curly)). lia.
  - pose proof (start_bound _ _ _ Ls (nested_end c_lb c_rb _ delims_curly)) as H. destruct (extract_nested_content _ _ _) as (c, n). cbn [snd] in H. apply Done. lia.
  - apply Done. unfold title_end. cbv zeta. set (p0 := m_end m - 1) in *. pose proof (start_bound _ _ _ Ls (blocks_end_ok (skipn p0 content) c_lb c_rb 1 delims_curly)) as H1. set (p1 := p0 + _) in *.
    pose proof (start_bound _ _ _ H1 (blocks_end_ok (skipn p1 content) c_lk c_rk 1 delims_square)) as H2. set (p2 := p1 + _) in *. pose proof (start_bound _ _ _ H2 (blocks_end_ok (skipn p2 content) c_lb c_rb 4 delims_curly)) as H3. set (p3 := p2 + _) in *.
    pose proof (start_bound _ _ _ H3 (blocks_end_ok (skipn p3 content) c_lk c_rk 1 delims_square)) as H4. split; [|exact H4]. unfold p3, p2, p1. lia.
  - destruct (endswith _ _); apply Done; [|exact Le]. pose proof (start_bound _ _ _ Ls (nested_end c_lb c_rb _ delims_curly)). lia.
  - apply Done. pose proof (start_bound _ _ _ Ls (blocks_end_ok (skipn (m_end m - 1) content) c_lb c_rb (declare_N (match m_group content 1 m with Some c => c | None => [] end)) delims_curly)). lia.
  - destruct (endswith _ _); apply Done; [|exact Le]. pose proof (start_bound _ _ _ Ls (nested_end c_lk c_rk _ delims_square)). lia.
  - rewrite (phantom_only _ _ _ I eq_refl) in R. pose proof (start_bound _ _ _ Ls (nested_end c_lb c_rb _ delims_curly)) as H. destruct (extract_nested_content (skipn (m_end m - 1) content) c_lb c_rb) as ([b|], n) eqn:Ex; cbn [snd] in H.
    + destruct (startswith _ _); apply Done; lia.
    + destruct (startswith (firstn (m_end m) content) (lit "\hphantom")) eqn:Sw; [|apply Done; lia]. right. split; [reflexivity|]. destruct (phantom_shape _ _ R Sw) as (ws & s & W & E & Es). exists ws, s. split; [exact W|]. split; [exact E|]. rewrite Es in Ex.
      intros b' n' G. apply (proj2 (extract_nested_content_iff _ _ _ _ _ delims_curly)) in G. congruence.
Qed.
Definition matches (exclude : list string) (content : str) : Prop := exists name r a, In (name, (r, a)) (TABLE u) /\ ~ In name exclude /\ re_match_at r content 0 <> None.
Lemma excl_iff : forall (name : string) l, existsb (String.eqb name) l = true <-> In name l.
Proof. intros name l. rewrite existsb_exists. split; [intros (x & I & E); apply String.eqb_eq in E; subst x; exact I|intros I; exists name; split; [exact I|apply String.eqb_refl]]. Qed.
Theorem fmt_total : forall exclude prev content, token_ok prev ->
  (matches exclude content /\ outcome content prev (fmt_handle u quantize exclude prev content)) \/ (~ matches exclude content /\ fmt_handle u quantize exclude prev content = Ok (None, 0, prev)).
Proof.
  intros exclude prev content K. unfold fmt_handle, matches.
  assert (G : forall T', (forall name r a, In (name, (r, a)) T' -> In (name, (r, a)) (TABLE u)) ->
    ((exists name r a, In (name, (r, a)) T' /\ ~ In name exclude /\ re_match_at r content 0 <> None) /\ outcome content prev (try_table quantize T' exclude content prev)) \/ ((forall name r a, In (name, (r, a)) T' -> ~ In name exclude -> re_match_at r content 0 = None) /\ try_table quantize T' exclude content prev = Ok (None, 0, prev))).
  { induction T' as [|(name, (r, a)) T' IH]; intros Sub; [right; split; [intros ? ? ? []|reflexivity]|]. cbn [try_table].
    assert (IH' := IH (fun n0 r0 a0 H => Sub n0 r0 a0 (or_intror H))). clear IH.
    destruct (existsb (String.eqb name) exclude) eqn:Ex.
    - apply excl_iff in Ex. destruct IH' as [((n0 & r0 & a0 & I & N & M) & O)|(N & E)]; [left; split; [exists n0, r0, a0; split; [right; exact I|split; assumption]|exact O]|right; split; [|exact E]]. intros n0 r0 a0 [I|I] Nx; [injection I as -> -> ->; contradiction|exact (N _ _ _ I Nx)].
    - assert (Nx : ~ In name exclude) by (intros H; apply excl_iff in H; congruence). destruct (re_match_at r content 0) as [m|] eqn:M.
      + left. split; [exists name, r, a; split; [left; reflexivity|]; split; [exact Nx|congruence]|]. exact (act_ok name r a content prev m (Sub _ _ _ (or_introl eq_refl)) K M).
      + destruct IH' as [((n0 & r0 & a0 & I & N & M') & O)|(N & E)]; [left; split; [exists n0, r0, a0; split; [right; exact I|split; assumption]|exact O]|right; split; [|exact E]]. intros n0 r0 a0 [I|I] Nx0; [injection I as <- <- <-; exact M|exact (N _ _ _ I Nx0)]. }
  destruct (G (TABLE u) (fun _ _ _ H => H)) as [(Mx & O)|(N & E)]; [left; split; assumption|right; split; [|exact E]]. intros (n0 & r0 & a0 & I & Nx & M). apply M. exact (N _ _ _ I Nx).
Qed.
Lemma can_iff : forall content, fmt_can_handle u content = true <-> matches [] content.
Proof.
  intros content. unfold fmt_can_handle, matches. rewrite existsb_exists. split.
  - intros ((name, (r, a)) & I & H). exists name, r, a. split; [exact I|]. split; [intros []|]. cbn [fst snd] in H. destruct (re_match_at r content 0); [discriminate|discriminate H].
  - intros (name & r & a & I & _ & H). exists (name, (r, a)). split; [exact I|]. cbn [fst snd]. destruct (re_match_at r content 0); [reflexivity|contradiction].
Qed.
End Total.
