(** C96. *)
From Coq Require Import List NArith PeanoNat Lia Bool String Compare_dec Wf_nat.
From Verif Require BibProofs BibProofs2 LegacyProofs2.
From Verif Require Import PyStr Regex RegexLemmas RegexHead RegexLocal DelimSpec DelimFinal Json StyleModel StyleSpec StyleProofs3 EqProofs BibModel CodeModel CodeSpec.
Import ListNotations. Notation length := List.length. Notation concat := List.concat. Open Scope list_scope.
Lemma skipn_more : forall (t : str) i a r, skipn i t = a ++ r -> skipn (i + length a) t = r.
Proof. intros t i a r H. rewrite <- skipn_add, H. apply skipn_app_exact. reflexivity. Qed.
Lemma skipn_more1 : forall (t : str) i x r, skipn i t = x :: r -> skipn (S i) t = r.
Proof. intros t i x r H. replace (S i) with (i + length [x]) by (cbn; lia). apply skipn_more. exact H. Qed.

Lemma tag_eq : forall cmd ws name rest, tag cmd ws name ++ rest = cmd ++ ws ++ ([c_lb] ++ name ++ [c_rb]) ++ rest.
Proof. intros. unfold tag. rewrite <- !app_assoc. reflexivity. Qed.
Lemma tag_len : forall cmd ws name, length (tag cmd ws name) = length cmd + length ws + length ([c_lb] ++ name ++ [c_rb]).
Proof. intros. unfold tag. rewrite !app_length. lia. Qed.
Lemma fm_tag : forall cmd ws name t i c rest, blank ws -> skipn i t = tag cmd ws name ++ rest -> first_match (tag_re cmd name) t i c (i + length (tag cmd ws name)) c.
Proof.
  intros cmd ws name t i c rest W E. rewrite tag_eq in E. rewrite tag_len. unfold tag_re. replace (i + _) with (i + length cmd + length ws + length ([c_lb] ++ name ++ [c_rb])) by lia.
  eapply fm_seq; [eapply fm_rstr; exact E|]. apply skipn_more in E. eapply fm_seq; [eapply (fm_star isspace _ _ _ ws); [exact E|exact W|reflexivity]|]. apply skipn_more in E. eapply fm_rstr. exact E.
Qed.
Lemma rel_tag : forall cmd name t i j, rel (tag_re cmd name) t i j <-> exists ws r, blank ws /\ skipn i t = tag cmd ws name ++ r /\ j = i + length (tag cmd ws name).
Proof.
  intros cmd name t i j. unfold tag_re. rewrite rel_rseq2. split.
  - intros (k & R1 & R). apply rel_rstr in R1 as (-> & r & E). apply rel_rseq2 in R as (k & R1 & R). apply rel_star_chr in R1 as (ws & r' & E1 & W & ->). assert (X := skipn_more _ _ _ _ E). rewrite X in E1. subst r.
    apply rel_rstr in R as (-> & r & E2). rewrite (skipn_more _ _ _ _ X) in E2. subst r'. exists ws, r. split; [exact W|]. split; [rewrite tag_eq; exact E|rewrite tag_len; lia].
  - intros (ws & r & W & E & ->). rewrite tag_eq in E. assert (E1 := skipn_more _ _ _ _ E). assert (E2 := skipn_more _ _ _ _ E1). exists (i + length cmd). split; [apply rel_rstr; split; [reflexivity|eexists; exact E]|].
    apply rel_rseq2. exists (i + length cmd + length ws). split; [apply rel_star_chr; exists ws; eexists; split; [exact E1|split; [exact W|reflexivity]]|]. apply rel_rstr. split; [rewrite tag_len; lia|eexists; exact E2].
Qed.
Definition body_re (n : nat) (name : str) : re := RSeq (RGrp n (rlazy rany)) (tag_re (lit "\end") name).
Lemma fm_body : forall n name t i c s body rest, skipn i t = s -> up_to_end name s body rest ->
  exists ws, s = body ++ tag (lit "\end") ws name ++ rest /\ first_match (body_re n name) t i c (i + length body + length (tag (lit "\end") ws name)) ((n, (i, i + length body)) :: c).
Proof.
  intros n name t i c s body rest E ((ws & W & Es) & Hmin). exists ws. split; [exact Es|]. unfold body_re, rany. rewrite Es in E.
  eapply fm_lazy_first; [exact E|apply any_all| |eapply fm_tag; [exact W|apply skipn_more; exact E]].
  intros k c' Hk. apply rm_none_rel; [apply (f_equal (@List.length ch)) in E; rewrite skipn_length in E; rewrite app_length in E; lia|].
  intros j R. apply rel_tag in R as (ws' & b & W' & E' & _). rewrite <- skipn_add, E, <- Es in E'.
  assert (X := Hmin (firstn k s) ws' b W'). rewrite <- E', firstn_skipn in X. specialize (X eq_refl). rewrite firstn_length in X. lia.
Qed.
Lemma rel_body : forall n name t i j, rel (body_re n name) t i j -> exists a ws b, blank ws /\ skipn i t = a ++ tag (lit "\end") ws name ++ b.
Proof.
  intros n name t i j R. unfold body_re in R. apply rel_rseq2 in R as (k & R1 & R). apply rel_grp1 in R1. apply rel_star_chr in R1 as (a & r & E & _ & ->). apply rel_tag in R as (ws & b & W & E1 & _).
  rewrite (skipn_more _ _ _ _ E) in E1. subst r. exists a, ws, b. split; assumption.
Qed.
(** the first end *)
Lemma first_end : forall name a ws b s, blank ws -> s = a ++ tag (lit "\end") ws name ++ b -> ends name s.
Proof.
  intros name a. remember (length a) as n eqn:Hn. revert a Hn. induction n as [n IH] using (well_founded_induction lt_wf). intros a -> ws b s W E.
  assert (D : (forall a' ws' b', blank ws' -> s = a' ++ tag (lit "\end") ws' name ++ b' -> length a <= length a') \/ exists k, k < length a /\ exists j, rel (tag_re (lit "\end") name) s k j).
  { assert (B : forall m, m <= length s -> (forall k j, k < m -> ~ rel (tag_re (lit "\end") name) s k j) \/ exists k, k < m /\ exists j, rel (tag_re (lit "\end") name) s k j).
    { induction m as [|m IHm0]; intros Hm; [left; intros; lia|]. destruct (IHm0 ltac:(lia)) as [IHm|(k & Hk & j & R)]; [|right; exists k; split; [lia|exists j; exact R]].
      destruct (rm (tag_re (lit "\end") name) s m []) as [|(j, c) l] eqn:Er.
      - left. intros k j Hk R. destruct (Nat.eq_dec k m) as [->|N]; [|apply (IHm k j); [lia|exact R]]. assert (Lm : m <= length s) by lia. destruct (rm_complete _ _ _ _ R Lm []) as (c' & I). rewrite Er in I. destruct I.
      - right. exists m. split; [lia|]. exists j. assert (I : In (j, c) (rm (tag_re (lit "\end") name) s m [])) by (rewrite Er; left; reflexivity). apply rm_sound in I; [exact I|lia]. }
    destruct (B (length a) ltac:(rewrite E, app_length; lia)) as [N|X]; [left|right; exact X]. intros a' ws' b' W' E'. destruct (le_lt_dec (length a) (length a')) as [L|L]; [exact L|]. exfalso.
    apply (N (length a') (length a' + length (tag (lit "\end") ws' name)) L). apply rel_tag. exists ws', b'. split; [exact W'|]. split; [rewrite E'; apply skipn_app_exact; reflexivity|reflexivity]. }
  destruct D as [D|(k & Hk & j & R)]; [exists a, b; split; [exists ws; split; assumption|exact D]|].
  apply rel_tag in R as (ws' & r & W' & E' & _). assert (L : length (firstn k s) = k) by (rewrite firstn_length, E, app_length; lia).
  refine (IH k Hk (firstn k s) _ ws' r s W' _); [lia|]. rewrite <- E'. symmetry. apply firstn_skipn.
Qed.
Lemma end_unique : forall name s b1 r1 b2 r2, up_to_end name s b1 r1 -> up_to_end name s b2 r2 -> b1 = b2 /\ length r1 = length r1.
Proof.
  intros name s b1 r1 b2 r2 ((w1 & W1 & E1) & M1) ((w2 & W2 & E2) & M2). split; [|reflexivity].
  assert (L1 := M1 _ _ _ W2 E2). assert (L2 := M2 _ _ _ W1 E1). rewrite E1 in E2. apply (f_equal (firstn (length b1))) in E2.
  rewrite firstn_app_exact in E2 by reflexivity. assert (length b1 = length b2) as Q by lia. rewrite firstn_app_exact in E2 by exact Q. exact E2.
Qed.

(** * verbatim *)
Lemma verbatim_exact : forall text s body rest, opening (lit "verbatim") text s -> up_to_end (lit "verbatim") s body rest ->
  exists m, re_match_at P_verbatim text 0 = Some m /\ m_group text 1 m = Some body /\ text = firstn (m_end m) text ++ rest /\ m_end m + length rest = length text.
Proof.
  intros text s body rest (ws & W & Et) U. set (h := tag (lit "\begin") ws (lit "verbatim")) in *.
  assert (E : skipn (length h) text = s) by (rewrite Et; apply skipn_app_exact; reflexivity).
  destruct (fm_body 1 (lit "verbatim") text (length h) [] s body rest E U) as (ws2 & Es & F).
  eexists. split; [apply fm_match; unfold P_verbatim; eapply fm_seq; [apply (fm_tag (lit "\begin") ws (lit "verbatim") text 0 [] s W); exact Et|fold h; cbn [plus]; exact F]|].
  split; [unfold m_group, m_span; cbn [m_caps cap_get Nat.eqb option_map]; unfold slice; rewrite E, Es; f_equal; replace (length h + length body - length h) with (length body) by lia; apply firstn_app_exact; reflexivity|].
  cbn [m_end]. set (n := length h + length body + length (tag (lit "\end") ws2 (lit "verbatim"))). assert (L : n + length rest = length text) by (unfold n; rewrite Et, Es, !app_length; lia). split; [|exact L].
  assert (X : skipn n text = rest). { unfold n. rewrite Es in E. apply skipn_more. apply skipn_more. exact E. } rewrite <- X. symmetry. apply firstn_skipn.
Qed.
Lemma verbatim_sound : forall text m, re_match_at P_verbatim text 0 = Some m -> exists s, opening (lit "verbatim") text s /\ ends (lit "verbatim") s.
Proof.
  intros text m M. unfold re_match_at in M. destruct (rm P_verbatim text 0 []) as [|(j, c) l] eqn:Er; [discriminate|]. assert (R : rel P_verbatim text 0 j) by (assert (I : In (j, c) (rm P_verbatim text 0 [])) by (rewrite Er; left; reflexivity); apply rm_sound in I; [exact I|lia]).
  unfold P_verbatim in R. apply rel_rseq2 in R as (k & R1 & R). apply rel_tag in R1 as (ws & r & W & E & ->). cbn [skipn plus] in *. exists r. split; [exists ws; split; assumption|].
  apply (rel_body 1) in R as (a & ws' & b & W' & E'). rewrite E in E'. rewrite skipn_app_exact in E' by reflexivity. exact (first_end _ _ _ _ _ W' E').
Qed.

(** * listings *)
Lemma tag_cut : forall cmd name w1 r1 w2 r2, blank w1 -> blank w2 -> tag cmd w1 name ++ r1 = tag cmd w2 name ++ r2 -> r1 = r2.
Proof.
  intros cmd name w1 r1 w2 r2 W1 W2 E. rewrite !tag_eq in E. apply app_inv_head in E.
  assert (X : forall (a b p q : str), blank a -> blank b -> a ++ c_lb :: p = b ++ c_lb :: q -> p = q).
  { induction a as [|x a IH]; intros [|y b] p q Ha Hb H; cbn in H.
    - injection H as H. exact H.
    - injection H as H1 H2. subst y. discriminate Hb.
    - injection H as H1 H2. subst x. discriminate Ha.
    - injection H as H1 H2. unfold blank in Ha, Hb. cbn in Ha, Hb. apply andb_prop in Ha as [_ Ha]. apply andb_prop in Hb as [_ Hb]. eapply IH; [exact Ha|exact Hb|exact H2]. }
  cbn [List.app] in E. apply X in E; try assumption. exact (app_inv_head _ _ _ E).
Qed.
Lemma opening_unique : forall name t s1 s2, opening name t s1 -> opening name t s2 -> s1 = s2.
Proof. intros name t s1 s2 (w1 & W1 & E1) (w2 & W2 & E2). rewrite E1 in E2. exact (tag_cut _ _ _ _ _ _ W1 W2 E2). Qed.
Lemma optioned_unique : forall s o1 r1 o2 r2, optioned s o1 r1 -> optioned s o2 r2 -> o1 = o2 /\ r1 = r2.
Proof.
  intros s o1 r1 o2 r2 (N1 & E1) (N2 & E2). rewrite E1 in E2. clear E1. cbn [List.app] in E2. injection E2 as E2. revert o2 N1 N2 E2. induction o1 as [|x o1 IH]; intros [|y o2] N1 N2 E; cbn in E.
  - injection E as E. auto.
  - injection E as E1 E2. subst y. exfalso. apply N2. left. reflexivity.
  - injection E as E1 E2. subst x. exfalso. apply N1. left. reflexivity.
  - injection E as E1 E2. subst y. destruct (IH o2) as (-> & ->); [intros I; apply N1; right; exact I|intros I; apply N2; right; exact I|exact E2|]. split; reflexivity.
Qed.
Lemma fm_options : forall t i c s opts rest, skipn i t = s -> optioned s opts rest -> first_match P_options t i c (i + length opts + 2) ((1, (S i, S i + length opts)) :: c).
Proof.
  intros t i c s opts rest E (N & ->). unfold P_options. cbn [List.app] in E. eapply fm_seq; [eapply fm_is_ch; exact E|]. apply skipn_more1 in E.
  eapply fm_seq; [apply fm_grp; eapply (fm_star _ _ _ _ opts); [exact E| |reflexivity]|].
  - apply forallb_forall. intros x I. apply negb_true_iff, N.eqb_neq. intros ->. contradiction.
  - apply skipn_more in E. replace (i + length opts + 2) with (S (S i + length opts)) by lia. eapply fm_is_ch. exact E.
Qed.
Lemma rel_options : forall t i j, rel P_options t i j -> exists opts rest, optioned (skipn i t) opts rest /\ skipn j t = rest.
Proof.
  intros t i j R. unfold P_options in R. apply rel_rseq2 in R as (k & R1 & R). apply rel_is_ch in R1 as (-> & r & E). apply rel_rseq2 in R as (k & R1 & R). apply rel_grp1 in R1. apply rel_star_chr in R1 as (o & r' & E1 & Ho & ->).
  assert (X := skipn_more1 _ _ _ _ E). rewrite X in E1. subst r. apply rel_is_ch in R as (-> & r & E2). assert (Y := skipn_more _ _ _ _ X). rewrite Y in E2. subst r'. exists o, r. split; [|exact (skipn_more1 _ _ _ _ Y)].
  split; [|exact E]. intros I. rewrite forallb_forall in Ho. specialize (Ho _ I). rewrite N.eqb_refl in Ho. discriminate.
Qed.
Lemma rm_seq_alt : forall a b r t i c, rm (RSeq (RAlt a b) r) t i c = rm (RSeq a r) t i c ++ rm (RSeq b r) t i c.
Proof. intros. cbn [rm]. apply flat_map_app. Qed.
Lemma rm_seq_eps : forall r t i c, rm (RSeq REps r) t i c = rm r t i c.
Proof. intros. cbn [rm flat_map fst snd]. apply app_nil_r. Qed.
Lemma options_exact : forall text s opts s' body rest, opening (lit "lstlisting") text s -> optioned s opts s' -> up_to_end (lit "lstlisting") s' body rest ->
  exists m, re_match_at P_lst text 0 = Some m /\ m_group text 1 m = Some opts /\ m_group text 2 m = Some body /\ m_end m + length rest = length text.
Proof.
  intros text s opts s' body rest (ws & W & Et) O U. set (h := tag (lit "\begin") ws (lit "lstlisting")) in *.
  assert (E : skipn (length h) text = s) by (rewrite Et; apply skipn_app_exact; reflexivity).
  assert (Es : s = ([c_lk] ++ opts ++ [c_rk]) ++ s') by (rewrite (proj2 O), <- !app_assoc; reflexivity).
  assert (E' : skipn (length h + length opts + 2) text = s'). { rewrite Es in E. apply skipn_more in E. rewrite <- E. f_equal. rewrite !app_length. cbn [length]. lia. }
  destruct (fm_body 2 (lit "lstlisting") text (length h + length opts + 2) [(1, (S (length h), S (length h) + length opts))] s' body rest E' U) as (ws2 & Es' & F).
  eexists. split; [|split; [|split]].
  - apply fm_match. unfold P_lst. eapply fm_seq; [apply (fm_tag (lit "\begin") ws (lit "lstlisting") text 0 [] s W); exact Et|]. fold h. cbn [plus].
    eapply fm_seq; [apply fm_alt_left; apply (fm_options text (length h) [] s opts s' E O)|exact F].
  - unfold m_group, m_span. cbn [m_caps cap_get Nat.eqb option_map]. unfold slice. f_equal. assert (X : skipn (S (length h)) text = opts ++ [c_rk] ++ s'). { apply (skipn_more1 text (length h) c_lk). rewrite E, Es, <- !app_assoc. reflexivity. }
    rewrite X. replace (S (length h) + length opts - S (length h)) with (length opts) by lia. apply firstn_app_exact. reflexivity.
  - unfold m_group, m_span. cbn [m_caps cap_get Nat.eqb option_map]. unfold slice. f_equal. rewrite E', Es'. replace (length h + length opts + 2 + length body - (length h + length opts + 2)) with (length body) by lia. apply firstn_app_exact. reflexivity.
  - cbn [m_end]. rewrite Et, Es, Es', !app_length. cbn [length]. lia.
Qed.
Lemma listing_exact : forall text s body rest, opening (lit "lstlisting") text s -> (forall opts s', optioned s opts s' -> ~ ends (lit "lstlisting") s') -> up_to_end (lit "lstlisting") s body rest ->
  exists m, re_match_at P_lst text 0 = Some m /\ m_group text 1 m = None /\ m_group text 2 m = Some body /\ m_end m + length rest = length text.
Proof.
  intros text s body rest (ws & W & Et) NO U. set (h := tag (lit "\begin") ws (lit "lstlisting")) in *.
  assert (E : skipn (length h) text = s) by (rewrite Et; apply skipn_app_exact; reflexivity).
  destruct (fm_body 2 (lit "lstlisting") text (length h) [] s body rest E U) as (ws2 & Es & F).
  eexists. split; [|split; [|split]].
  - apply fm_match. unfold P_lst. eapply fm_seq; [apply (fm_tag (lit "\begin") ws (lit "lstlisting") text 0 [] s W); exact Et|]. fold h. cbn [plus].
    unfold first_match, ropt. rewrite rm_seq_alt, rm_seq_eps. replace (rm (RSeq P_options _) text (length h) []) with (@nil (nat * caps)); [exact F|]. symmetry.
    apply rm_none_rel; [rewrite Et, app_length; lia|]. intros j R. apply rel_rseq2 in R as (k & R1 & R). apply rel_options in R1 as (o & r & O & Er). rewrite E in O. apply (rel_body 2) in R as (a & ws' & b & W' & Eb). rewrite Er in Eb. exact (NO _ _ O (first_end _ _ _ _ _ W' Eb)).
  - reflexivity.
  - unfold m_group, m_span. cbn [m_caps cap_get Nat.eqb option_map]. unfold slice. f_equal. rewrite E, Es. replace (length h + length body - length h) with (length body) by lia. apply firstn_app_exact. reflexivity.
  - cbn [m_end]. rewrite Et, Es, !app_length. lia.
Qed.
Lemma lst_sound : forall text m, re_match_at P_lst text 0 = Some m -> exists s, opening (lit "lstlisting") text s /\ ((exists o s', optioned s o s' /\ ends (lit "lstlisting") s') \/ ends (lit "lstlisting") s).
Proof.
  intros text m M. unfold re_match_at in M. destruct (rm P_lst text 0 []) as [|(j, c) l] eqn:Er; [discriminate|]. assert (R : rel P_lst text 0 j) by (assert (I : In (j, c) (rm P_lst text 0 [])) by (rewrite Er; left; reflexivity); apply rm_sound in I; [exact I|lia]).
  unfold P_lst in R. apply rel_rseq2 in R as (k & R1 & R). apply rel_tag in R1 as (ws & r & W & E & ->). cbn [skipn plus] in *. exists r. split; [exists ws; split; assumption|].
  assert (Er' : skipn (length (tag (lit "\begin") ws (lit "lstlisting"))) text = r) by (rewrite E; apply skipn_app_exact; reflexivity).
  apply rel_rseq2 in R as (k & R1 & R). apply (rel_body 2) in R as (a & ws' & b & W' & E'). unfold ropt in R1. apply rel_alt2 in R1 as [R1|R1].
  - left. apply rel_options in R1 as (o & r2 & O & Ek). rewrite Er' in O. rewrite Ek in E'. exists o, r2. split; [exact O|]. exact (first_end _ _ _ _ _ W' E').
  - right. assert (k = length (tag (lit "\begin") ws (lit "lstlisting"))) as -> by (inversion R1; reflexivity). rewrite Er' in E'. exact (first_end _ _ _ _ _ W' E').
Qed.

(** * \verb *)
Lemma find_none : forall c s, find_char c s = None -> ~ In c s.
Proof.
  induction s as [|x s IH]; intros H I; [exact I|]. cbn [find_char] in H. destruct (N.eqb_spec x c) as [->|N]; [discriminate|]. destruct (find_char c s); [discriminate|]. destruct I as [I|I]; [congruence|exact (IH eq_refl I)].
Qed.
Lemma find_before : forall c s k, find_char c s = Some k -> ~ In c (firstn k s).
Proof.
  induction s as [|x s IH]; intros k H I; [discriminate|]. cbn [find_char] in H. destruct (N.eqb_spec x c) as [->|N]; [injection H as <-; exact I|]. destruct (find_char c s) as [k'|] eqn:F; [|discriminate]. cbn in H. injection H as <-. cbn [firstn] in I. destruct I as [I|I]; [congruence|exact (IH k' eq_refl I)].
Qed.
Lemma letter_false : forall x, is_letter x = false <-> ~ letter x.
Proof. exact letter_ok. Qed.
Lemma no_line : forall s, existsb (N.eqb 10) s = false <-> ~ In 10%N s.
Proof.
  intros s. split.
  - intros H I. assert (existsb (N.eqb 10) s = true) as X by (apply existsb_exists; exists 10%N; split; [exact I|reflexivity]). congruence.
  - intros H. destruct (existsb (N.eqb 10) s) eqn:E; [|reflexivity]. exfalso. apply existsb_exists in E as (x & I & Ex). apply N.eqb_eq in Ex. subst x. exact (H I).
Qed.
Lemma delimited_iff : forall s body n, delimited_verb s = Some (body, n) <-> n = length body + 2 /\ exists rest, between s body rest.
Proof.
  intros s body n. split.
  - intros H. destruct s as [|d r]; [discriminate|]. cbn [delimited_verb] in H. destruct (is_letter d) eqn:L; [discriminate|]. destruct (find_char d r) as [k|] eqn:F; [|discriminate]. destruct (existsb (N.eqb 10) (firstn k r)) eqn:X; [discriminate|]. injection H as <- <-.
    destruct (BibProofs.find_char_split _ _ _ F) as (Es & Lk). split; [rewrite firstn_length; lia|]. exists (skipn (S k) r), d. split; [apply letter_false; exact L|]. split; [exact (find_before _ _ _ F)|]. split; [apply no_line; exact X|]. cbn [List.app]. f_equal. exact Es.
  - intros (-> & rest & d & L & N & Nl & ->). cbn [List.app delimited_verb]. rewrite (proj2 (letter_false d) L), (BibProofs2.find_char_app d body rest N), firstn_app_exact by reflexivity. rewrite (proj2 (no_line body) Nl). reflexivity.
Qed.
Lemma delimited_none : forall s, delimited_verb s = None <-> forall body rest, ~ between s body rest.
Proof.
  intros s. split.
  - intros H body rest B. assert (delimited_verb s = Some (body, length body + 2)) as X by (apply delimited_iff; split; [reflexivity|exists rest; exact B]). congruence.
  - intros H. destruct (delimited_verb s) as [(b, n)|] eqn:E; [|reflexivity]. apply delimited_iff in E as (_ & rest & B). exfalso. exact (H _ _ B).
Qed.
Lemma between_len : forall s body rest, between s body rest -> length body + 2 + length rest = length s.
Proof. intros s body rest (d & _ & _ & _ & ->). rewrite !app_length. cbn [length]. lia. Qed.
Lemma between_end : forall s body rest, between s body rest -> skipn (length body + 2) s = rest.
Proof. intros s body rest (d & _ & _ & _ & ->). replace ([d] ++ body ++ [d] ++ rest) with (([d] ++ body ++ [d]) ++ rest) by (rewrite <- !app_assoc; reflexivity). apply skipn_app_exact. rewrite !app_length. cbn [length]. lia. Qed.

Lemma no_begin_verb : forall name s text, opening name text s -> verb_match text = None.
Proof. intros name s text (ws & _ & ->). unfold tag. reflexivity. Qed.
Lemma kinds_apart : forall text s1 s2, opening (lit "verbatim") text s1 -> opening (lit "lstlisting") text s2 -> False.
Proof.
  intros text s1 s2 (w1 & W1 & E1) (w2 & W2 & E2). rewrite E1 in E2. clear E1. rewrite !tag_eq in E2. apply app_inv_head in E2. revert w2 W2 E2. induction w1 as [|x w1 IH]; intros [|y w2] W2 E; cbn in E.
  - discriminate.
  - injection E as E1 E2. subst y. discriminate.
  - injection E as E1 E2. subst x. discriminate.
  - injection E as E1 E2. unfold blank in W1, W2. cbn in W1, W2. apply andb_prop in W1 as [_ W1]. apply andb_prop in W2 as [_ W2]. exact (IH W1 _ W2 E2).
Qed.

Lemma tag_begin : forall name text s, opening name text s -> exists r, text = lit "\begin" ++ r.
Proof. intros name text s (ws & _ & ->). rewrite tag_eq. eexists. reflexivity. Qed.
Lemma verb_no_env : forall s, re_match_at P_verbatim (lit "\verb" ++ s) 0 = None /\ re_match_at P_lst (lit "\verb" ++ s) 0 = None.
Proof.
  intros s. split; destruct (re_match_at _ _ 0) as [m|] eqn:V; try reflexivity; exfalso; [apply verbatim_sound in V as (s2 & O & _)|apply lst_sound in V as (s2 & O & _)]; apply tag_begin in O as (r & E); discriminate.
Qed.
Lemma verb_step : forall s, verb_match (lit "\verb" ++ s) =
  match (match s with x :: r' => if N.eqb x c_ast then option_map (fun p => (fst p, snd p + 6)) (delimited_verb r') else None | [] => None end) with
    | Some p => Some p
    | None => option_map (fun p => (fst p, snd p + 5)) (delimited_verb s) end.
Proof. reflexivity. Qed.
Theorem code_found : forall text kind body rest, code_source text kind body rest -> code_handle text = (Some (code_of kind body), length text - length rest).
Proof.
  intros text kind body rest H. unfold code_handle. destruct H as [text s body rest O U|text s o s' body rest O Op U|text s body rest O N U|s body rest B|s body rest B N].
  - destruct (verbatim_exact _ _ _ _ O U) as (m & -> & G & _ & L). unfold grp. rewrite G. f_equal. lia.
  - destruct (re_match_at P_verbatim text 0) as [m|] eqn:V; [exfalso; apply verbatim_sound in V as (s2 & O2 & _); exact (kinds_apart _ _ _ O2 O)|].
    destruct (options_exact _ _ _ _ _ _ O Op U) as (m & -> & G1 & G2 & L). unfold grp. rewrite G1, G2. f_equal; [|lia]. destruct o; reflexivity.
  - destruct (re_match_at P_verbatim text 0) as [m|] eqn:V; [exfalso; apply verbatim_sound in V as (s2 & O2 & _); exact (kinds_apart _ _ _ O2 O)|].
    destruct (listing_exact _ _ _ _ O N U) as (m & -> & G1 & G2 & L). unfold grp. rewrite G1, G2. f_equal. lia.
  - assert (T : lit "\verb*" ++ s = lit "\verb" ++ c_ast :: s) by reflexivity. rewrite T. destruct (verb_no_env (c_ast :: s)) as (-> & ->). rewrite verb_step. change (N.eqb c_ast c_ast) with true. cbv iota.
    rewrite (proj2 (delimited_iff s body (length body + 2)) (conj eq_refl (ex_intro _ rest B))). cbn [option_map fst snd]. f_equal. rewrite app_length. cbn [length]. assert (X := between_len _ _ _ B). change (length (lit "\verb")) with 5. lia.
  - destruct (verb_no_env s) as (-> & ->). rewrite verb_step. replace (match s with x :: r' => _ | [] => None end) with (@None (str * nat)).
    + rewrite (proj2 (delimited_iff s body (length body + 2)) (conj eq_refl (ex_intro _ rest B))). cbn [option_map fst snd]. f_equal. rewrite app_length. assert (X := between_len _ _ _ B). change (length (lit "\verb")) with 5. lia.
    + destruct s as [|x r]; [reflexivity|]. destruct (N.eqb_spec x c_ast) as [->|_]; [|reflexivity]. rewrite (proj2 (delimited_none r)); [reflexivity|]. intros b q. exact (N r b q eq_refl).
Qed.
Lemma lst_total : forall text s, opening (lit "lstlisting") text s -> ((exists o s', optioned s o s' /\ ends (lit "lstlisting") s') \/ ends (lit "lstlisting") s) -> exists kind body rest, code_source text kind body rest.
Proof.
  intros text s O H. assert (D : (exists o s', optioned s o s' /\ ends (lit "lstlisting") s') \/ ~ (exists o s', optioned s o s' /\ ends (lit "lstlisting") s')).
  { assert (Dx : forall r t i, i <= length t -> (exists j, rel r t i j) \/ ~ exists j, rel r t i j).
    { intros r t i L. destruct (rm r t i []) as [|(j, c) l] eqn:Er; [right|left].
      - intros (j & R). destruct (rm_complete _ _ _ _ R L []) as (c' & I). rewrite Er in I. exact I.
      - exists j. assert (I : In (j, c) (rm r t i [])) by (rewrite Er; left; reflexivity). apply rm_sound in I; [exact I|exact L]. }
    destruct (Dx (RSeq P_options (body_re 2 (lit "lstlisting"))) s 0 ltac:(lia)) as [(j & R)|N].
    - left. apply rel_rseq2 in R as (k & R1 & R). apply rel_options in R1 as (o & r & Oo & Er). apply rel_body in R as (a & ws & b & W & E). rewrite Er in E. exists o, r. split; [exact Oo|exact (first_end _ _ _ _ _ W E)].
    - right. intros (o & s' & (No & Es) & (b & r & (ws & W & E) & _)). apply N. exists (length o + 2 + length b + length (tag (lit "\end") ws (lit "lstlisting"))). apply rel_rseq2. exists (length o + 2).
      assert (E0 : skipn 0 s = [c_lk] ++ o ++ [c_rk] ++ s') by exact Es. assert (E1 := skipn_more1 s 0 c_lk _ E0). assert (E2 := skipn_more s 1 o _ E1). assert (E3 := skipn_more1 s _ c_rk _ E2).
      split.
      + unfold P_options. apply rel_rseq2. exists 1. split; [apply rel_is_ch; split; [reflexivity|eexists; exact E0]|]. apply rel_rseq2. exists (1 + length o). split; [apply rel_grp1; apply rel_star_chr; exists o; eexists; split; [exact E1|split; [|reflexivity]]|].
        * apply forallb_forall. intros x I. apply negb_true_iff, N.eqb_neq. intros ->. contradiction.
        * apply rel_is_ch. split; [lia|eexists; exact E2].
      + replace (S (1 + length o)) with (length o + 2) in E3 by lia. rewrite E in E3. unfold body_re. apply rel_rseq2. exists (length o + 2 + length b). split; [apply rel_grp1; apply rel_star_chr; exists b; eexists; split; [exact E3|split; [apply any_all|reflexivity]]|].
        apply rel_tag. exists ws, r. split; [exact W|]. split; [apply skipn_more; exact E3|reflexivity]. }
  destruct D as [(o & s' & Op & (b & r & U))|N]; [exists (Listing (Some o)), b, r; exact (cs_options _ _ _ _ _ _ O Op U)|].
  destruct H as [H|(b & r & U)]; [contradiction|]. exists (Listing None), b, r. apply (cs_listing text s); [exact O| |exact U]. intros o s' Op En. apply N. exists o, s'. split; assumption.
Qed.
Theorem code_sound : forall text v n, code_handle text = (Some v, n) -> exists kind body rest, code_source text kind body rest /\ v = code_of kind body /\ n + length rest = length text.
Proof.
  intros text v n H. assert (G : exists kind body rest, code_source text kind body rest).
  { unfold code_handle in H. destruct (re_match_at P_verbatim text 0) as [m|] eqn:V; [apply verbatim_sound in V as (s & O & (b & r & U)); exists Block, b, r; exact (cs_verbatim _ _ _ _ O U)|].
    destruct (re_match_at P_lst text 0) as [m|] eqn:L; [apply lst_sound in L as (s & O & D); exact (lst_total _ _ O D)|].
    destruct (verb_match text) as [(b, k)|] eqn:X; [|discriminate]. unfold verb_match in X. destruct (startswith text (lit "\verb")) eqn:S; [|discriminate]. apply startswith_spec in S as (s & ->). rewrite skipn_app_exact in X by reflexivity.
    assert (P : (exists s', s = c_ast :: s' /\ delimited_verb s' <> None) \/ (forall s', s = c_ast :: s' -> delimited_verb s' = None)).
    { destruct s as [|x s']; [right; intros; discriminate|]. destruct (delimited_verb s') eqn:Dd; [|right; intros s2 E2; injection E2 as _ <-; exact Dd]. destruct (N.eqb_spec x c_ast) as [->|Nx]; [left; exists s'; split; [reflexivity|congruence]|right; intros s2 E2; injection E2 as E2 _; contradiction]. }
    destruct P as [(s' & -> & Dd)|P].
    - destruct (delimited_verb s') as [(b', k')|] eqn:De; [|congruence]. apply delimited_iff in De as (_ & r & B). exists Inline, b', r. exact (cs_star _ _ _ B).
    - replace (match s with x :: r' => _ | [] => None end) with (@None (str * nat)) in X; [|destruct s as [|x s']; [reflexivity|]; destruct (N.eqb_spec x c_ast) as [->|_]; [rewrite (P s' eq_refl); reflexivity|reflexivity]].
      destruct (delimited_verb s) as [(b', k')|] eqn:De; [|discriminate]. apply delimited_iff in De as (_ & r & B). exists Inline, b', r. apply (cs_verb _ _ _ B). intros s' b2 r2 E2 B2. exact (proj1 (delimited_none s') (P s' E2) _ _ B2). }
  destruct G as (kind & body & rest & C). exists kind, body, rest. split; [exact C|]. rewrite (code_found _ _ _ _ C) in H. injection H as <- <-. split; [reflexivity|].
  assert (L : length rest <= length text).
  { destruct C as [text s body rest (w1 & _ & ->) ((w2 & _ & ->) & _)|text s o s' body rest (w1 & _ & ->) (_ & ->) ((w2 & _ & ->) & _)|text s body rest (w1 & _ & ->) _ ((w2 & _ & ->) & _)|s body rest B|s body rest B _]; try (apply between_len in B); rewrite ?app_length; lia. }
  lia.
Qed.
Theorem code_none : forall text, (forall kind body rest, ~ code_source text kind body rest) -> code_handle text = (None, 0).
Proof.
  intros text H. destruct (code_handle text) as ([v|], n) eqn:E; [exfalso; destruct (code_sound _ _ _ E) as (k & b & r & C & _); exact (H _ _ _ C)|].
  unfold code_handle in E. destruct (re_match_at P_verbatim text 0); [discriminate|]. destruct (re_match_at P_lst text 0); [discriminate|]. destruct (verb_match text) as [(?, ?)|]; [discriminate|]. congruence.
Qed.
Theorem code_can : forall text, code_can_handle text = true <-> exists kind body rest, code_source text kind body rest.
Proof.
  intros text. split.
  - intros H. destruct (code_handle text) as ([v|], n) eqn:E; [destruct (code_sound _ _ _ E) as (k & b & r & C & _); eauto|]. unfold code_handle in E. unfold code_can_handle in H. destruct (re_match_at P_verbatim text 0); [discriminate|]. destruct (re_match_at P_lst text 0); [discriminate|]. destruct (verb_match text) as [(?, ?)|]; discriminate.
  - intros (k & b & r & C). apply code_found in C. unfold code_handle in C. unfold code_can_handle. destruct (re_match_at P_verbatim text 0); [reflexivity|]. destruct (re_match_at P_lst text 0); [reflexivity|]. destruct (verb_match text) as [(?, ?)|]; [reflexivity|discriminate].
Qed.
