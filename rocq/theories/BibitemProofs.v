(** C91: how the items are found. *)
From Coq Require Import List NArith PeanoNat Lia Bool String Compare_dec.
From Verif Require TextProofs TextProofs2 ParseCases DelimFinal.
From Verif Require Import PyStr Regex RegexLemmas RegexHead RegexLocal DelimSpec EqProofs EqProofs2 CommandProofs3 Placeholder ItemSpec BibitemModel BibitemSpec.
Import ListNotations. Notation length := List.length. Notation concat := List.concat. Open Scope list_scope.

Lemma item_borderless : borderless item_word. Proof. apply borderless_ok. vm_compute. reflexivity. Qed.
(** where an item may end *)
Definition at_next (rest : str) : Prop := rest = [] \/ exists r, rest = item_word ++ r.
Lemma no_word_in : forall u rest q, u <> [] -> ~ occurs item_word u -> at_next rest -> u ++ rest <> item_word ++ q.
Proof.
  intros u rest q Ne N A E. destruct (cut_app u rest item_word q E) as [(e & Ew & Er)|(e & He & Eu & Eq)].
  - destruct A as [->|(r & ->)].
    + destruct e as [|x e]; [|discriminate]. rewrite app_nil_r in Ew. apply N. exists [], []. rewrite app_nil_r. symmetry. exact Ew.
    + destruct (cut_app e q item_word r (eq_sym Er)) as [(e2 & E2 & _)|(e2 & H2 & E2 & _)].
      * destruct (item_borderless u e e2 Ew E2) as [X|X]; [exact (Ne X)|]. subst e. rewrite app_nil_r in Ew. apply N. exists [], []. rewrite app_nil_r. symmetry. exact Ew.
      * apply (f_equal (@List.length ch)) in E2. apply (f_equal (@List.length ch)) in Ew. rewrite app_length in *. destruct e2; [congruence|]. cbn [List.length] in *. lia.
  - apply N. exists [], e. exact Eu.
Qed.
Definition stop : re := RAhead false (RAlt (rstr (lit "\bibitem")) REnd).
Lemma stop_rm : forall t i c, rm stop t i c = if nilb (rm (RAlt (rstr (lit "\bibitem")) REnd) t i c) then [] else [(i, c)].
Proof. intros t i c. unfold stop. cbn [rm]. destruct (rm (rstr _) t i c ++ _); reflexivity. Qed.
Lemma stop_hit : forall t i c, (exists q, skipn i t = item_word ++ q) \/ at_end t i = true -> i <= length t -> first_match stop t i c i c.
Proof.
  intros t i c H L. exists []. rewrite stop_rm. assert (R : exists j, rel (RAlt (rstr (lit "\bibitem")) REnd) t i j).
  { destruct H as [(q & E)|H]; [exists (i + length (lit "\bibitem")); apply rel_altl; apply rel_rstr; split; [reflexivity|exists q; exact E]|exists i; apply rel_altr; constructor; exact H]. }
  destruct R as (j & R). destruct (rm_complete _ _ _ _ R L c) as (c' & I). destruct (rm _ t i c); [destruct I|reflexivity].
Qed.
Lemma stop_miss : forall t i c, i <= length t -> (forall q, skipn i t <> item_word ++ q) -> at_end t i = false -> rm stop t i c = [].
Proof.
  intros t i c L N E. rewrite stop_rm. destruct (rm (RAlt (rstr (lit "\bibitem")) REnd) t i c) as [|[j c'] l] eqn:R; [reflexivity|exfalso].
  assert (I : In (j, c') (rm (RAlt (rstr (lit "\bibitem")) REnd) t i c)) by (rewrite R; left; reflexivity). apply rm_sound in I; [|exact L].
  apply rel_alt2 in I as [I|I].
  - apply rel_rstr in I as (_ & q & Q). exact (N q Q).
  - inversion I as [| | | | | | | |t0 i0 X| | | | |]. congruence.
Qed.
(** the text of an item, without the newline at the very end *)
Lemma body_end : forall t i lb rest c, i <= length t -> skipn i t = lb ++ rest -> ~ occurs item_word lb -> at_next rest ->
  exists g z, lb = g ++ z /\ (z = [] \/ rest = [] /\ z = [c_nl]) /\ first_match (RSeq (RGrp 3 (rlazy rany)) stop) t i c (i + length g) ((3, (i, i + length g)) :: c).
Proof.
  intros t i lb rest c Li E N A.
  assert (Sk : forall k, k <= length lb -> skipn (i + k) t = skipn k lb ++ rest).
  { intros k Hk. rewrite <- skipn_add, E, skipn_app. replace (k - length lb) with 0 by lia. reflexivity. }
  assert (Hl : length t - i = length lb + length rest) by (rewrite <- skipn_length, E, app_length; reflexivity).
  assert (Go : forall g z, lb = g ++ z -> z = [] \/ rest = [] /\ z = [c_nl] -> (forall k, k < length g -> at_end t (i + k) = false) ->
    first_match (RSeq (RGrp 3 (rlazy rany)) stop) t i c (i + length g) ((3, (i, i + length g)) :: c)).
  { intros g z Eg Hz Hk. assert (Lg : length g <= length lb) by (rewrite Eg, app_length; lia).
    apply (fm_lazy_first 3 (fun _ => true) stop g t i c _ _ (z ++ rest)); [rewrite E, Eg, <- app_assoc; reflexivity|apply forallb_forall; reflexivity| |].
    - intros k c' Lk. apply stop_miss; [lia| |apply Hk; exact Lk]. intros q. rewrite (Sk k) by lia. apply no_word_in; [|intros O; apply N; exact (occurs_skipn _ _ _ O)|exact A].
      intros X. apply (f_equal (@List.length ch)) in X. rewrite skipn_length in X. cbn [List.length] in X. lia.
    - apply stop_hit; [|lia]. rewrite (Sk (length g) Lg), Eg, DelimFinal.skipn_app_exact by reflexivity. destruct Hz as [->|(-> & ->)].
      + cbn [List.app]. destruct A as [->|A]; [right|left; exact A]. unfold at_end. rewrite (Sk (length g) Lg), Eg, DelimFinal.skipn_app_exact by reflexivity. reflexivity.
      + right. unfold at_end. rewrite (Sk (length g) Lg), Eg, DelimFinal.skipn_app_exact by reflexivity. reflexivity. }
  destruct A as [->|(r & Er)].
  - assert (D : (exists g, lb = g ++ [c_nl]) \/ ~ exists g, lb = g ++ [c_nl]).
    { destruct lb as [|x lb] using rev_ind; [right; intros (g & X); destruct g; discriminate|]. destruct (N.eq_dec x c_nl) as [->|Nx]; [left; eauto|right; intros (g & X); apply app_inj_tail in X as [_ X]; congruence]. }
    destruct D as [(g & Eg)|Ng].
    + exists g, [c_nl]. split; [exact Eg|]. split; [right; auto|]. apply (Go g [c_nl] Eg); [right; auto|]. intros k Hk. unfold at_end. rewrite (Sk k) by (rewrite Eg, app_length; lia). rewrite app_nil_r, Eg, skipn_app.
      replace (k - length g) with 0 by lia. destruct (skipn k g) as [|y u] eqn:Eu; [apply (f_equal (@List.length ch)) in Eu; rewrite skipn_length in Eu; cbn [List.length] in Eu; lia|]. destruct u; reflexivity.
    + exists lb, []. rewrite app_nil_r. split; [reflexivity|]. split; [left; reflexivity|]. apply (Go lb []); [rewrite app_nil_r; reflexivity|left; reflexivity|]. intros k Hk. unfold at_end. rewrite (Sk k) by lia. rewrite app_nil_r.
      destruct (skipn k lb) as [|y [|y2 u]] eqn:Eu; [apply (f_equal (@List.length ch)) in Eu; rewrite skipn_length in Eu; cbn [List.length] in Eu; lia| |reflexivity].
      destruct (N.eqb_spec y c_nl) as [->|_]; [|reflexivity]. exfalso. apply Ng. exists (firstn k lb). rewrite <- Eu. symmetry. apply firstn_skipn.
  - exists lb, []. rewrite app_nil_r. split; [reflexivity|]. split; [left; reflexivity|]. apply (Go lb []); [rewrite app_nil_r; reflexivity|left; reflexivity|]. intros k Hk. unfold at_end. rewrite (Sk k) by lia.
    rewrite Er. destruct (skipn k lb) as [|y u]; [reflexivity|]. destruct u; reflexivity.
Qed.
Lemma strip_lstrip : forall s, strip (lstrip s) = strip s.
Proof. intros s. unfold strip. f_equal. destruct (lstrip s) as [|x r] eqn:E; [reflexivity|]. cbn [lstrip]. rewrite (ParseCases.lstrip_head s x r E). reflexivity. Qed.
Lemma strip_nl_end : forall s, strip (s ++ [c_nl]) = strip s.
Proof.
  intros s. destruct (TextProofs.strip_split s) as (a & b & E & Ha & Hb). rewrite E at 1. rewrite <- !app_assoc. apply TextProofs2.strip_app_blank.
  - exact Ha.
  - unfold blank. rewrite forallb_app, Hb. reflexivity.
  - apply TextProofs.strip_trimmed.
Qed.
(** from the brace that closes the key on *)
Lemma tail_match : forall t p body rest c, p <= length t -> skipn p t = body ++ rest -> ~ occurs item_word body -> at_next rest ->
  exists g ws z, body = ws ++ g ++ z /\ strip g = strip body /\ (z = [] \/ rest = [] /\ z = [c_nl]) /\
    first_match (RSeq (rstar rspace) (RSeq (RGrp 3 (rlazy rany)) stop)) t p c (p + length ws + length g) ((3, (p + length ws, p + length ws + length g)) :: c).
Proof.
  intros t p body rest c L E N A. destruct (lead_split body) as (ws & Eb & Bw & _). set (lb := lstrip body) in *.
  assert (E2 : skipn p t = ws ++ lb ++ rest) by (rewrite E, Eb at 1; rewrite <- app_assoc; reflexivity).
  assert (Lw : p + length ws <= length t) by (apply (f_equal (@List.length ch)) in E2; rewrite skipn_length, !app_length in E2; lia).
  assert (Nl : ~ occurs item_word lb) by (intros (a & b & X); apply N; exists (ws ++ a), b; rewrite Eb, X, <- app_assoc; reflexivity).
  destruct (body_end t (p + length ws) lb rest c Lw (skipn_more _ _ _ _ E2) Nl A) as (g & z & Eg & Hz & F).
  exists g, ws, z. split; [rewrite <- Eg; exact Eb|]. split.
  - assert (S1 : strip lb = strip body) by apply strip_lstrip. rewrite <- S1, Eg. destruct Hz as [->|(_ & ->)]; [rewrite app_nil_r; reflexivity|symmetry; apply strip_nl_end].
  - split; [exact Hz|]. eapply fm_seq; [apply (fm_star isspace t p c ws (lb ++ rest) E2 Bw)|exact F].
    destruct lb as [|x r] eqn:El; [|exact (ParseCases.lstrip_head body x r El)]. destruct A as [->|(r & ->)]; reflexivity.
Qed.
Lemma item_match : forall it t i s rest, i <= length t -> skipn i t = s ++ rest -> item_text it s -> at_next rest ->
  exists e c, re_match_at BibItemPattern t i = Some {| m_start := i; m_end := e; m_caps := c |} /\
    (forall m, m_caps m = c -> m_group t 1 m = so_label it /\ m_group t 2 m = Some (so_key it) /\ exists g, m_group t 3 m = Some g /\ strip g = strip (so_body it)) /\
    i < e /\ (e = i + length s \/ rest = [] /\ skipn e t = [c_nl]).
Proof.
  intros it t i s rest L E T A.
  destruct T as [ws Hl Bw Nk Nb|l ws ws2 Hl Nl Bw Bw2 Nk Nb].
  - rewrite <- !app_assoc in E. cbn [List.app] in E. pose proof (skipn_more t i item_word _ E) as E1. change (length item_word) with 8 in E1.
    pose proof (skipn_more t (i + 8) ws _ E1) as E2. pose proof (skipn_more1 _ _ _ _ E2) as E3. pose proof (skipn_more t _ (so_key it) _ E3) as E4. pose proof (skipn_more1 _ _ _ _ E4) as E5.
    set (k := S (i + 8 + length ws)) in *. set (p := S (k + length (so_key it))) in *.
    assert (Lp : p <= length t). { destruct (le_lt_dec p (length t)) as [X|X]; [exact X|]. exfalso. assert (Y : skipn (k + length (so_key it)) t = []) by (apply skipn_all2; unfold p in X; lia). rewrite Y in E4. discriminate. }
    destruct (tail_match t p (so_body it) rest [(2, (k, k + length (so_key it)))] Lp E5 Nb A) as (g & w3 & z & Eb & Sg & Hz & F).
    exists (p + length w3 + length g), [(3, (p + length w3, p + length w3 + length g)); (2, (k, k + length (so_key it)))]. split; [|split; [|split]].
    + apply fm_match. unfold BibItemPattern. cbn [rseq]. fold stop.
      eapply fm_seq; [apply (fm_rstr item_word t i [] _ E)|]. change (length item_word) with 8.
      eapply fm_seq; [apply (fm_star isspace t (i + 8) [] ws _ E1 Bw); reflexivity|].
      eapply fm_seq. { apply fm_alt_right; [|apply fm_eps]. apply rm_seq_none. unfold is_ch. apply rm_chr_none. rewrite E2. reflexivity. }
      eapply fm_seq; [apply (fm_star isspace t (i + 8 + length ws) [] [] _ E2); reflexivity|]. cbn [List.length]. rewrite Nat.add_0_r.
      eapply fm_seq; [exact (fm_is_ch c_lb t _ [] _ E2)|]. fold k.
      apply (fm_lazy_first 2 (fun _ => true) _ (so_key it) t k [] _ _ _ E3); [apply forallb_forall; reflexivity| |].
      * intros j c' Hj. apply rm_seq_none. unfold is_ch. apply rm_chr_none. rewrite <- skipn_add, E3, skipn_app. replace (j - length (so_key it)) with 0 by lia.
        destruct (skipn j (so_key it)) as [|y u] eqn:Eu; [apply (f_equal (@List.length ch)) in Eu; rewrite skipn_length in Eu; cbn [List.length] in Eu; lia|]. cbn [List.app].
        destruct (N.eqb_spec c_rb y) as [<-|_]; [|reflexivity]. exfalso. apply Nk. rewrite <- (firstn_skipn j (so_key it)), Eu. apply in_or_app. right. left. reflexivity.
      * eapply fm_seq; [exact (fm_is_ch c_rb t _ _ _ E4)|]. fold p. exact F.
    + intros m Hm. unfold m_group. rewrite Hm. cbn [cap_get Nat.eqb option_map]. split; [symmetry; exact Hl|]. split.
      * f_equal. unfold slice. replace (k + length (so_key it) - k) with (length (so_key it)) by lia. rewrite E3. apply DelimFinal.firstn_app_exact. reflexivity.
      * exists g. split; [|exact Sg]. f_equal. unfold slice. replace (p + length w3 + length g - (p + length w3)) with (length g) by lia.
        rewrite Eb, <- !app_assoc in E5. rewrite (skipn_more t p w3 _ E5). apply DelimFinal.firstn_app_exact. reflexivity.
    + unfold p, k. lia.
    + assert (Len : length (item_word ++ ws ++ [c_lb] ++ so_key it ++ [c_rb] ++ so_body it) = 8 + length ws + 1 + length (so_key it) + 1 + length (so_body it)) by (rewrite !app_length; change (length item_word) with 8; cbn [List.length]; lia).
      assert (Lb : length (so_body it) = length w3 + length g + length z) by (rewrite Eb, !app_length; lia).
      destruct Hz as [->|(-> & ->)]; [left; rewrite Len, Lb; cbn [List.length]; unfold p, k; lia|right]. split; [reflexivity|].
      rewrite Eb, app_nil_r in E5. rewrite app_assoc in E5. pose proof (skipn_more t p (w3 ++ g) _ E5) as Q. rewrite app_length, Nat.add_assoc in Q. exact Q.
  - rewrite <- !app_assoc in E. cbn [List.app] in E. pose proof (skipn_more t i item_word _ E) as E1. change (length item_word) with 8 in E1.
    pose proof (skipn_more t (i + 8) ws _ E1) as E2. pose proof (skipn_more1 _ _ _ _ E2) as E3. set (a := S (i + 8 + length ws)) in *.
    pose proof (skipn_more t a l _ E3) as E4. pose proof (skipn_more1 _ _ _ _ E4) as E5. set (b := S (a + length l)) in *.
    pose proof (skipn_more t b ws2 _ E5) as E6. pose proof (skipn_more1 _ _ _ _ E6) as E7. set (k := S (b + length ws2)) in *. pose proof (skipn_more t k (so_key it) _ E7) as E8. pose proof (skipn_more1 _ _ _ _ E8) as E9.
    set (p := S (k + length (so_key it))) in *.
    assert (Lp : p <= length t). { destruct (le_lt_dec p (length t)) as [X|X]; [exact X|]. exfalso. assert (Y : skipn (k + length (so_key it)) t = []) by (apply skipn_all2; unfold p in X; lia). rewrite Y in E8. discriminate. }
    destruct (tail_match t p (so_body it) rest [(2, (k, k + length (so_key it))); (1, (a, a + length l))] Lp E9 Nb A) as (g & w3 & z & Eb & Sg & Hz & F).
    exists (p + length w3 + length g), [(3, (p + length w3, p + length w3 + length g)); (2, (k, k + length (so_key it))); (1, (a, a + length l))]. split; [|split; [|split]].
    + apply fm_match. unfold BibItemPattern. cbn [rseq]. fold stop.
      eapply fm_seq; [apply (fm_rstr item_word t i [] _ E)|]. change (length item_word) with 8.
      eapply fm_seq; [apply (fm_star isspace t (i + 8) [] ws _ E1 Bw); reflexivity|].
      eapply fm_seq. { apply fm_alt_left. eapply fm_seq; [exact (fm_is_ch c_lk t _ [] _ E2)|]. fold a. exact (fm_lazy_until 1 (fun _ => true) l c_rk t _ a [] E3 (proj2 (forallb_forall _ _) (fun _ _ => eq_refl)) Nl). }
      fold b. eapply fm_seq; [apply (fm_star isspace t b _ ws2 _ E5 Bw2); reflexivity|].
      eapply fm_seq; [exact (fm_is_ch c_lb t _ _ _ E6)|]. fold k.
      apply (fm_lazy_first 2 (fun _ => true) _ (so_key it) t k _ _ _ _ E7); [apply forallb_forall; reflexivity| |].
      * intros j c' Hj. apply rm_seq_none. unfold is_ch. apply rm_chr_none. rewrite <- skipn_add, E7, skipn_app. replace (j - length (so_key it)) with 0 by lia.
        destruct (skipn j (so_key it)) as [|y u] eqn:Eu; [apply (f_equal (@List.length ch)) in Eu; rewrite skipn_length in Eu; cbn [List.length] in Eu; lia|]. cbn [List.app].
        destruct (N.eqb_spec c_rb y) as [<-|_]; [|reflexivity]. exfalso. apply Nk. rewrite <- (firstn_skipn j (so_key it)), Eu. apply in_or_app. right. left. reflexivity.
      * eapply fm_seq; [exact (fm_is_ch c_rb t _ _ _ E8)|]. fold p. exact F.
    + intros m Hm. unfold m_group. rewrite Hm. cbn [cap_get Nat.eqb option_map]. split; [|split].
      * rewrite Hl. f_equal. unfold slice. replace (a + length l - a) with (length l) by lia. rewrite E3. apply DelimFinal.firstn_app_exact. reflexivity.
      * f_equal. unfold slice. replace (k + length (so_key it) - k) with (length (so_key it)) by lia. rewrite E7. apply DelimFinal.firstn_app_exact. reflexivity.
      * exists g. split; [|exact Sg]. f_equal. unfold slice. replace (p + length w3 + length g - (p + length w3)) with (length g) by lia.
        rewrite Eb, <- !app_assoc in E9. rewrite (skipn_more t p w3 _ E9). apply DelimFinal.firstn_app_exact. reflexivity.
    + unfold p, k, b, a. lia.
    + assert (Len : length (item_word ++ ws ++ [c_lk] ++ l ++ [c_rk] ++ ws2 ++ [c_lb] ++ so_key it ++ [c_rb] ++ so_body it) = 8 + length ws + 1 + length l + 1 + length ws2 + 1 + length (so_key it) + 1 + length (so_body it)) by (rewrite !app_length; change (length item_word) with 8; cbn [List.length]; lia).
      assert (Lb : length (so_body it) = length w3 + length g + length z) by (rewrite Eb, !app_length; lia).
      destruct Hz as [->|(-> & ->)]; [left; rewrite Len, Lb; cbn [List.length]; unfold p, k, b, a; lia|right]. split; [reflexivity|].
      rewrite Eb, app_nil_r in E9. rewrite app_assoc in E9. pose proof (skipn_more t p (w3 ++ g) _ E9) as Q. rewrite app_length, Nat.add_assoc in Q. exact Q.
Qed.
