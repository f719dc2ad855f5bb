(** C93: the entries are found. *)
From Coq Require Import List NArith PeanoNat Lia Bool String Compare_dec.
From Verif Require TextProofs BibProofs2 DelimFinal LegacyProofs5.
From Verif Require Import PyStr Regex RegexLemmas RegexHead RegexLocal DelimSpec DelimProofs TexUtilsModel CommandSpec ItemSpec EqProofs2 Placeholder KeyvalModel BibModel BibSpec BibProofs BibdivModel BibdivSpec BibdivProofs BibdivProofs2.
Import ListNotations. Notation length := List.length. Notation concat := List.concat. Open Scope list_scope.

Lemma bib_min : 0 < minlen BibPattern. Proof. apply Nat.ltb_lt. vm_compute. reflexivity. Qed.
Lemma no_bib : forall t i, i <= length t -> (forall ws q, blank ws -> skipn i t <> lit "\bib" ++ ws ++ [c_lb] ++ q) -> re_match_at BibPattern t i = None.
Proof.
  intros t i L N. apply re_match_at_none; [exact L|]. intros j R. unfold BibPattern in R. cbn [rseq] in R. apply rel_rseq2 in R as (k & R1 & R). apply rel_rstr in R1 as (-> & q & E).
  apply rel_rseq2 in R as (k & R1 & R). apply rel_star_chr in R1 as (ws & r & E1 & Hw & ->). rewrite (skipn_more t i _ q E) in E1. subst q. apply rel_rseq2 in R as (k & R1 & _). apply rel_is_ch in R1 as (_ & r' & E2).
  rewrite (skipn_more t _ ws r (skipn_more t i _ _ E)) in E2. subst r. exact (N ws r' Hw E).
Qed.
Lemma no_bib_head : forall t i x r, i <= length t -> skipn i t = x :: r -> x <> c_bs -> re_match_at BibPattern t i = None.
Proof. intros t i x r L E N. apply no_bib; [exact L|]. intros ws q _ E'. rewrite E in E'. injection E' as E' _. exact (N E'). Qed.
Lemma quiet_pos : forall s tail k ws q, quiet s -> k < length s -> blank ws -> (tail = [] \/ (exists r, tail = c_rb :: r) \/ exists r, tail = c_bs :: r) -> skipn k s ++ tail <> lit "\bib" ++ ws ++ [c_lb] ++ q.
Proof.
  intros s tail k ws q Q Lk Hw T E. assert (Ne : skipn k s <> []) by (intros X; apply (f_equal (@List.length ch)) in X; rewrite skipn_length in X; cbn [List.length] in X; lia).
  assert (E' : skipn k s ++ tail = (lit "\bib" ++ ws ++ [c_lb]) ++ q) by (rewrite <- !app_assoc; exact E).
  assert (Sp : s = firstn k s ++ skipn k s) by (symmetry; apply firstn_skipn).
  destruct (cut_app _ _ _ _ E') as [(e & E1 & E2)|(e & He & E1 & E2)].
  - destruct e as [|h e].
    + rewrite app_nil_r in E1. rewrite <- E1 in Sp. apply (Q (firstn k s) ws [] Hw). rewrite app_nil_r. exact Sp.
    + assert (I : In h (lit "bib" ++ ws ++ [c_lb])).
      { destruct (skipn k s) as [|z u]; [congruence|]. assert (X : lit "bib" ++ ws ++ [c_lb] = u ++ h :: e) by (apply (f_equal (@tl ch)) in E1; exact E1). rewrite X. apply in_or_app. right. left. reflexivity. }
      assert (Hh : h = c_rb \/ h = c_bs) by (destruct T as [->|[(r & ->)|(r & ->)]]; [discriminate E2|left|right]; cbn in E2; injection E2 as E2 _; symmetry; exact E2).
      apply in_app_or in I as [I|I]; [cbn in I; destruct Hh as [->| ->]; repeat (destruct I as [I|I]; [discriminate I|]); exact I|]. apply in_app_or in I as [I|I].
      * unfold blank in Hw. rewrite forallb_forall in Hw. specialize (Hw h I). destruct Hh as [->| ->]; discriminate Hw.
      * destruct I as [I|[]]. destruct Hh as [->| ->]; discriminate I.
  - rewrite E1 in Sp. apply (Q (firstn k s) ws e Hw). rewrite Sp at 1. rewrite <- !app_assoc. reflexivity.
Qed.
Lemma header : forall t i w1 key w2 ty r, skipn i t = lit "\bib" ++ w1 ++ [c_lb] ++ key ++ [c_rb] ++ w2 ++ [c_lb] ++ ty ++ [c_rb] ++ r -> blank w1 -> blank w2 -> key <> [] -> ~ In c_rb key -> ty <> [] -> ~ In c_rb ty ->
  exists c, re_match_at BibPattern t i = Some {| m_start := i; m_end := i + length (lit "\bib" ++ w1 ++ [c_lb] ++ key ++ [c_rb] ++ w2 ++ [c_lb] ++ ty ++ [c_rb]); m_caps := c |} /\
    forall m, m_caps m = c -> m_group t 1 m = Some key /\ m_group t 2 m = Some ty.
Proof.
  intros t i w1 key w2 ty r E H1 H2 Nk Ck Nt Ct.
  assert (All : forall s, ~ In c_rb s -> forallb (fun x => negb (N.eqb x c_rb)) s = true). { intros s N. apply forallb_forall. intros x I. apply negb_true_iff. apply N.eqb_neq. intros ->. exact (N I). }
  assert (E1 := skipn_more t i _ _ E). assert (E2 := skipn_more t _ w1 _ E1). assert (E3 := skipn_more1 t _ c_lb _ E2). assert (E4 := skipn_more t _ key _ E3). assert (E5 := skipn_more1 t _ c_rb _ E4). assert (E6 := skipn_more t _ w2 _ E5). assert (E7 := skipn_more1 t _ c_lb _ E6). assert (E8 := skipn_more t _ ty _ E7).
  eexists. split.
  - apply fm_match. unfold BibPattern. cbn [rseq]. eapply fm_seq; [eapply (fm_rstr (lit "\bib")); exact E|]. eapply fm_seq; [eapply fm_star; [exact E1|exact H1|reflexivity]|]. eapply fm_seq; [eapply fm_is_ch; exact E2|].
    eapply fm_seq; [apply fm_grp; eapply fm_plus; [exact E3|exact Nk|apply All; exact Ck|reflexivity]|]. eapply fm_seq; [eapply fm_is_ch; exact E4|]. eapply fm_seq; [eapply fm_star; [exact E5|exact H2|reflexivity]|]. eapply fm_seq; [eapply fm_is_ch; exact E6|].
    eapply fm_seq; [apply fm_grp; eapply fm_plus; [exact E7|exact Nt|apply All; exact Ct|reflexivity]|].
    match goal with |- first_match _ _ ?a _ ?b _ => replace b with (S a) end; [eapply fm_is_ch; exact E8|]. rewrite !app_length. cbn [List.length]. lia.
  - intros m Hm. unfold m_group. rewrite Hm. cbn [cap_get Nat.eqb option_map]. unfold slice. rewrite E3, E7. split; f_equal.
    + match goal with |- firstn ?n _ = _ => replace n with (length key) by lia end. apply DelimFinal.firstn_app_exact. reflexivity.
    + match goal with |- firstn ?n _ = _ => replace n with (length ty) by lia end. apply DelimFinal.firstn_app_exact. reflexivity.
Qed.

Section Entries.
Variable isword : ch -> bool.
Variable lower : str -> str.
Hypothesis W : word_class isword.
Lemma list_go : forall s es, bib_list isword s es -> forall t pos fuel, pos <= length t -> skipn pos t = s -> length t < fuel ->
  bib_entries isword lower fuel t (iter_at BibPattern t pos) = Some (map (bib_entry_of lower) es).
Proof.
  intros s es B. induction B as [s Q|junk w1 key w2 ty w3 body fs rest es Qj H1 Nk Ck H2 Nt Ct H3 G Nb Qb F B IH]; intros t pos fuel L E Lf.
  - rewrite (iter_skip BibPattern t (length s) pos); [|exact bib_min|assert (X := f_equal (@List.length ch) E); rewrite skipn_length in X; lia|].
    + rewrite iter_at_end; [reflexivity|exact bib_min|]. assert (X := f_equal (@List.length ch) E). rewrite skipn_length in X. lia.
    + intros k Hk. assert (X := f_equal (@List.length ch) E). rewrite skipn_length in X. apply no_bib; [lia|]. intros ws q Hw. rewrite <- skipn_add, E, <- (app_nil_r (skipn k s)). apply quiet_pos; auto.
  - assert (LT := f_equal (@List.length ch) E). rewrite skipn_length in LT. repeat rewrite app_length in LT. cbn [List.length] in LT. change (length (lit "\bib")) with 4 in LT.
    rewrite (iter_skip BibPattern t (length junk) pos); [|exact bib_min|lia|].
    2:{ intros k Hk. apply no_bib; [lia|]. intros ws q Hw. rewrite <- skipn_add, E, skipn_app. replace (k - length junk) with 0 by lia. cbn [skipn]. apply quiet_pos; auto. right. right. eexists. reflexivity. }
    assert (E1 := skipn_more t pos junk _ E). destruct (header t (pos + length junk) w1 key w2 ty _ E1 H1 H2 Nk Ck Nt Ct) as (c & M & Gr).
    rewrite iter_at_step; [|exact bib_min|lia]. rewrite M. cbn [bib_entries m_end].
    set (hd_ := lit "\bib" ++ w1 ++ [c_lb] ++ key ++ [c_rb] ++ w2 ++ [c_lb] ++ ty ++ [c_rb]).
    assert (E2 : skipn (pos + length junk + length hd_) t = w3 ++ [c_lb] ++ body ++ [c_rb] ++ rest) by (apply skipn_more; rewrite E1; unfold hd_; rewrite <- !app_assoc; reflexivity).
    destruct (Gr {| m_start := pos + length junk; m_end := pos + length junk + length hd_; m_caps := c |} eq_refl) as [G1 G2].
    assert (Lh : length hd_ = 8 + length w1 + length key + length w2 + length ty) by (unfold hd_; repeat rewrite app_length; cbn [List.length]; change (length (lit "\bib")) with 4; lia).
    unfold bib_entry. cbv zeta. cbn [m_end]. rewrite E2, G1, G2.
    assert (EX : extract_nested_content (w3 ++ [c_lb] ++ body ++ [c_rb] ++ rest) c_lb c_rb = (Some body, length w3 + 1 + length body + 1)).
    { apply extract_nested_content_iff; [exact delims_curly|]. exists w3, rest. split; [reflexivity|]. split; [exact H3|]. split; [exact (proj1 G)|]. split; [exact (proj2 G)|reflexivity]. }
    rewrite EX. destruct body as [|x body]; [congruence|]. cbv iota beta. set (bd := x :: body) in *.
    assert (FO : loop isword lower fuel bd 0 [] = Some (merged lower fs)).
    { rewrite <- (dict_merged lower fs). apply (fields_ok isword lower W (length bd) bd fs); [lia|exact F|lia|reflexivity|lia]. }
    rewrite FO.
    rewrite (iter_skip BibPattern t (length w3 + 1 + length bd + 1) (pos + length junk + length hd_)); [|exact bib_min|lia|].
    + assert (E3 : skipn (pos + length junk + length hd_ + (length w3 + 1 + length bd + 1)) t = rest).
      { replace (pos + length junk + length hd_ + (length w3 + 1 + length bd + 1)) with (pos + length junk + length hd_ + length (w3 ++ [c_lb] ++ bd ++ [c_rb])) by (repeat rewrite app_length; cbn [List.length]; lia). apply skipn_more. rewrite E2, <- !app_assoc. reflexivity. }
      rewrite (IH t _ fuel) by (exact E3 || lia). reflexivity.
    + intros k Hk.
      destruct (lt_dec k (length w3)) as [K|K].
      * assert (Ek : exists y r, skipn (pos + length junk + length hd_ + k) t = y :: r /\ isspace y = true).
        { rewrite <- skipn_add, E2, skipn_app. replace (k - length w3) with 0 by lia. destruct (skipn k w3) as [|y u] eqn:Eu; [apply (f_equal (@List.length ch)) in Eu; rewrite skipn_length in Eu; cbn [List.length] in Eu; lia|].
          exists y. eexists. split; [reflexivity|]. unfold blank in H3. rewrite forallb_forall in H3. apply H3. rewrite <- (firstn_skipn k w3), Eu. apply in_or_app. right. left. reflexivity. }
        destruct Ek as (y & r & Ek & Sy). eapply no_bib_head; [lia|exact Ek|]. intros ->. discriminate Sy.
      * destruct (Nat.eq_dec k (length w3)) as [->|K2].
        { eapply no_bib_head; [lia|exact (skipn_more t _ w3 _ E2)|discriminate]. }
        destruct (lt_dec (k - length w3 - 1) (length bd)) as [K3|K3].
        { apply no_bib; [lia|]. intros ws q Hw. replace (pos + length junk + length hd_ + k) with (S (pos + length junk + length hd_ + length w3) + (k - length w3 - 1)) by lia.
          rewrite <- skipn_add, (skipn_more1 t _ c_lb _ (skipn_more t _ w3 _ E2)), skipn_app. replace (k - length w3 - 1 - length bd) with 0 by lia. cbn [skipn]. apply quiet_pos; auto. right. left. eexists. reflexivity. }
        replace (pos + length junk + length hd_ + k) with (S (pos + length junk + length hd_ + length w3) + length bd) by lia.
        eapply no_bib_head; [lia|exact (skipn_more t _ bd _ (skipn_more1 t _ c_lb _ (skipn_more t _ w3 _ E2)))|discriminate].
Qed.
Theorem bibdiv_exact : forall text es, bib_list isword text es -> exists fuel, bibdiv_parse isword lower fuel text = Some (map (bib_entry_of lower) es).
Proof.
  intros text es B. exists (S (length text)). unfold bibdiv_parse. change (re_finditer BibPattern text) with (iter_at BibPattern text 0). apply (list_go text es B); [lia|reflexivity|lia].
Qed.
End Entries.
