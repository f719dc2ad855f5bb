From Coq Require Import List NArith ZArith PeanoNat Lia Bool String Wf_nat.
From Verif Require Import PyStr Regex RegexLemmas RegexHead RegexLocal Json TexUtilsModel DelimSpec DelimProofs DelimFinal TextProofs TableProofs2 TableCases EtoolProofs KeyvalProofs ContentModel ContentSpec ContentProofs ContentProofs2 ContentProofs3.
Import ListNotations. Notation length := List.length. Notation concat := List.concat. Open Scope list_scope.

(** * Paragraph commands *)
Lemma rel_rci : forall n t i j, rel (rci n) t i j -> i <= length t -> j = i + length n /\ ci_prefix n (skipn i t) = true.
Proof.
  induction n as [|x n IH]; intros t i j H Hi; cbn [rci] in H.
  - inversion H; subst. cbn. split; [lia|reflexivity].
  - apply rel_rseq2 in H as (k & H1 & H2). inversion H1 as [|? ? ? y Hy Hc| | | | | | | | | | | |]; subst. rewrite nth_error_skipn in Hy.
    destruct (skipn i t) as [|z s] eqn:E; [discriminate Hy|]. injection Hy as ->. apply IH in H2 as [-> H2]; [|apply skipn_cons_lt in E; lia].
    rewrite (skipn_S_tl _ _ _ _ E) in H2. cbn [length ci_prefix]. rewrite Hc, H2. split; [lia|reflexivity].
Qed.
Lemma rel_star_times : forall s t i j, rel (rstar (rci s)) t i j -> forall n r, skipn i t = times n s ++ r -> s <> [] -> ci_prefix s r = false -> i <= length t ->
  exists k, k <= n /\ j = i + k * length s.
Proof.
  intros s t i j H. remember (rstar (rci s)) as R eqn:ER. unfold rstar in ER. induction H as [| | | | |? ? ? ?|g a t i j k Ha _ Hlt Hs IHs| | | | | | |]; try discriminate ER; intros n r E Hs0 Hr Hi.
  - exists 0. split; lia.
  - injection ER as -> ->. apply rel_rci in Ha as [-> Hp]; [|exact Hi]. destruct n as [|n].
    + cbn [times List.app] in E. rewrite E, Hr in Hp. discriminate Hp.
    + cbn [times] in E. rewrite <- app_assoc in E. pose proof (skipn_more _ _ _ _ E) as E'.
      assert (L : i + length s <= length t) by (apply (f_equal (@length ch)) in E; rewrite skipn_length, app_length in E; lia).
      destruct (IHs eq_refl n r E' Hs0 Hr L) as (m & Hm & ->). exists (S m). split; [lia|]. cbn [Nat.mul]. lia.
Qed.
Lemma not_section : forall n star ws title rest, re_match_at P_section (level_command n "paragraph" star ws title rest) 0 = None.
Proof.
  intros n star ws title rest. set (t := level_command n "paragraph" star ws title rest). destruct (re_match_at P_section t 0) as [m|] eqn:E; [|reflexivity]. exfalso.
  apply re_match_at_some in E as (_ & E & _); [|lia]. unfold P_section in E. cbn [rseq] in E. apply rel_rseq2 in E as (k & H1 & E). unfold bs in H1. apply rel_is_ch in H1 as (-> & _).
  apply rel_rseq2 in E as (k & H1 & E). set (r := lit "paragraph" ++ starred star ++ ws ++ [c_lb] ++ title ++ [c_rb] ++ rest).
  assert (E1 : skipn 1 t = times n (lit "sub") ++ r) by reflexivity. assert (L : 1 <= length t) by (unfold t, level_command; cbn; lia).
  destruct (rel_star_times _ _ _ _ H1 n r E1 ltac:(discriminate) eq_refl L) as (q & Hq & ->). apply rel_rseq2 in E as (k & H2 & _).
  assert (Sk : skipn (1 + q * length (lit "sub")) t = times (n - q) (lit "sub") ++ r).
  { rewrite <- skipn_add, E1. replace n with (q + (n - q)) at 1 by lia. generalize (n - q). clear. intros z. induction q as [|q IH]; [reflexivity|]. cbn [times Nat.add]. rewrite <- app_assoc.
    change (S q * length (lit "sub")) with (length (lit "sub") + q * length (lit "sub")). rewrite <- skipn_add, skipn_app, skipn_all, Nat.sub_diag. exact IH. }
  assert (L2 : 1 + q * length (lit "sub") <= length t) by (apply (f_equal (@length ch)) in E1; rewrite skipn_length, app_length, times_length in E1; nia).
  apply rel_rci in H2 as [_ H2]; [|exact L2]. rewrite Sk in H2. destruct (n - q); discriminate H2.
Qed.
Theorem paragraph_command : forall word expand d n star ws title rest, blank ws -> closed title ->
  content_handle word expand d (level_command n "paragraph" star ws title rest) =
    Ok (d, (VDict [(lit "type", VStr (lit "paragraph")); (lit "title", VStr (strip (expand title))); (lit "level", VInt (Z.of_nat n + 1))],
            length (level_command n "paragraph" star ws title []))).
Proof.
  intros word expand d n star ws title rest Hw Ht. set (t := level_command n "paragraph" star ws title rest).
  set (head := [c_bs] ++ times n (lit "sub") ++ lit "paragraph" ++ starred star ++ ws). set (g := [c_bs] ++ times n (lit "sub") ++ lit "paragraph" ++ starred star ++ ws ++ [c_lb]).
  assert (Hg : length g = S (length head)) by (unfold g, head; rewrite !app_length; cbn [length]; lia).
  assert (M : re_match_at P_paragraph t 0 = Some {| m_start := 0; m_end := S (length head); m_caps := [] |}).
  { apply fm_match. change P_paragraph with (RSeq bs (RSeq (rstar #"sub") (RSeq #"paragraph" head_tail))). apply (fm_level "paragraph" t n star ws title rest); [reflexivity|exact Hw|reflexivity]. }
  assert (A : re_match_at P_abstract t 0 = None /\ re_match_at P_part t 0 = None /\ re_match_at P_chapter t 0 = None) by (unfold t, level_command; destruct n; repeat split; reflexivity).
  destruct A as (A1 & A2 & A3).
  unfold content_handle. cbn [PATTERNS first_pattern]. rewrite A1, A2, A3, (not_section n star ws title rest : re_match_at P_section t 0 = None), M. cbn [m_end].
  rewrite (nested_arg t head title rest Ht) by (unfold t, level_command, head; rewrite <- !app_assoc; reflexivity).
  unfold create_token. rewrite <- Hg, (group0_at t g (title ++ [c_rb] ++ rest)) by (unfold t, g; apply level_head). cbn [bind fst snd].
  assert (Cn : str_count (lit "sub") g = n).
  { unfold str_count, g. cbn [List.app]. rewrite count_other by discriminate. rewrite count_times.
    change (count_go (lit "sub") 0 (lit "paragraph" ++ ?u)) with (count_go (lit "sub") 0 u). rewrite count_clean by (apply tail_clean; [exact Hw|reflexivity|discriminate|discriminate]). lia. }
  rewrite Cn. do 3 f_equal. rewrite Hg. unfold head, level_command. rewrite !app_length. cbn [length]. lia.
Qed.

(** * \cref *)
Theorem cref_command : forall word expand d name star ws body rest ks, In name ["\cref"; "\Cref"]%string -> blank ws -> closed body ->
  expand body = join [c_comma] ks -> ks <> [] -> (forall k, In k ks -> ~ In c_comma k) ->
  content_handle word expand d (lit name ++ starred star ++ ws ++ [c_lb] ++ body ++ [c_rb] ++ rest) =
    Ok (d, (VDict [(lit "type", VStr (lit "ref")); (lit "content", key_list ks)], length (lit name ++ starred star ++ ws ++ [c_lb] ++ body ++ [c_rb]))).
Proof.
  intros word expand d name star ws body rest ks Hn Hw Hb He Hk Hc. set (t := lit name ++ starred star ++ ws ++ [c_lb] ++ body ++ [c_rb] ++ rest).
  set (head := lit name ++ starred star ++ ws).
  assert (L : length (lit name) = 5) by (destruct Hn as [<-|[<-|[]]]; reflexivity).
  assert (E5 : skipn 5 t = starred star ++ ws ++ [c_lb] ++ body ++ [c_rb] ++ rest) by (unfold t; rewrite <- L; rewrite skipn_app, skipn_all, Nat.sub_diag; reflexivity).
  assert (M : re_match_at P_cref t 0 = Some {| m_start := 0; m_end := S (length head); m_caps := [] |}).
  { apply fm_match. change P_cref with (RSeq bs (RSeq #"c" (RSeq #"ref" head_tail))).
    assert (F : first_match head_tail t 5 [] (S (length head)) []).
    { replace (S (length head)) with (5 + length (starred star ++ ws ++ [c_lb])) by (unfold head; rewrite !app_length, L; cbn [length]; lia). eapply fm_head_tail; [exact E5|exact Hw]. }
    eapply fm_seq with (j := 1) (c1 := []); [exists []; destruct Hn as [<-|[<-|[]]]; reflexivity|]. eapply fm_seq with (j := 2) (c1 := []); [exists []; rewrite rm_rci; destruct Hn as [<-|[<-|[]]]; reflexivity|].
    eapply fm_seq with (j := 5) (c1 := []); [exists []; rewrite rm_rci; destruct Hn as [<-|[<-|[]]]; reflexivity|exact F]. }
  assert (P : first_pattern (PATTERNS word) t = Some (Kcref, {| m_start := 0; m_end := S (length head); m_caps := [] |})).
  { rewrite <- (firstn_skipn 10 (PATTERNS word)), first_pattern_app.
    - cbn [PATTERNS skipn first_pattern]. rewrite M. reflexivity.
    - unfold t. destruct Hn as [<-|[<-|[]]]; reflexivity. }
  unfold content_handle. rewrite P. cbn [m_end]. rewrite (nested_arg t head body rest Hb) by (unfold t, head; rewrite <- !app_assoc; reflexivity).
  unfold create_token. rewrite He, (keys_join ks Hk Hc). cbn [bind fst snd].
  do 3 f_equal; [unfold tok, contentf, strs, key_list; rewrite map_map; reflexivity|unfold head; rewrite !app_length; cbn [length]; lia].
Qed.

(** * Progress and exceptions *)
(** patterns that always record group [n] *)
Fixpoint must_cap (n : nat) (r : re) : bool :=
  match r with
  | RGrp k a => Nat.eqb k n || must_cap n a
  | RSeq a b => must_cap n a || must_cap n b
  | RAlt a b => must_cap n a && must_cap n b
  | _ => false
  end.
Lemma caps_grow : forall n r t i c j c', In (j, c') (rm r t i c) -> cap_get n c <> None -> cap_get n c' <> None.
Proof.
  intros n. induction r as [|p|a IHa b IHb|a IHa b IHb|g a IHa|k a IHa| | |neg a IHa|neg p|w]; intros t i c j c' H Hc; cbn [rm] in H.
  - destruct H as [H|[]]. injection H as _ <-. exact Hc.
  - destruct (next_is p t i); [|destruct H]. destruct H as [H|[]]. injection H as _ <-. exact Hc.
  - apply in_flat_map in H as ([q c1] & H1 & H2). eauto.
  - apply in_app_iff in H as [H|H]; eauto.
  - revert H. generalize (S (length t - i)). intros fuel. revert i c Hc. induction fuel as [fuel IHf] using (well_founded_induction lt_wf). intros i c Hc H.
    apply star_run_in in H as [H|(j1 & c1 & H1 & _ & f & Hf & H2)]; [injection H as _ ->; exact Hc|]. apply (IHf f Hf j1 c1); [eauto|exact H2].
  - apply in_map_iff in H as ([q c1] & H & H1). injection H as _ <-. cbn [cap_get snd fst]. destruct (Nat.eqb k n); [discriminate|eauto].
  - destruct (at_end t i); [|destruct H]. destruct H as [H|[]]. injection H as _ <-. exact Hc.
  - destruct (Nat.eqb i 0); [|destruct H]. destruct H as [H|[]]. injection H as _ <-. exact Hc.
  - destruct (xorb neg _); [|destruct H]. destruct H as [H|[]]. injection H as _ <-. exact Hc.
  - destruct (xorb neg _); [|destruct H]. destruct H as [H|[]]. injection H as _ <-. exact Hc.
  - destruct (xorb _ _); [|destruct H]. destruct H as [H|[]]. injection H as _ <-. exact Hc.
Qed.
Lemma must_cap_ok : forall n r t i c j c', must_cap n r = true -> In (j, c') (rm r t i c) -> cap_get n c' <> None.
Proof.
  intros n. induction r as [|p|a IHa b IHb|a IHa b IHb|g a IHa|k a IHa| | |neg a IHa|neg p|w]; intros t i c j c' M H; cbn [must_cap] in M; try discriminate M; cbn [rm] in H.
  - apply in_flat_map in H as ([q c1] & H1 & H2). apply orb_prop in M as [M|M]; [|eauto]. eapply caps_grow; [exact H2|]. eauto.
  - apply andb_prop in M as [M1 M2]. apply in_app_iff in H as [H|H]; eauto.
  - apply in_map_iff in H as ([q c1] & H & H1). injection H as _ <-. cbn [cap_get snd fst]. destruct (Nat.eqb k n); [discriminate|]. eauto.
Qed.
Lemma match_group : forall n r t m, must_cap n r = true -> re_match_at r t 0 = Some m -> exists s, m_group t n m = Some s.
Proof.
  intros n r t m M H. unfold re_match_at in H. destruct (rm r t 0 []) as [|[j c] l] eqn:E; [discriminate H|]. injection H as <-.
  pose proof (must_cap_ok n r t 0 [] j c M ltac:(rewrite E; left; reflexivity)) as C. unfold m_group. cbn [m_caps]. destruct (cap_get n c) as [[x y]|]; [eexists; reflexivity|congruence].
Qed.
Lemma first_pattern_in : forall ps t k m, first_pattern ps t = Some (k, m) -> exists p, In (k, p) ps /\ re_match_at p t 0 = Some m.
Proof.
  induction ps as [|[k0 p] ps IH]; intros t k m H; [discriminate H|]. cbn [first_pattern] in H. destruct (re_match_at p t 0) as [m0|] eqn:E.
  - injection H as <- <-. exists p. split; [left; reflexivity|exact E].
  - destruct (IH t k m H) as (q & Hq & Hm). exists q. split; [right; exact Hq|exact Hm].
Qed.
Lemma patterns_positive : forall word k p, In (k, p) (PATTERNS word) -> 0 < minlen p.
Proof. intros word k p H. cbn [PATTERNS] in H. repeat (destruct H as [H|H]; [injection H as <- <-; cbn; lia|]). destruct H. Qed.
Lemma group_bound : forall o c t b n, group_at o c t b n -> n <= length t.
Proof. intros o c t b n (ws & rest & -> & _ & _ & _ & ->). rewrite !app_length. cbn [length]. rewrite app_length. cbn [length]. lia. Qed.
Definition raises_on_group (k : kind) : bool := match k with Kcaptionof | Khyperref | Khref | Kdefcitealias => true | _ => false end.
Lemma create_ok : forall d k t m s, raises_on_group k = false -> exists r, create_token d k t m s = Ok r.
Proof.
  intros d k t m s H. destruct k; try discriminate H; unfold create_token; try (eexists; reflexivity).
  - destruct (page_number _); eexists; reflexivity.
  - destruct (pages_of _) as [[|x p]|]; eexists; reflexivity.
  - destruct (map _ _) as [|a [|b l]]; eexists; reflexivity.
Qed.
Lemma create_group : forall d k t m s x, m_group t 1 m = Some x -> exists r, create_token d k t m s = Ok r.
Proof.
  intros d k t m s x E. destruct (raises_on_group k) eqn:R; [|apply create_ok, R]. destruct k; try discriminate R; unfold create_token, group_strip1; rewrite E; eexists; reflexivity.
Qed.
Lemma create_safe : forall word d k t m s, first_pattern (PATTERNS word) t = Some (k, m) -> (k = Khyperref -> m_group t 1 m <> None) -> exists r, create_token d k t m s = Ok r.
Proof.
  intros word d k t m s H Hh. destruct (raises_on_group k) eqn:R; [|apply create_ok, R]. apply first_pattern_in in H as (p & Hp & Hm).
  destruct k; try discriminate R.
  - assert (p = P_captionof) as -> by (cbn [PATTERNS] in Hp; repeat (destruct Hp as [Hp|Hp]; [try discriminate Hp; injection Hp as <-; reflexivity|]); destruct Hp).
    destruct (match_group 1 _ _ _ (eq_refl : must_cap 1 P_captionof = true) Hm) as (x & E). exact (create_group _ _ _ _ _ _ E).
  - destruct (m_group t 1 m) as [x|] eqn:E; [exact (create_group _ _ _ _ _ _ E)|exfalso; exact (Hh eq_refl eq_refl)].
  - assert (p = P_href) as -> by (cbn [PATTERNS] in Hp; repeat (destruct Hp as [Hp|Hp]; [try discriminate Hp; injection Hp as <-; reflexivity|]); destruct Hp).
    destruct (match_group 1 _ _ _ (eq_refl : must_cap 1 P_href = true) Hm) as (x & E). exact (create_group _ _ _ _ _ _ E).
  - assert (p = P_defcitealias) as -> by (cbn [PATTERNS] in Hp; repeat (destruct Hp as [Hp|Hp]; [try discriminate Hp; injection Hp as <-; reflexivity|]); destruct Hp).
    destruct (match_group 1 _ _ _ (eq_refl : must_cap 1 P_defcitealias = true) Hm) as (x & E). exact (create_group _ _ _ _ _ _ E).
Qed.
Definition plain_letter (x : ch) : bool := (in_range 97 122 x || N.eqb x c_bs) && negb (N.eqb x 105) && negb (N.eqb x 115) && negb (N.eqb x 107).
Lemma ci_lower : forall x y, plain_letter x = true -> ci x y = true -> lower y = x.
Proof.
  intros x y H E. unfold plain_letter in H. apply andb_prop in H as [H H3]. apply andb_prop in H as [H H2]. apply andb_prop in H as [H H1]. apply negb_true_iff in H1, H2, H3.
  unfold ci in E. rewrite H1, H2, H3 in E. cbn [andb] in E. rewrite !orb_false_r in E. apply orb_prop in E as [E|E].
  - apply N.eqb_eq in E. subst y. unfold lower. destruct (in_range 65 90 x) eqn:R; [|reflexivity]. exfalso. apply orb_prop in H as [H|H]; [|apply N.eqb_eq in H; subst; discriminate R].
    unfold in_range in *. rewrite !andb_true_iff, !N.leb_le in *. lia.
  - apply andb_prop in E as [R E]. apply N.eqb_eq in E. subst y. unfold lower, in_range in *. rewrite andb_true_iff, !N.leb_le in R.
    replace (N.leb 65 (x - 32) && N.leb (x - 32) 90) with true by (symmetry; rewrite andb_true_iff, !N.leb_le; lia). lia.
Qed.
Lemma ci_prefix_lower : forall n h, forallb plain_letter n = true -> ci_prefix n h = true -> length h = length n -> map lower h = n.
Proof.
  induction n as [|x n IH]; intros [|y h] Hn H L; try discriminate L; [reflexivity|]. cbn in Hn, H, L. apply andb_prop in Hn as [Hx Hn]. apply andb_prop in H as [H1 H2].
  cbn [map]. rewrite (ci_lower x y Hx H1), (IH h Hn H2) by lia. reflexivity.
Qed.
Lemma rm_lbrace : forall t i c j c', In (j, c') (rm lbrace t i c) -> exists r, skipn i t = c_lb :: r.
Proof.
  intros t i c j c' H. unfold lbrace, is_ch in H. cbn [rm] in H. unfold next_is in H. rewrite nth_error_skipn in H. destruct (skipn i t) as [|x r]; [destruct H|].
  destruct (N.eqb c_lb x) eqn:E; [|destruct H]. apply N.eqb_eq in E. subst. eauto.
Qed.
Lemma rm_sp : forall t i c j c', i <= length t -> In (j, c') (rm sp t i c) -> c' = c /\ exists ws r, skipn i t = ws ++ r /\ blank ws /\ j = i + length ws.
Proof.
  intros t i c j c' Hi H. split.
  - unfold sp, rstar, rspace in H. rewrite rm_star_chr_greedy in H. apply in_map_iff in H as (k & H & _). injection H as _ ->. reflexivity.
  - apply rm_sound in H; [|exact Hi]. unfold sp, rstar, rspace in H. apply rel_star_chr in H as (ws & r & E & Hw & ->). eauto.
Qed.
Lemma bare_hyperref_match : forall t m, re_match_at P_hyperref t 0 = Some m -> m_group t 1 m = None -> bare_hyperref t.
Proof.
  intros t m H G. unfold re_match_at in H. destruct (rm P_hyperref t 0 []) as [|[j c] l] eqn:E; [discriminate H|]. injection H as <-.
  assert (Hin : In (j, c) (rm P_hyperref t 0 [])) by (rewrite E; left; reflexivity). clear E. unfold m_group in G. cbn [m_caps] in G.
  assert (C : cap_get 1 c = None) by (destruct (cap_get 1 c) as [[? ?]|]; [discriminate G|reflexivity]). clear G.
  unfold P_hyperref in Hin. cbn [rseq] in Hin.
  change (rm (RSeq ?a ?b) t 0 []) with (flat_map (fun jc => rm b t (fst jc) (snd jc)) (rm a t 0 [])) in Hin. apply in_flat_map in Hin as ([i1 c1] & H1 & Hin). cbn [fst snd] in Hin.
  unfold bs, is_ch in H1. cbn [rm] in H1. unfold next_is in H1. destruct t as [|b t]; [destruct H1|]. cbn [nth_error] in H1. destruct (N.eqb c_bs b) eqn:Eb; [|destruct H1]. apply N.eqb_eq in Eb. subst b.
  destruct H1 as [H1|[]]. injection H1 as <- <-. set (T := c_bs :: t) in *.
  change (rm (RSeq ?a ?b) T 1 []) with (flat_map (fun jc => rm b T (fst jc) (snd jc)) (rm a T 1 [])) in Hin. apply in_flat_map in Hin as ([i2 c2] & H2 & Hin). cbn [fst snd] in Hin.
  rewrite rm_rci in H2. destruct (ci_prefix (lit "hyperref") (skipn 1 T)) eqn:Ep; [|destruct H2]. destruct H2 as [H2|[]]. injection H2 as <- <-. cbn [skipn T] in Ep.
  assert (L : 9 <= length T). { unfold T. cbn [length]. do 8 (destruct t as [|? t]; [cbn in Ep; rewrite ?andb_false_r in Ep; discriminate Ep|]). cbn. lia. }
  change (1 + length (lit "hyperref")) with 9 in Hin.
  change (rm (RSeq ?a ?b) T 9 []) with (flat_map (fun jc => rm b T (fst jc) (snd jc)) (rm a T 9 [])) in Hin. apply in_flat_map in Hin as ([i3 c3] & H3 & Hin). cbn [fst snd] in Hin.
  pose proof (rm_bounds _ _ _ _ _ _ L H3) as B3. apply rm_sp in H3 as (-> & ws1 & r1 & E1 & W1 & ->); [|exact L].
  change (rm (RSeq ?a ?b) T (9 + length ws1) []) with (flat_map (fun jc => rm b T (fst jc) (snd jc)) (rm a T (9 + length ws1) [])) in Hin. apply in_flat_map in Hin as ([i4 c4] & H4 & Hin). cbn [fst snd] in Hin.
  assert (H4' : i4 = 9 + length ws1 /\ c4 = []).
  { unfold opt_brace, ropt in H4. change (rm (RAlt ?a REps) T ?i []) with (rm a T i [] ++ [(i, [])]) in H4. apply in_app_iff in H4 as [H4|[H4|[]]].
    - exfalso. apply (must_cap_ok 1) in H4; [|reflexivity]. apply (caps_grow 1 _ _ _ _ _ _ Hin H4). exact C.
    - injection H4 as <- <-. auto. }
  destruct H4' as [-> ->].
  change (rm (RSeq ?a ?b) T ?i []) with (flat_map (fun jc => rm b T (fst jc) (snd jc)) (rm a T i [])) in Hin. apply in_flat_map in Hin as ([i5 c5] & H5 & Hin). cbn [fst snd] in Hin.
  apply rm_sp in H5 as (-> & ws2 & r2 & E2 & W2 & ->); [|lia]. apply rm_lbrace in Hin as (r & E3).
  exists (firstn 9 T), (ws1 ++ ws2), r. split; [|split].
  - rewrite <- (firstn_skipn 9 T) at 1. f_equal. rewrite E1. rewrite <- app_assoc. f_equal. pose proof (skipn_more _ _ _ _ E1) as F1. rewrite <- F1, E2. f_equal. pose proof (skipn_more _ _ _ _ E2) as F2. rewrite <- F2, E3. reflexivity.
  - apply ci_prefix_lower; [reflexivity| |rewrite firstn_length, Nat.min_l by exact L; reflexivity].
    unfold T. cbn [firstn ci_prefix lit]. change (ci_prefix (lit "\hyperref") (c_bs :: firstn 8 t) = true). change (lit "\hyperref") with (c_bs :: lit "hyperref"). cbn [ci_prefix]. rewrite ci_refl. cbn [andb].
    do 8 (destruct t as [|? t]; [cbn in Ep; rewrite ?andb_false_r in Ep; discriminate Ep|]). cbn [firstn]. exact Ep.
  - unfold blank in *. rewrite forallb_app, W1, W2. reflexivity.
Qed.
Theorem content_progress : forall word expand d t,
  match content_handle word expand d t with
  | Ok (_, (v, n)) => n <= length t /\ (content_can_handle word t = true -> 0 < n) /\ (content_can_handle word t = false -> v = VNone /\ n = 0)
  | Raise e => e = AttributeError /\ bare_hyperref t
  end.
Proof.
  intros word expand d t. unfold content_handle, content_can_handle. destruct (first_pattern (PATTERNS word) t) as [[k m]|] eqn:F; [|split; [lia|split; [discriminate|intros _; split; reflexivity]]].
  pose proof (first_pattern_in _ _ _ _ F) as (p & Hp & Hm). pose proof (patterns_positive word k p Hp) as Pos. apply re_match_at_some in Hm as Hm'; [|lia]. destruct Hm' as (_ & Hr & B). apply minlen_ok in Hr.
  assert (G : match (match extract_nested_content (skipn (m_end m - 1) t) c_lb c_rb with
      | (None, _) => Ok (d, (VNone, m_end m))
      | (Some nested, e) => do dt <- create_token d k t m (expand nested); Ok (fst dt, (snd dt, m_end m + e - 1))
      end) with Ok (_, (v, n)) => n <= length t /\ (true = true -> 0 < n) /\ (true = false -> v = VNone /\ n = 0) | Raise e => e = AttributeError /\ bare_hyperref t end).
  { destruct (extract_nested_content (skipn (m_end m - 1) t) c_lb c_rb) as [[nested|] e] eqn:Ex; [|split; [lia|split; [intros _; lia|discriminate]]].
    apply (proj1 (extract_nested_content_iff c_lb c_rb _ _ _ delims_curly)) in Ex. apply group_bound in Ex as Eb. rewrite skipn_length in Eb.
    assert (Epos : 0 < e) by (destruct Ex as (? & ? & _ & _ & _ & _ & ->); lia).
    destruct (create_token d k t m (expand nested)) as [r|ex] eqn:C; cbn [bind].
    - split; [lia|split; [intros _; lia|discriminate]].
    - assert (D : k = Khyperref /\ m_group t 1 m = None).
      { destruct (m_group t 1 m) as [x|] eqn:Eg; [destruct (create_group d k t m (expand nested) x Eg) as (? & X); rewrite X in C; discriminate C|].
        split; [|reflexivity]. destruct (raises_on_group k) eqn:R; [|destruct (create_ok d k t m (expand nested) R) as (? & X); rewrite X in C; discriminate C].
        destruct k; try discriminate R; try reflexivity; (destruct (create_safe word d _ t m (expand nested) F ltac:(discriminate)) as (? & X); rewrite X in C; discriminate C). }
      destruct D as [-> D]. assert (p = P_hyperref) as -> by (cbn [PATTERNS] in Hp; repeat (destruct Hp as [Hp|Hp]; [try discriminate Hp; injection Hp as <-; reflexivity|]); destruct Hp).
      split; [|eapply bare_hyperref_match; eassumption]. unfold create_token, group_strip1 in C. rewrite D in C. injection C as <-. reflexivity. }
  destruct k; try exact G; (split; [lia|split; [intros _; lia|discriminate]]).
Qed.
