(** List items: the handler. *)
From Coq Require Import List NArith PeanoNat Compare_dec Lia Bool String.
From Verif Require Import PyStr Regex RegexLemmas RegexLocal RegexHead TexUtilsModel DelimSpec DelimProofs DelimFinal KeyvalProofs2 TextProofs TextProofs2
  EnvModel EnvSpec EnvProofs EnvHandlerModel EnvHandlerProofs EnvHandlerCases EqModel EqSpec EqProofs EqProofs3 ItemModel ItemSpec ItemProofs ItemProofs2.
Import ListNotations.
Notation length := List.length.
Open Scope list_scope.

Lemma strip_nl : forall s, strip (s ++ [c_nl]) = strip s.
Proof.
  intros s. destruct (strip_split s) as (a & b & E & A & B).
  replace (s ++ [c_nl]) with (a ++ strip s ++ (b ++ [c_nl])) by (rewrite E at 2; rewrite <- !app_assoc; reflexivity).
  apply strip_app_blank; [exact A| |apply strip_trimmed]. unfold blank. rewrite forallb_app, B. reflexivity.
Qed.
Lemma at_end_cases : forall t p, p <= length t -> at_end t p = true -> p = length t \/ (t = firstn p t ++ [c_nl]).
Proof.
  intros t p L H. unfold at_end in H. destruct (skipn p t) as [|x [|y r]] eqn:E.
  - left. pose proof (skipn_length p t) as X. rewrite E in X. cbn in X. lia.
  - right. apply N.eqb_eq in H. subst x. rewrite <- (firstn_skipn p t) at 1. rewrite E. reflexivity.
  - discriminate.
Qed.

Section Item.
Variable w : ch -> bool.
Hypothesis Wm : w 109%N = true.
Hypothesis Wp : w 112%N = true.
Variable lower : str -> str.
Hypothesis Lo : lower (lit "item") = lit "item".

Lemma base_item : forall body, kept_body body (et_content (base_environment lower env_clear (lit "item") body)) /\
  et_title (base_environment lower env_clear (lit "item") body) = None.
Proof.
  intros body. unfold base_environment. change (replace [42%N] [] (lit "item")) with (lit "item").
  cbn [es_theorems es_floats env_clear dget].
  change (dget (lit "item") ENV_ARGS) with (@None (nat * nat)).
  assert (T : str_eqb (get_env_type lower (lit "item")) (lit "math_env") = false) by (unfold get_env_type; rewrite Lo; reflexivity). rewrite T.
  destruct (c02_outcomes c_lk c_rk body delims_square) as [F|(ct & n & F & Hn)]; rewrite F.
  - cbn [Nat.ltb Nat.leb et_content et_title]. split; [|reflexivity]. left. split; [reflexivity|]. apply (proj1 (c02_fail _ _ _ delims_square)). exact F.
  - assert (Z : Nat.ltb 0 n = true) by (apply Nat.ltb_lt; lia). rewrite Z. cbn [et_content et_title]. split.
    + right. exists ct, n. split; [|reflexivity]. apply extract_nested_content_iff; [exact delims_square|exact F].
    + rewrite andb_false_r. reflexivity.
Qed.

Lemma not_item : forall text, ~ item_here w text -> handle_item w lower text = IOut None 0.
Proof. intros text H. unfold handle_item. rewrite (item_none w Wm text 0) by exact H. reflexivity. Qed.

Lemma item_ends_run : forall text, handle_item w lower text <> INoFuel.
Proof.
  intros text. unfold handle_item. destruct (re_match_at (ITEM_PATTERN w) text 0) as [m|]; [|discriminate].
  destruct (cap_get 2 (m_caps m)) as [[a b]|]; [|discriminate]. destruct (Nat.ltb a b); [|discriminate].
  pose proof (find_ends w (S (length text)) text a None ltac:(lia)) as F. destruct (find_skipping w (ITEM_PATTERN w) (S (length text)) text a None); [discriminate|discriminate|contradiction].
Qed.

Lemma item_result : forall text u title n, text = lit "\item" ++ u -> starts_with w u = false -> item_head u title n -> plain_ends w text ->
  let start := 5 + n in
  (start = length text \/ item_here w (skipn start text) -> handle_item w lower text = IOut None start) /\
  (start <> length text -> ~ item_here w (skipn start text) -> forall e, item_ends w text start e ->
   exists t p, handle_item w lower text = IOut (Some t) p /\ kept_body (strip (slice start e text)) (it_content t) /\ it_title t = shown_title title /\
     (p = e \/ (e = length text /\ text = firstn p text ++ [c_nl]))).
Proof.
  intros text u title n E B H P start.
  destruct (item_fm w Wm text 0 u title n E B H) as (a & k & Nk & Sk & Lk & Ht & F). change (0 + 5 + n) with start in Nk, Sk, Lk, F.
  apply fm_match in F.
  assert (Hs : starts_with isspace (skipn start text) = false).
  { unfold start. rewrite E. change (5 + n) with (length (lit "\item") + n). rewrite <- skipn_add, skipn_app_exact by reflexivity.
    destruct H as [ws1 t ws2 body W1 T W2 X|ws1 body W1 X _].
    - replace (ws1 ++ [c_lk] ++ t ++ [c_rk] ++ ws2 ++ body) with ((ws1 ++ [c_lk] ++ t ++ [c_rk] ++ ws2) ++ body) by (repeat (rewrite <- app_assoc || rewrite <- app_comm_cons); reflexivity).
      rewrite skipn_app_exact by reflexivity. exact X.
    - rewrite skipn_app_exact by reflexivity. exact X. }
  assert (Ls : start <= length text) by lia.
  split.
  - intros C. assert (k = 0) as ->.
    { destruct k; [reflexivity|]. exfalso. apply (Nk 0 ltac:(lia)). rewrite Nat.add_0_r. destruct C as [C|C]; [right; unfold at_end; rewrite C, skipn_all; reflexivity|left; exact C]. }
    unfold handle_item. rewrite F. cbn [m_caps m_end cap_get Nat.eqb]. rewrite Nat.add_0_r, Nat.ltb_irrefl. reflexivity.
  - intros Z Ni e D.
    assert (Hk : 0 < k).
    { destruct k; [|lia]. exfalso. rewrite Nat.add_0_r in Sk. destruct Sk as [Sk|Sk]; [exact (Ni Sk)|].
      destruct (at_end_cases text start Ls Sk) as [X|X]; [exact (Z X)|].
      assert (skipn start text = [c_nl]) as Y by (rewrite X at 1; apply skipn_app_exact; rewrite firstn_length; lia). rewrite Y in Hs. discriminate Hs. }
    unfold handle_item. rewrite F. cbn [m_caps m_end cap_get Nat.eqb]. assert (Hl : Nat.ltb start (start + k) = true) by (apply Nat.ltb_lt; lia). rewrite Hl.
    assert (Tt : forall m0 d, m_caps m0 = (2, (start, start + k)) :: title_caps title a -> d = None -> match m_group text 1 m0 with Some (x :: g) => Some (strip (x :: g)) | _ => d end = shown_title title).
    { intros m0 d Em ->. unfold m_group. rewrite Em. destruct title as [t|]; cbn [title_caps cap_get Nat.eqb option_map]; [rewrite (Ht t eq_refl); destruct t; reflexivity|reflexivity]. }
    destruct (find_item w Wm Wp text start e P D (S (length text)) None ltac:(lia)) as [->|(Ee & _ & -> & No)].
    + destruct (base_item (strip (slice start e text))) as [K1 K2]. eexists _, e. split; [reflexivity|]. cbn [it_content it_title]. split; [exact K1|]. split; [|left; reflexivity].
      apply Tt; [reflexivity|exact K2].
    + destruct Sk as [Sk|Sk]; [exfalso; apply (No (start + k)); [lia|exact Sk]|].
      assert (Es : strip (slice start (start + k) text) = strip (slice start e text)).
      { subst e. destruct (at_end_cases text (start + k) Lk Sk) as [->|X]; [reflexivity|]. unfold slice.
        rewrite (firstn_all2 (n := length text - start)) by (rewrite skipn_length; lia).
        rewrite <- strip_nl. f_equal. replace (start + k - start) with k by lia.
        assert (Y : skipn start text = firstn k (skipn start text) ++ skipn k (skipn start text)) by (symmetry; apply firstn_skipn).
        rewrite Y at 2. f_equal. rewrite skipn_add. rewrite X. rewrite skipn_app_exact; [reflexivity|]. rewrite firstn_length. lia. }
      destruct (base_item (strip (slice start (start + k) text))) as [K1 K2]. eexists _, (start + k). split; [reflexivity|]. cbn [it_content it_title].
      split; [rewrite Es in K1 |- *; exact K1|]. split; [apply Tt; [reflexivity|exact K2]|].
      destruct (at_end_cases text (start + k) Lk Sk) as [X|X]; [left; congruence|right; auto].
Qed.
End Item.
