(** Equations: the whole handler. *)
From Coq Require Import List NArith PeanoNat Lia Bool String Permutation.
From Verif Require Import PyStr Regex RegexLemmas RegexLocal RegexHead TexUtilsModel DelimSpec DelimProofs DelimFinal KeyvalProofs2 Placeholder PlaceProofs TableProofs2 TableCases
  CommandProofs6 EnvModel EnvHandlerModel EnvHandlerProofs EnvHandlerCases EqModel EqSpec EqProofs EqProofs2.
Import ListNotations.
Notation length := List.length.
Notation concat := List.concat.
Open Scope list_scope.

(** * no pairs *)
Lemma run_len_ok : forall p s n, n <= run_len p s -> forallb p (firstn n s) = true.
Proof.
  intros p s. induction s as [|x s IH]; intros n H; [cbn in H; assert (n = 0) by lia; subst; reflexivity|].
  destruct n as [|n]; [reflexivity|]. cbn [run_len] in H. destruct (p x) eqn:P; [|lia]. cbn [firstn forallb]. rewrite P. apply IH. lia.
Qed.
Lemma run_len_le : forall p s, run_len p s <= length s.
Proof. intros p s. induction s as [|x s IH]; [cbn; lia|]. cbn [run_len length]. destruct (p x); lia. Qed.
Lemma no_pair_try : forall w r n, plain_ends w (c_bs :: r) -> n <= run_len (fun y => w y || N.eqb y 64%N) r -> pair_name_try w (c_bs :: r) n = None.
Proof.
  intros w r n P. induction n as [|n IH]; intros H; [reflexivity|]. cbn [pair_name_try]. rewrite IH by lia. clear IH.
  destruct (xorb _ _); [|reflexivity].
  destruct (rfind (lit "\end" ++ slice 1 (S (S n)) (c_bs :: r)) (skipn (S (S n)) (c_bs :: r))) as [k|] eqn:E; [|reflexivity]. exfalso.
  apply rfind_bound in E as [_ E]. pose proof (run_len_ok _ _ _ H) as F.
  assert (Sl : slice 1 (S (S n)) (c_bs :: r) = firstn (S n) r) by (unfold slice; cbn [skipn]; f_equal; lia).
  rewrite Sl in E. pose proof (run_len_le (fun y => w y || N.eqb y 64%N) r) as L. destruct r as [|x r]; [cbn in L, H; lia|]. cbn [firstn] in E, F. cbn [forallb] in F. apply andb_prop in F as [F _].
  set (i := S (S n) + k). assert (Es : c_bs :: x :: r = firstn i (c_bs :: x :: r) ++ lit "\end" ++ x :: (firstn n r ++ skipn (k + length (lit "\end" ++ x :: firstn n r)) (skipn (S (S n)) (c_bs :: x :: r)))).
  { rewrite <- (firstn_skipn i) at 1. f_equal. unfold i. rewrite <- skipn_add, E at 1. rewrite <- app_assoc. reflexivity. }
  apply P in Es as [W A]. rewrite W in F. cbn in F. apply N.eqb_eq in F. contradiction.
Qed.
Lemma plain_ends_tl : forall w x s, plain_ends w (x :: s) -> plain_ends w s.
Proof. intros w x s P p y r E. apply (P (x :: p) y r). cbn. f_equal. exact E. Qed.
Lemma no_pair_search : forall w s, plain_ends w s -> pair_search w s = None.
Proof.
  intros w s. induction s as [|x s IH]; intros P; [reflexivity|]. cbn [pair_search]. rewrite IH by (eapply plain_ends_tl; exact P).
  unfold pair_name. destruct (N.eqb x c_bs) eqn:E; [|reflexivity]. apply N.eqb_eq in E. subst x. rewrite no_pair_try; [reflexivity|exact P|lia].
Qed.

Section Whole.
Variable w : ch -> bool.
Variable process : str -> str.
Variable fmt box : str -> str * nat.
Variable T : Type.
Variable search : str -> option nat.
Variable handle : str -> option T * nat.
Notation run := (handle_eq w process fmt box T search handle).

Lemma order_free : forall fuel o1 o2 text, Permutation o1 EQUATION_ENV -> Permutation o2 EQUATION_ENV -> run fuel o1 text = run fuel o2 text.
Proof.
  intros fuel o1 o2 text P1 P2. unfold handle_eq. assert (F : Forall plain_name o1).
  { apply Forall_forall. intros x I. pose proof names_plain as N. rewrite Forall_forall in N. apply N. eapply Permutation_in; [exact P1|exact I]. }
  rewrite (eq_match_order o1 o2 text F); [reflexivity|]. eapply perm_trans; [exact P1|apply Permutation_sym; exact P2].
Qed.

Lemma labels_any : forall t0 ls, Forall good_label ls -> ~ occurs lab t0 -> strip (with_labels t0 ls) = with_labels t0 ls ->
  handle_labels (with_labels t0 ls) = (strip (t0 ++ concat (map after_text ls)), map label_of ls).
Proof.
  intros t0 ls F O S. destruct ls as [|x ls]; [|apply labels_ok; [exact F|exact O|discriminate]].
  unfold with_labels in *. cbn [map concat] in *. rewrite app_nil_r in *. rewrite S. apply labels_none. exact O.
Qed.

Lemma kind_block_ok : forall k, kind_block k = true <-> block_kind k.
Proof. intros [n| | | |]; cbn; unfold block_kind; intuition (try discriminate; congruence). Qed.
Lemma kind_align_ok : forall k, kind_align k = true <-> aligned_kind k.
Proof.
  intros k. unfold aligned_kind. destruct k as [n| | | |]; cbn [kind_align]; try (split; [discriminate|intros (m & E & _); discriminate E]).
  rewrite orb_true_iff, <- !occurs_dec. split; [intros H; exists n; auto|intros (m & E & H); injection E as <-; exact H].
Qed.
Lemma ends_star : forall a st, (forall b, a <> b ++ [42%N]) -> endswith (strip (c_bs :: a ++ star_text st ++ [c_rb])) (lit "*}") = st.
Proof.
  intros a st H. rewrite app_assoc, strip_id2 by reflexivity. unfold endswith. change (c_bs :: (a ++ star_text st) ++ [c_rb]) with ((c_bs :: a ++ star_text st) ++ [c_rb]). rewrite rev_app_distr.
  destruct st; cbn [star_text].
  - change (c_bs :: a ++ [42%N]) with ((c_bs :: a) ++ [42%N]). rewrite rev_app_distr. reflexivity.
  - rewrite app_nil_r. destruct a as [|x a] using rev_ind; [reflexivity|]. clear IHa. change (c_bs :: a ++ [x]) with ((c_bs :: a) ++ [x]). rewrite rev_app_distr. cbn.
    destruct x as [|p]; [reflexivity|]. destruct (Pos.eqb_spec 42 p) as [<-|Ne]; [exfalso; exact (H a eq_refl)|].
    destruct (match p with 42%positive => true | _ => false end) eqn:Q; [|].
    all: repeat (destruct p as [p|p|]; try reflexivity; try (exfalso; apply Ne; reflexivity)).
Qed.

Theorem whole : forall fuel order k text body e nb eq t0 ls t1 cs,
  Permutation order EQUATION_ENV -> eq_source order k text body e nb -> strip body <> [] ->
  ((exists n, k = KEnv n) \/ balanced c_lb c_rb (marks (strip body))) ->
  inner_equation k (strip body) eq -> eq = with_labels t0 ls -> Forall good_label ls -> ~ occurs (lit "\label") t0 ->
  let clean := strip (t0 ++ concat (map after_text ls)) in
  plain_ends w clean -> untouched fmt box (process clean) -> commands_read search handle (strip (process clean)) t1 cs ->
  length (process clean) < fuel ->
  exists tok, run fuel order text = Some (Some tok, e) /\ the_token T k nb (with_marks 0 t1 cs) (map label_of ls) (keyed 0 cs) tok.
Proof.
  intros fuel order k text body e nb eq t0 ls t1 cs P S Nb Bal In_ Eq F O clean Pl Un Cr Fu.
  assert (Fo : Forall plain_name order).
  { apply Forall_forall. intros x I. pose proof names_plain as N. rewrite Forall_forall in N. apply N. eapply Permutation_in; [eassumption|exact I]. }
  destruct (source_match _ _ _ _ _ _ Fo S) as (i & M & Sl & Le & Hs). unfold handle_eq. rewrite M. unfold finish_eq. unfold m_group. cbn [m_caps cap_get Nat.eqb option_map m_end fst snd].
  rewrite Sl. destruct (strip body) as [|x0 b0] eqn:Eb; [congruence|]. rewrite <- Eb in *. replace (nilb (strip body)) with false by (rewrite Eb; reflexivity).
  match goal with |- context [let '(_, _) := ?X in _] => assert (X1 : X = (eq, e)) end.
  { destruct k as [name| | | |].
    - destruct (str_eqb name (lit "alignat")) eqn:A.
      + apply str_eqb_spec in A. subst name. destruct In_ as [[C _]|[_ In_]]; [congruence|].
        destruct (extract_args_req (strip body) 1 0 (or_introl eq_refl)) as (rs & p & E & G & L & Sm). rewrite E.
        destruct In_ as [(b & n & Gb & ->)|[Ng ->]].
        * destruct rs as [|r rs]; [exfalso; inversion G; subst; apply (Sm ltac:(cbn; lia) b n); exact Gb|]. destruct rs; [|cbn in L; lia].
          inversion G as [|? ? n' ? m' G1 G2]; subst. inversion G2; subst. destruct (group_at_fun _ _ _ _ _ _ _ delims_curly Gb G1) as [_ ->]. rewrite Nat.add_0_r. reflexivity.
        * destruct rs as [|r rs]; [inversion G; subst; cbn [skipn]; reflexivity|]. exfalso. inversion G; subst. eapply Ng. eassumption.
      + destruct In_ as [[_ ->]|[C _]]; [reflexivity|]. injection C as ->. rewrite str_eqb_refl in A. discriminate A.
    - destruct Bal as [(n & C)|Bal]; [discriminate C|]. apply (c06_balance _ _ _ delims_curly) in Bal. rewrite Bal. destruct In_ as [[_ ->]|[C _]]; [reflexivity|discriminate C].
    - destruct Bal as [(n & C)|Bal]; [discriminate C|]. apply (c06_balance _ _ _ delims_curly) in Bal. rewrite Bal. destruct In_ as [[_ ->]|[C _]]; [reflexivity|discriminate C].
    - destruct Bal as [(n & C)|Bal]; [discriminate C|]. apply (c06_balance _ _ _ delims_curly) in Bal. rewrite Bal. destruct In_ as [[_ ->]|[C _]]; [reflexivity|discriminate C].
    - destruct Bal as [(n & C)|Bal]; [discriminate C|]. apply (c06_balance _ _ _ delims_curly) in Bal. rewrite Bal. destruct In_ as [[_ ->]|[C _]]; [reflexivity|discriminate C]. }
  rewrite X1. clear X1.
  assert (Se : strip eq = eq). { destruct In_ as [[_ ->]|[_ [(b & n & _ & ->)|[_ ->]]]]; apply strip_idem. }
  subst eq. rewrite (labels_any t0 ls F O Se). fold clean.
  destruct fuel as [|fuel]; [lia|]. assert (Cv : convert_pairs w (Datatypes.S fuel) clean = Some clean) by (cbn [convert_pairs]; rewrite no_pair_search by exact Pl; reflexivity).
  rewrite Cv. rewrite fmt_calm by (auto; lia). rewrite (placeholders_ok _ _ _ _ _ _ Cr).
  eexists. split; [reflexivity|]. unfold the_token. cbn [q_content q_block q_align q_numbered q_labels q_placeholders].
  split; [reflexivity|]. split; [apply kind_block_ok|]. split; [apply kind_align_ok|]. split; [|split; reflexivity].
  destruct k as [n| | | |]; try (inversion S; reflexivity).
  destruct (Hs n eq_refl) as (a & st & Ef & -> & Ha). unfold m_group0, slice. cbn [m_start m_end skipn]. rewrite Nat.sub_0_r, Ef, ends_star by exact Ha. reflexivity.
Qed.
Lemma not_equation : forall fuel order text, (forall o r, In o [lit "\begin"; lit "$"; lit "\["; lit "\("] -> text <> o ++ r) -> run fuel order text = Some (None, 0).
Proof.
  intros fuel order text H. unfold handle_eq, eq_kinds. rewrite eq_match_noenv.
  - assert (R : forall d a, In d [lit "$"; lit "\["; lit "\("] -> re_match_at (RSeq (rstr d) a) text 0 = None).
    { intros d a I. unfold re_match_at. rewrite rm_seq_none; [reflexivity|]. rewrite rm_rstr. change (skipn 0 text) with text.
      destruct (startswith text d) eqn:S; [|reflexivity]. apply startswith_iff in S as (q & S). exfalso. apply (H d q); [right; exact I|exact S]. }
    assert (R1 : forall a, re_match_at (RSeq (rstr (lit "$$")) a) text 0 = None).
    { intros a. unfold re_match_at. rewrite rm_seq_none; [reflexivity|]. rewrite rm_rstr. change (skipn 0 text) with text.
      destruct (startswith text (lit "$$")) eqn:S; [|reflexivity]. apply startswith_iff in S as (q & S). exfalso. apply (H (lit "$") (lit "$" ++ q)); [right; left; reflexivity|exact S]. }
    cbn [RAW_KINDS eq_match eq_pattern]. rewrite R1, !R by (cbn; tauto). reflexivity.
  - intros n _. apply no_env_match. intros r E. apply (H (lit "\begin") r); [left; reflexivity|exact E].
Qed.
Lemma whole_empty : forall fuel order k text body e nb, Permutation order EQUATION_ENV -> eq_source order k text body e nb -> strip body = [] ->
  run fuel order text = Some (None, e).
Proof.
  intros fuel order k text body e nb P S Nb.
  assert (Fo : Forall plain_name order).
  { apply Forall_forall. intros x I. pose proof names_plain as N. rewrite Forall_forall in N. apply N. eapply Permutation_in; [eassumption|exact I]. }
  destruct (source_match _ _ _ _ _ _ Fo S) as (i & M & Sl & _). unfold handle_eq. rewrite M. unfold finish_eq. unfold m_group. cbn [m_caps cap_get Nat.eqb option_map m_end fst snd].
  rewrite Sl, Nb. reflexivity.
Qed.
End Whole.
