(** C89: where a switch ends. *)
From Coq Require Import List NArith PeanoNat Lia Bool String Compare_dec.
From Verif Require Import PyStr Regex RegexLemmas RegexHead Json TexUtilsModel DelimSpec DelimProofs EnvSpec EqSpec EqProofs3 CommandModel CommandSpec StyleModel StyleSpec StyleProofs EnvHandlerModel ItemModel ItemSpec ItemProofs ItemProofs2 LegacyModel LegacySpec.
Import ListNotations. Notation length := List.length. Notation concat := List.concat. Open Scope list_scope.

(** * The loop *)
Lemma behind_inv : forall neg p t i j, rel (RBehind neg p) t i j -> j = i /\ xorb neg (prev_is p t i) = true.
Proof. intros neg p t i j R. inversion R. auto. Qed.
Lemma brace_rel : forall t i, brace_here t 0 i <-> exists j, rel OPENING_BRACE_PATTERN t i j.
Proof.
  intros t i. split.
  - intros (r & E & P). exists (S i). eapply rel_seq; [constructor|apply rel_is_ch; split; [reflexivity|exists r; exact E]].
    destruct P as [->|P]; [reflexivity|]. destruct i as [|i]; [reflexivity|]. cbn [prev_is]. replace (S i - 1) with i in P by lia.
    destruct (nth_error t i) as [x|]; [|reflexivity]. destruct (N.eqb_spec c_bs x); [congruence|reflexivity].
  - intros (j & R). apply rel_rseq2 in R as (k & B & R). apply behind_inv in B as [-> Pk]. apply rel_is_ch in R as (_ & r & E). exists r. split; [exact E|].
    destruct i as [|k]; [left; reflexivity|right]. cbn [prev_is] in Pk. replace (S k - 1) with k by lia. intros X. rewrite X in Pk. rewrite N.eqb_refl in Pk. discriminate.
Qed.
Lemma brace_slice : forall text pos i, brace_here (skipn pos text) 0 i <-> brace_here text pos (pos + i).
Proof.
  intros text pos i. unfold brace_here. rewrite skipn_add. destruct i as [|i].
  - split; intros (r & E & _); exists r; (split; [exact E|left; lia]).
  - replace (pos + S i - 1) with (pos + i) by lia. replace (S i - 1) with i by lia.
    assert (N : nth_error (skipn pos text) i = nth_error text (pos + i)) by (rewrite !nth_error_skipn, skipn_add; reflexivity). rewrite N.
    split; intros (r & E & [P|P]); try lia; exists r; (split; [exact E|right; exact P]).
Qed.

Section Loop.
Variable w : ch -> bool.
Hypothesis Wp : w 112%N = true.
Variable pattern : re.
Variable switch : str -> Prop.
Hypothesis spec : forall t i, i <= length t -> ((exists j, rel pattern t i j) <-> switch (skipn i t)).
Hypothesis no_brace : forall r, ~ switch (c_lb :: r).
Hypothesis none_empty : ~ switch [].

Notation both := (RAlt pattern OPENING_BRACE_PATTERN).
Notation brace_at := brace_here.
Definition mark (text : str) (pos i : nat) : Prop := switch (skipn i text) \/ brace_at text pos i.
Lemma mark_rel : forall t i, i <= length t -> (mark t 0 i <-> exists j, rel both t i j).
Proof.
  intros t i L. split.
  - intros [H|H]; [apply (spec t i L) in H as (j & R); exists j; apply rel_altl; exact R|apply brace_rel in H as (j & R); exists j; apply rel_altr; exact R].
  - intros (j & R). apply rel_alt2 in R as [R|R]; [left; apply (spec t i L); eauto|right; apply brace_rel; eauto].
Qed.
Lemma mark_lt : forall text pos i, mark text pos i -> i < length text.
Proof.
  intros text pos i H. destruct (le_lt_dec (length text) i) as [L|L]; [|exact L]. exfalso.
  destruct H as [H|(r & E & _)]; [rewrite skipn_all2 in H by lia; exact (none_empty H)|rewrite skipn_all2 in E by lia; discriminate].
Qed.
(** the first mark from [pos] on *)
Lemma first_mark : forall text pos, pos <= length text ->
  (exists q m, pos <= q /\ mark text pos q /\ (forall i, pos <= i < q -> ~ mark text pos i) /\ re_search both (skipn pos text) = Some m /\ m_start m = q - pos) \/
  ((forall i, pos <= i -> ~ mark text pos i) /\ re_search both (skipn pos text) = None).
Proof.
  intros text pos Lp.
  assert (Sl : forall i, mark (skipn pos text) 0 i <-> mark text pos (pos + i)).
  { intros i. unfold mark. rewrite skipn_add, brace_slice. reflexivity. }
  unfold re_search. destruct (re_search_from both (skipn pos text) 0) as [m|] eqn:E.
  - left. apply re_search_some in E as (_ & L & R & _ & N). exists (pos + m_start m), m. split; [lia|].
    assert (Lm : m_start m <= length (skipn pos text)).
    { apply rel_bounds in R; [lia|]. destruct (le_lt_dec (m_start m) (length (skipn pos text))) as [X|X]; [exact X|]. lia. }
    split; [apply Sl; apply mark_rel; [exact Lm|eauto]|]. split; [|split; [reflexivity|lia]].
    intros i Hi M. replace i with (pos + (i - pos)) in M by lia. apply Sl in M. apply mark_rel in M as (j & Rj); [|lia]. apply (N (i - pos) j); [lia|exact Rj].
  - right. split; [|reflexivity]. rewrite re_search_none in E. intros i Hi M. pose proof (mark_lt _ _ _ M) as Li. replace i with (pos + (i - pos)) in M by lia. apply Sl in M.
    apply mark_rel in M as (j & R); [|rewrite skipn_length; lia]. apply (E (i - pos) j); [rewrite skipn_length; lia|exact R].
Qed.

(** the loop after a search *)
Definition after_search (f : nat) (text : str) (x : found) : res nat :=
  match x with
  | FRaises => Raise AttributeError
  | FNoFuel => Raise NoFuel
  | FPos None => Ok (length text)
  | FPos (Some out) =>
      match nth_error text out with
      | None => Ok (length text)
      | Some x => if N.eqb x c_lb then scope_loop w f pattern text (out + match snd (extract_nested_content (skipn out text) c_lb c_rb) with O => 1 | n => n end) else Ok out
      end
  end.
Lemma loop_step : forall f text pos, scope_loop w (S f) pattern text pos = if Nat.ltb pos (length text) then after_search f text (find_skipping w both (S (length text)) text pos None) else Ok (length text).
Proof. reflexivity. Qed.

Lemma scope_past : forall text pos e, scope_from w switch text pos e -> length text <= pos -> e = length text.
Proof.
  intros text pos e D. induction D as [pos p L C S0|pos s body n e L C B G D IH|pos s e L C B G D IH|pos s n e L C O B D IH|pos N]; intros Lp.
  - exfalso. rewrite skipn_all2 in S0 by lia. exact (none_empty S0).
  - apply IH. lia.
  - apply IH. lia.
  - apply IH. lia.
  - reflexivity.
Qed.
Lemma scope_unmarked : forall text pos e, scope_from w switch text pos e -> (forall i, pos <= i -> ~ switch (skipn i text)) -> e = length text.
Proof.
  intros text pos e D. induction D as [pos p L C S0|pos s body n e L C B G D IH|pos s e L C B G D IH|pos s n e L C O B D IH|pos N]; intros M.
  - exfalso. exact (M p L S0).
  - apply IH. intros i Hi. apply M. lia.
  - apply IH. intros i Hi. apply M. lia.
  - apply IH. intros i Hi. apply M. lia.
  - reflexivity.
Qed.
Lemma find_step : forall f text pos ep, find_skipping w both (S f) text pos ep =
  match re_search both (skipn pos text) with
  | None => FPos (match ep with Some _ => Some (length text) | None => None end)
  | Some nm =>
      match search_any w (skipn pos text) with
      | None => FPos (Some (pos + m_start nm))
      | Some s => if Nat.ltb (m_start nm) s then FPos (Some (pos + m_start nm))
                  else match try_handle w (skipn (pos + s) text) with TryRaises => FRaises | TryOut false _ => FPos ep | TryOut true n => find_skipping w both f text (pos + s + n) (Some (pos + s + n)) end
      end
  end.
Proof. reflexivity. Qed.
Lemma find_nothing : forall f text pos ep, pos <= length text -> (forall i, pos <= i -> ~ mark text pos i) -> forall g, after_search g text (find_skipping w both (S f) text pos ep) = Ok (length text).
Proof.
  intros f text pos ep Lp N g. rewrite find_step. destruct (first_mark text pos Lp) as [(q & m & L & M & _)|(_ & ->)]; [exfalso; exact (N q L M)|].
  destruct ep; cbn [after_search]; [|reflexivity]. rewrite (proj2 (nth_error_None text (length text))) by lia. reflexivity.
Qed.
Hypothesis no_opener : forall s, switch s -> ~ opens_here w s.
(** a mark before every environment is found *)
Lemma find_mark : forall f text pos ep p, plain_ends w text -> pos <= p -> p <= length text -> calm w switch text pos p -> mark text pos p -> find_skipping w both (S f) text pos ep = FPos (Some p).
Proof.
  intros f text pos ep p P L Lp C M. rewrite find_step. assert (Lpos : pos <= length text) by lia.
  destruct (first_mark text pos Lpos) as [(q & m & Lq & Mq & Nq & -> & Em)|(N & _)]; [|exfalso; exact (N p L M)].
  assert (Eq : q = p).
  { destruct (Nat.lt_trichotomy q p) as [X|[X|X]]; [exfalso|exact X|exfalso; apply (Nq p); [lia|exact M]].
    destruct (C q ltac:(lia)) as (C1 & C2 & _). destruct Mq as [Mq|Mq]; [exact (C1 Mq)|exact (C2 Mq)]. }
  subst q. rewrite Em. replace (pos + (p - pos)) with p by lia.
  destruct (least (opens_here w) (opens_dec w Wp) (opens_nil w) (skipn pos text)) as [(o & O & No)|No].
  - rewrite (search_any_some w Wp (skipn pos text) o (plain_skip w _ _ P) O No). rewrite skipn_add in O.
    assert (Ho : p - pos < o).
    { destruct (le_lt_dec o (p - pos)) as [X|X]; [exfalso|exact X]. destruct (Nat.eq_dec o (p - pos)) as [E|E].
      - subst o. replace (pos + (p - pos)) with p in O by lia. destruct M as [M|(r & E & _)]; [exact (no_opener _ M O)|].
        rewrite E in O. destruct O as [(ws & nm & r' & _ & _ & X')|(short & r' & X' & _)]; [discriminate X'|destruct short; discriminate X'].
      - destruct (C (pos + o) ltac:(lia)) as (_ & _ & C3). exact (C3 O). }
    apply Nat.ltb_lt in Ho. rewrite Ho. reflexivity.
  - rewrite (search_any_none w Wp (skipn pos text) (plain_skip w _ _ P) No). reflexivity.
Qed.

Lemma loop_scope : forall text, plain_ends w text -> forall pos e, scope_from w switch text pos e -> pos <= length text ->
  forall f fuel ep, length text - pos <= f -> length text - pos < fuel -> after_search f text (find_skipping w both fuel text pos ep) = Ok e.
Proof.
  intros text P pos e D.
  assert (Go : forall p f, (p <= length text -> forall f fuel ep, length text - p <= f -> length text - p < fuel -> after_search f text (find_skipping w both fuel text p ep) = Ok e) ->
    scope_from w switch text p e -> length text - p < f -> scope_loop w f pattern text p = Ok e).
  { intros p [|f] IH D' Hf; [lia|]. rewrite loop_step. destruct (Nat.ltb_spec p (length text)) as [X|X]; [apply IH; lia|]. rewrite (scope_past _ _ _ D' X). reflexivity. }
  induction D as [pos p L C S0|pos s body n e L C B G D IH|pos s e L C B G D IH|pos s n e L C O B D IH|pos N]; intros Lp f [|fuel] ep Hf Hfu; try lia.
  - assert (M : mark text pos p) by (left; exact S0). pose proof (mark_lt _ _ _ M) as Lt. rewrite (find_mark fuel text pos ep p P L ltac:(lia) C M). cbn [after_search].
    destruct (nth_error text p) as [x|] eqn:Ex; [|apply nth_error_None in Ex; lia]. destruct (N.eqb_spec x c_lb) as [->|_]; [exfalso|reflexivity].
    apply ParseReadProofs.nth_skip in Ex. rewrite Ex in S0. exact (no_brace _ S0).
  - assert (M : mark text pos s) by (right; exact B). pose proof (mark_lt _ _ _ M) as Lt. rewrite (find_mark fuel text pos ep s P L ltac:(lia) C M). cbn [after_search].
    destruct B as (r & E & _). assert (Hd : nth_error text s = Some c_lb) by (rewrite nth_error_skipn, E; reflexivity). rewrite Hd, N.eqb_refl. pose proof (group_at_pos _ _ _ _ _ G) as Gp.
    apply (extract_nested_content_iff _ _ _ _ _ delims_curly) in G. rewrite G. cbn [snd]. destruct n as [|n]; [lia|]. apply Go; [exact (IH Go)|exact D|]. rewrite skipn_length in Gp. lia.
  - assert (M : mark text pos s) by (right; exact B). pose proof (mark_lt _ _ _ M) as Lt. rewrite (find_mark fuel text pos ep s P L ltac:(lia) C M). cbn [after_search].
    destruct B as (r & E & _). assert (Hd : nth_error text s = Some c_lb) by (rewrite nth_error_skipn, E; reflexivity). rewrite Hd, N.eqb_refl.
    destruct (extract_nested_content_cases c_lb c_rb (skipn s text) delims_curly) as [(b & k & X & _)|(X & _)]; [exfalso; apply (extract_nested_content_iff _ _ _ _ _ delims_curly) in X; exact (G b k X)|]. rewrite X. cbn [snd].
    apply Go; [exact (IH Go)|exact D|lia].
  - destruct (block_try w Wp (skipn s text) n (plain_skip w _ _ P) B) as [T Hn]. rewrite skipn_length in Hn.
    destruct (first_mark text pos Lp) as [(q & m & Lq & Mq & Nq & Em & Es)|(N & _)].
    + rewrite find_step, Em. assert (Sk : skipn (s - pos) (skipn pos text) = skipn s text) by (rewrite skipn_add; f_equal; lia).
      rewrite (search_any_some w Wp (skipn pos text) (s - pos) (plain_skip w _ _ P)); [|rewrite Sk; exact O|intros i Hi; rewrite skipn_add; apply C; lia].
      assert (Hq : s - pos <= m_start m).
      { destruct (le_lt_dec (s - pos) (m_start m)) as [X|X]; [exact X|exfalso]. destruct (C q ltac:(lia)) as (C1 & C2 & _). destruct Mq as [Mq|Mq]; [exact (C1 Mq)|exact (C2 Mq)]. }
      apply Nat.ltb_ge in Hq. rewrite Hq. replace (pos + (s - pos)) with s by lia. rewrite T. apply IH; [exact Go|lia|lia|lia].
    + rewrite (find_nothing fuel text pos ep Lp N). f_equal. symmetry. eapply scope_unmarked; [exact D|]. intros i Hi X. apply (N i); [lia|left; exact X].
  - apply find_nothing; [exact Lp|]. intros i Hi [X|X]; [exact (proj1 (N i Hi) X)|exact (proj2 (N i Hi) X)].
Qed.
Lemma loop_exact : forall text e, plain_ends w text -> scope_from w switch text 0 e -> scope_loop w (S (length text)) pattern text 0 = Ok e.
Proof.
  intros text e P D. rewrite loop_step. destruct (Nat.ltb_spec 0 (length text)) as [X|X]; [|rewrite (scope_past _ _ _ D X); reflexivity].
  apply loop_scope with (pos := 0); [exact P|exact D|lia|lia|lia].
Qed.
Lemma search_switch : forall text, ((forall i, ~ switch (skipn i text)) /\ re_search pattern text = None) \/ exists m, re_search pattern text = Some m.
Proof.
  intros text. destruct (re_search pattern text) as [m|] eqn:E; [right; eauto|left]. split; [|reflexivity]. unfold re_search in E. rewrite re_search_none in E. intros i S0.
  destruct (le_lt_dec i (length text)) as [L|L]; [|rewrite skipn_all2 in S0 by lia; exact (none_empty S0)]. apply (spec text i L) in S0 as (j & R). exact (E i j ltac:(lia) R).
Qed.
End Loop.
