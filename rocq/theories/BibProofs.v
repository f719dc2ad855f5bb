From Coq Require Import List NArith ZArith PeanoNat Lia Bool String.
From Verif Require Import PyStr Regex RegexLemmas RegexHead TexUtilsModel DelimSpec DelimProofs DelimFinal KeyvalModel BibModel BibSpec.
Import ListNotations. Notation length := List.length. Notation concat := List.concat. Open Scope list_scope.

(** * Every opening brace of a balanced text closes *)
Lemma balanced_opener : forall o c, o <> c -> forall m, balanced o c m -> forall pre rest, m = pre ++ (o, false) :: rest ->
  exists seg tail, rest = seg ++ (c, false) :: tail /\ balanced o c seg.
Proof.
  intros o c Hoc m B. induction B as [|x e r Hx B IH|r1 r2 B1 IH1 B2 IH2]; intros pre rest E.
  - destruct pre; discriminate.
  - destruct pre as [|p pre]; [injection E as E1 E1' E2|injection E as E1 E2].
    + subst x e. exfalso. destruct Hx as [Hx|[Hx _]]; congruence.
    + apply (IH pre rest E2).
  - destruct pre as [|p pre]; [injection E as E2|injection E as E1 E2].
    + subst rest. exists r1, r2. split; [reflexivity|exact B1].
    + apply app_eq_app in E2. destruct E2 as (l & [[E2 E3]|[E2 E3]]).
      * destruct l as [|y l].
        -- rewrite app_nil_r in E2. cbn in E3. injection E3 as E3 _. congruence.
        -- injection E3 as <- ->. destruct (IH1 _ _ E2) as (seg & tail & -> & B). exists seg, (tail ++ (c, false) :: r2). rewrite <- app_assoc. split; [reflexivity|exact B].
      * destruct l as [|y l].
        -- cbn in E3. injection E3 as E3 _. congruence.
        -- injection E3 as <- E3. destruct (IH2 _ _ E3) as (seg & tail & -> & B). exists seg, tail. split; [reflexivity|exact B].
Qed.

(** [text] is a piece of a balanced text up to blanks on the right *)
Definition closable (text : str) : Prop := forall pre rest, text = pre ++ c_lb :: rest -> (forall e, esc_end e pre = false) ->
  exists v n, extract_nested_content (c_lb :: rest) c_lb c_rb = (Some v, n) /\ 2 <= n.
Lemma balanced_closable : forall content p text ws, balanced c_lb c_rb (marks content) -> content = p ++ text ++ ws -> blank ws -> closable text.
Proof.
  intros content p text ws B E W pre rest Et Hesc. subst text.
  assert (marks content = marks (p ++ pre) ++ (c_lb, false) :: mark false (rest ++ ws)) as EM.
  { rewrite E. replace (p ++ (pre ++ c_lb :: rest) ++ ws) with ((p ++ pre) ++ c_lb :: rest ++ ws) by (rewrite <- !app_assoc; reflexivity).
    rewrite mark_app, esc_end_app, Hesc. reflexivity. }
  destruct (balanced_opener c_lb c_rb ltac:(discriminate) _ B _ _ EM) as (seg & tail & E2 & B2).
  apply mark_split in E2. destruct E2 as (ct & s' & E3 & -> & Hct & _).
  assert (exists r2, rest = ct ++ c_rb :: r2) as (r2 & ->).
  { apply app_eq_app in E3. destruct E3 as (l & [[E3 E4]|[E3 E4]]).
    - destruct l as [|y l].
      + exfalso. cbn in E4. subst ws. unfold blank in W. discriminate W.
      + injection E4 as <- ->. exists l. exact E3.
    - exfalso. subst ct ws. unfold blank in W. rewrite forallb_app in W. cbn in W. rewrite andb_false_r in W. discriminate W. }
  assert (group_at c_lb c_rb (c_lb :: ct ++ c_rb :: r2) ct (0 + 1 + length ct + 1)) as G.
  { exists [], r2. split; [reflexivity|]. split; [reflexivity|]. split; [exact B2|]. split; [apply closes_after_esc; exact Hct|reflexivity]. }
  exists ct, (0 + 1 + length ct + 1). split; [|lia]. apply extract_nested_content_iff; [exact delims_curly|exact G].
Qed.

Section Bib.
Variable isword : ch -> bool.
Variable lower : str -> str.
Notation FieldPattern := (BibTexFieldPattern isword).

Lemma field_rel : forall u i j, rel FieldPattern u i j -> exists k ws r, i < k /\ skipn k u = [c_eq] ++ ws ++ r /\ blank ws /\ j = k + 1 + length ws.
Proof.
  intros u i j H. unfold BibTexFieldPattern in H. cbn [rseq] in H.
  apply rel_rseq2 in H. destruct H as (j1 & H1 & H). apply minlen_ok in H1. cbn in H1.
  apply rel_rseq2 in H. destruct H as (j2 & H2 & H). apply minlen_ok in H2. cbn in H2.
  apply rel_rseq2 in H. destruct H as (j3 & H3 & H). apply rel_is_ch in H3. destruct H3 as [-> (r & H3)].
  try (apply rel_rseq2 in H; destruct H as (j4 & H4 & H5); inversion H5; subst; rename H4 into H).
  apply rel_star_chr in H. destruct H as (ws & r' & E & W & ->). rewrite (skipn_S_tl _ _ _ _ H3) in E. subst r.
  exists j2, ws, r'. split; [lia|]. split; [exact H3|]. split; [exact W|lia].
Qed.
Lemma field_search : forall u m, re_search FieldPattern u = Some m ->
  exists a ws r, u = a ++ [c_eq] ++ ws ++ r /\ blank ws /\ m_end m = length a + 1 + length ws.
Proof.
  intros u m H. apply re_search_some in H. destruct H as (_ & B & R & _). apply field_rel in R.
  destruct R as (k & ws & r & _ & E & W & Ej). exists (firstn k u), ws, r.
  assert (k <= length u) as Hk by lia.
  rewrite <- E. rewrite firstn_skipn. split; [reflexivity|]. split; [exact W|]. rewrite firstn_length. lia.
Qed.

Lemma lstrip_open : forall s, startswith (lstrip s) [c_lb] = true -> exists ws rest, s = ws ++ c_lb :: rest /\ blank ws /\ nlead s = length ws.
Proof.
  intros s H. destruct (lead_split s) as (ws & E & W & L). apply startswith_spec in H. destruct H as (r & H). rewrite H in E.
  exists ws, r. split; [exact E|]. split; [exact W|]. symmetry. exact L.
Qed.
Lemma skipn_len : forall (a b : str) n, n = length a -> skipn n (a ++ b) = b.
Proof. intros. apply skipn_app_exact. assumption. Qed.

Lemma loop_total : forall text, closable text -> forall fuel pos fs, length text - pos < fuel -> exists o, fields_loop isword lower fuel text pos fs = Some o.
Proof.
  intros text C. induction fuel as [|fuel IH]; intros pos fs Hf; [lia|]. cbn [fields_loop].
  destruct (Nat.ltb pos (length text)) eqn:L; [|eauto]. apply Nat.ltb_lt in L.
  destruct (re_search FieldPattern (skipn pos text)) as [m|] eqn:S; [|eauto].
  destruct (field_search _ _ S) as (a & ws & r & E & W & Em).
  assert (text = (firstn pos text ++ a ++ [c_eq] ++ ws) ++ r) as ET.
  { rewrite <- !app_assoc. rewrite <- E. symmetry. apply firstn_skipn. }
  assert (length (firstn pos text ++ a ++ [c_eq] ++ ws) = pos + m_end m) as EL.
  { rewrite !app_length, firstn_length, Em. cbn [length]. lia. }
  assert (skipn (pos + m_end m) text = r) as ER by (rewrite ET at 1; apply skipn_len; symmetry; exact EL).
  rewrite ER. destruct (startswith (lstrip r) [c_lb]) eqn:SB.
  - destruct (lstrip_open _ SB) as (w2 & rest & Er & W2 & NL). rewrite NL.
    assert (text = (firstn pos text ++ a ++ [c_eq] ++ ws ++ w2) ++ c_lb :: rest) as ET2.
    { rewrite <- !app_assoc. rewrite <- Er. rewrite <- !app_assoc in ET. exact ET. }
    assert (skipn (pos + m_end m + length w2) text = c_lb :: rest) as ER2.
    { rewrite ET2 at 1. apply skipn_len. rewrite !app_length in *. lia. }
    rewrite ER2. destruct (C _ _ ET2) as (v & n & EX & Hn).
    { intros e. rewrite !esc_end_app. match goal with |- esc_end (esc_end (esc_end ?X [c_eq]) ws) w2 = _ => change (esc_end X [c_eq]) with false end. rewrite (blank_esc ws W). apply blank_esc, W2. }
    rewrite EX. apply IH. lia.
  - destruct (re_match_at quote_pattern r 0) as [q|]; apply IH; lia.
Qed.

Lemma find_char_split : forall c s k, find_char c s = Some k -> s = firstn k s ++ c :: skipn (S k) s /\ k < length s.
Proof.
  induction s as [|x s IH]; cbn; intros k H; [discriminate|]. destruct (N.eqb x c) eqn:E.
  - injection H as <-. apply N.eqb_eq in E. subst. cbn. split; [reflexivity|lia].
  - destruct (find_char c s) as [k'|] eqn:F; [|discriminate]. injection H as <-. destruct (IH _ eq_refl) as [H1 H2]. cbn [firstn skipn List.app].
    split; [f_equal; exact H1|lia].
Qed.
Lemma strip_split : forall s, exists w1 w2, s = w1 ++ strip s ++ w2 /\ blank w1 /\ blank w2.
Proof.
  intros s. destruct (lead_split s) as (w1 & E & W1 & _). destruct (trail_split (lstrip s)) as (w2 & E2 & W2).
  exists w1, w2. split; [|split; assumption]. rewrite E at 1. unfold strip. rewrite <- E2. reflexivity.
Qed.
Lemma entry_total : forall content m, exists o, parse_entry isword lower (S (length content)) content m = Some o.
Proof.
  intros content m. unfold parse_entry. destruct (extract_nested_content _ _ _) as [[entry|] n] eqn:X; [|eauto].
  apply extract_nested_content_iff in X; [|exact delims_curly].
  assert (balanced c_lb c_rb (marks entry)) as B by (destruct X as (? & ? & _ & _ & B & _); exact B).
  assert (length entry <= length content) as LE.
  { destruct X as (ws & rest & E & _ & _ & _ & _). apply (f_equal (@List.length ch)) in E. rewrite skipn_length, !app_length in E. cbn [length] in E. rewrite app_length in E. cbn [length] in E. lia. }
  destruct (find_char c_comma entry) as [k|] eqn:F; [|eauto].
  destruct (find_char_split _ _ _ F) as [EF _]. destruct (strip_split (skipn (S k) entry)) as (w1 & w2 & ES & W1 & W2).
  destruct (loop_total (strip (skipn (S k) entry))) with (fuel := S (length content)) (pos := 0) (fs := @nil (str * str)) as (o & Ho).
  - apply (balanced_closable entry (firstn k entry ++ c_comma :: w1) _ w2); [exact B| |exact W2].
    rewrite EF at 1. rewrite <- app_assoc. cbn [List.app]. do 2 f_equal. exact ES.
  - pose proof (f_equal (@List.length ch) ES) as L1. rewrite skipn_length, !app_length in L1. lia.
  - rewrite Ho. eauto.
Qed.
Lemma matches_total : forall content ms, exists o, parse_matches isword lower (S (length content)) content ms = Some o.
Proof.
  intros content. induction ms as [|m ms [o IH]]; cbn [parse_matches]; [eauto|].
  destruct (entry_total content m) as (e & ->). rewrite IH. eauto.
Qed.
Lemma c28_terminates : forall convert content, exists fuel es, bibtex_parse isword lower convert fuel content = Some es.
Proof.
  intros convert content. unfold bibtex_parse. set (content' := if is_compiled_bibtex content then _ else _).
  destruct (matches_total content' (re_finditer (BibTexPattern isword) content')) as (o & H). eauto.
Qed.
(** more fuel never changes a result *)
Lemma fields_mono : forall f1 f2 text pos fs o, f1 <= f2 -> fields_loop isword lower f1 text pos fs = Some o -> fields_loop isword lower f2 text pos fs = Some o.
Proof.
  induction f1 as [|f1 IH]; intros f2 text pos fs o L H; [discriminate|]. destruct f2 as [|f2]; [lia|]. cbn [fields_loop] in *.
  destruct (Nat.ltb pos (length text)); [|exact H]. destruct (re_search FieldPattern (skipn pos text)); [|exact H].
  match type of H with (let '(_, _) := ?X in _) = _ => destruct X as [fs' pos'] end. apply IH; [lia|exact H].
Qed.
End Bib.
