(** Glue lemmas: the property statements of PropsDelims.v. *)
From Coq Require Import List NArith PeanoNat Bool String Lia.
From Verif Require Import PyStr TexUtilsModel DelimSpec DelimProofs DelimProofs2 CommentProofs.
Import ListNotations.
Notation length := List.length.
Open Scope list_scope.

Lemma firstn_app_exact : forall (a b : str) n, n = length a -> firstn n (a ++ b) = a.
Proof. intros a b n ->. rewrite firstn_app, Nat.sub_diag, firstn_all. cbn. apply app_nil_r. Qed.
Lemma skipn_app_exact : forall (a b : str) n, n = length a -> skipn n (a ++ b) = b.
Proof. intros a b n ->. rewrite skipn_app, Nat.sub_diag, skipn_all. reflexivity. Qed.

Lemma group_at_split : forall o c text content n, group_at o c text content n ->
  exists ws rest,
    text = ws ++ [o] ++ content ++ [c] ++ rest /\
    blank ws /\ balanced o c (marks content) /\ closes_after content /\
    firstn n text = ws ++ [o] ++ content ++ [c] /\ skipn n text = rest.
Proof.
  intros o c text content n (ws & rest & -> & Hb & Hbal & Hc & ->). exists ws, rest.
  split; [reflexivity|]. split; [exact Hb|]. split; [exact Hbal|]. split; [exact Hc|].
  replace (ws ++ o :: content ++ c :: rest) with ((ws ++ [o] ++ content ++ [c]) ++ rest)
    by (rewrite <- !app_assoc; reflexivity).
  assert (Hl : length ws + 1 + length content + 1 = length (ws ++ [o] ++ content ++ [c]))
    by (rewrite !app_length; cbn; lia).
  split; [apply firstn_app_exact|apply skipn_app_exact]; exact Hl.
Qed.

Lemma c01_group : forall o c text content n, delims_ok o c ->
  extract_nested_content text o c = (Some content, n) ->
  exists ws rest,
    text = ws ++ [o] ++ content ++ [c] ++ rest /\
    blank ws /\ balanced o c (marks content) /\ closes_after content /\
    firstn n text = ws ++ [o] ++ content ++ [c] /\ skipn n text = rest.
Proof.
  intros o c text content n Hd H. apply (proj1 (extract_nested_content_iff _ _ _ _ _ Hd)) in H.
  apply group_at_split. exact H.
Qed.

Lemma c01_unique : forall o c text content n content' n', delims_ok o c ->
  extract_nested_content text o c = (Some content, n) ->
  group_at o c text content' n' -> content' = content /\ n' = n.
Proof.
  intros o c text content n content' n' Hd H G. apply (proj1 (extract_nested_content_iff _ _ _ _ _ Hd)) in H.
  eapply group_at_fun; eauto.
Qed.

Lemma c02_fail : forall o c text, delims_ok o c ->
  extract_nested_content text o c = (None, 0) <-> (forall content n, ~ group_at o c text content n).
Proof.
  intros o c text Hd. destruct (extract_nested_content_cases o c text Hd) as [(ct & n & H & G)|[H G]]; rewrite H.
  - split; [discriminate|]. intros K. exfalso. exact (K _ _ G).
  - split; auto.
Qed.

Lemma c02_outcomes : forall o c text, delims_ok o c ->
  extract_nested_content text o c = (None, 0) \/
  exists content n, extract_nested_content text o c = (Some content, n) /\ 2 <= n <= length text.
Proof.
  intros o c text Hd. destruct (extract_nested_content_cases o c text Hd) as [(ct & n & H & G)|[H G]]; [right|left; exact H].
  exists ct, n. split; [exact H|]. eapply group_at_pos. exact G.
Qed.

Lemma c02_meaning : forall o c text, delims_ok o c ->
  ((forall content n, ~ group_at o c text content n) <->
   forall ws rest, blank ws -> text = ws ++ [o] ++ rest ->
     forall content tail, rest = content ++ [c] ++ tail ->
       ~ (balanced o c (marks content) /\ closes_after content)).
Proof.
  intros o c text _. split.
  - intros H ws rest Hb -> content tail -> [B C]. eapply (H content). exists ws, tail. cbn. repeat split; eauto.
  - intros H content n (ws & rest & -> & Hb & B & C & _). refine (H ws (content ++ c :: rest) Hb eq_refl content rest eq_refl _). split; assumption.
Qed.

Lemma c03_blocks : forall o c text k, delims_ok o c ->
  exists bs p,
    extract_nested_content_sequence_blocks text o c k = (bs, p) /\
    groups_at o c text bs p /\
    match k with
    | Some m => length bs <= m /\ (length bs < m -> forall ct n, ~ group_at o c (skipn p text) ct n)
    | None => forall ct n, ~ group_at o c (skipn p text) ct n
    end.
Proof. intros o c text k Hd. apply seq_blocks_spec. exact Hd. Qed.

Lemma firstn_plus : forall (s : str) n m, firstn (n + m) s = firstn n s ++ firstn m (skipn n s).
Proof.
  intros s n. revert s. induction n as [|n IH]; intros s m; [reflexivity|].
  destruct s as [|x s]; cbn; [destruct m; reflexivity|]. rewrite IH. reflexivity.
Qed.

Lemma c03_render : forall o c text bs p, groups_at o c text bs p ->
  exists wss, length wss = length bs /\ Forall blank wss /\
    firstn p text = List.concat (map (fun '(ws, b) => ws ++ [o] ++ b ++ [c]) (combine wss bs)) /\
    p <= length text /\ (bs = [] -> p = 0).
Proof.
  intros o c text bs p H. assert (Hle := groups_at_le _ _ _ _ _ H).
  assert (exists wss, length wss = length bs /\ Forall blank wss /\
    firstn p text = List.concat (map (fun '(ws, b) => ws ++ [o] ++ b ++ [c]) (combine wss bs)) /\ (bs = [] -> p = 0)) as (wss & ? & ? & ? & ?).
  { clear Hle. induction H as [text|text b n bs m G H (wss & L & B & R & _)].
    - exists []. repeat split; auto.
    - destruct (group_at_split _ _ _ _ _ G) as (ws & rest & _ & Hb & _ & _ & Hf & _).
      exists (ws :: wss). split; [cbn; congruence|]. split; [constructor; auto|]. split; [|discriminate].
      rewrite firstn_plus, Hf, R. reflexivity. }
  exists wss. auto.
Qed.

Lemma group_lit : forall o c text ct n, delims_ok o c ->
  extract_nested_content text o c = (Some ct, n) -> group_at o c text ct n.
Proof. intros o c text ct n Hd H. apply extract_nested_content_iff; assumption. Qed.

Lemma c04_refuted : exists content req opt rs os e b1 n1 b2 n2,
  extract_args content req opt = (rs, os, e) /\
  os = [b1] /\ rs = [b2] /\ group_at c_lk c_rk content b1 n1 /\
  group_at c_lb c_rb (skipn n1 content) b2 n2 /\ e <> n1 + n2.
Proof.
  exists (lit "[a]{b}"), 1, 1, [lit "b"], [lit "a"], 3, (lit "a"), 3, (lit "b"), 3.
  split; [reflexivity|]. split; [reflexivity|]. split; [reflexivity|].
  split; [apply group_lit; [exact delims_square|reflexivity]|].
  split; [apply group_lit; [exact delims_curly|reflexivity]|]. cbn. lia.
Qed.

Lemma c04_partial : forall content req opt, exists os p1 rs p2,
  groups_at c_lk c_rk content os p1 /\ groups_at c_lb c_rb (skipn p1 content) rs p2 /\
  length os <= opt /\ length rs <= req /\
  (length os < opt -> forall ct n, ~ group_at c_lk c_rk (skipn p1 content) ct n) /\
  (length rs < req -> forall ct n, ~ group_at c_lb c_rb (skipn (p1 + p2) content) ct n) /\
  exists e, extract_args content req opt = (rs, os, e) /\
    (os = [] \/ req = 0 -> e = p1 + p2).
Proof.
  intros content req opt. destruct (extract_args_spec content req opt) as (os & p1 & rs & p2 & H1 & H2 & H3 & H4 & H5 & H6 & H7).
  exists os, p1, rs, p2. repeat (split; [assumption|]). eexists. split; [exact H7|].
  intros [->| ->].
  - inversion H1; subst. destruct (Nat.ltb 0 req) eqn:E; [reflexivity|].
    apply Nat.ltb_ge in E. assert (req = 0) by lia. subst. destruct rs; [|cbn in H4; lia].
    inversion H2; subst. reflexivity.
  - cbn. destruct rs; [|cbn in H4; lia]. inversion H2; subst. lia.
Qed.

Lemma c05_args : forall content spec,
  (forall d, In d spec -> d = c_lb \/ d = c_lk) ->
  exists spec1 spec2 rs p e,
    extract_delimited_args content spec = (rs, e) /\
    spec = spec1 ++ spec2 /\ args_at content spec1 rs p /\
    (spec2 = [] \/
     ((forall b n, ~ group_at c_lb c_rb (skipn p content) b n) /\
      (forall b n, ~ group_at c_lk c_rk (skipn p content) b n)) \/
     ((exists s, spec2 = c_lb :: s) /\ forall b n, ~ group_at c_lb c_rb (skipn p content) b n)) /\
    length rs <= length spec /\ e <= length content /\
    (e = p \/ exists ws, blank ws /\ firstn e content = firstn p content ++ ws).
Proof.
  intros content spec Hs. destruct (extract_delimited_args_spec content spec Hs) as (s1 & s2 & rs & p & e & H1 & H2 & H3 & H4 & H5 & H6).
  exists s1, s2, rs, p, e. repeat (split; [assumption|]).
  split.
  { rewrite H2, app_length. assert (Hl : length rs = length s1).
    { clear - H3. induction H3; cbn; congruence. } lia. }
  split; [assumption|]. destruct H6 as [->|[-> _]]; [left; reflexivity|right].
  exists (firstn (nlead (skipn p content)) (skipn p content)). split; [|apply firstn_plus].
  generalize (skipn p content). clear. intros s. unfold blank. induction s as [|x s IH]; [reflexivity|].
  cbn [nlead]. destruct (isspace x) eqn:E; [|reflexivity]. cbn. rewrite E. exact IH.
Qed.

Lemma c05_render : forall text spec rs p, args_at text spec rs p ->
  length rs = length spec /\
  exists parts, length parts = length rs /\ firstn p text = List.concat parts /\
    Forall2 (fun '(d, r) part =>
       match r with
       | None => d = c_lk /\ part = []
       | Some b => exists ws, blank ws /\
           part = ws ++ [d] ++ b ++ [if N.eqb d c_lb then c_rb else c_rk]
       end) (combine spec rs) parts.
Proof.
  induction 1 as [text|text b n spec rs m G H (L & parts & L2 & F & Q)|text b n spec rs m G H (L & parts & L2 & F & Q)|text spec rs m N H (L & parts & L2 & F & Q)].
  - split; [reflexivity|]. exists []. repeat split; auto. constructor.
  - destruct (group_at_split _ _ _ _ _ G) as (ws & rest & _ & Hb & _ & _ & Hf & _).
    split; [cbn; congruence|]. exists ((ws ++ [c_lb] ++ b ++ [c_rb]) :: parts). split; [cbn; congruence|].
    split; [rewrite firstn_plus, Hf, F; reflexivity|]. cbn [combine]. constructor; [|exact Q]. exists ws. auto.
  - destruct (group_at_split _ _ _ _ _ G) as (ws & rest & _ & Hb & _ & _ & Hf & _).
    split; [cbn; congruence|]. exists ((ws ++ [c_lk] ++ b ++ [c_rk]) :: parts). split; [cbn; congruence|].
    split; [rewrite firstn_plus, Hf, F; reflexivity|]. cbn [combine]. constructor; [|exact Q]. exists ws. auto.
  - split; [cbn; congruence|]. exists ([] :: parts). split; [cbn; congruence|]. split; [exact F|].
    cbn [combine]. constructor; [|exact Q]. auto.
Qed.

Lemma c06_balance : forall o c text, delims_ok o c ->
  check_delimiter_balance text o c = true <-> balanced o c (marks text).
Proof. intros o c text (H & _). apply check_delimiter_balance_iff. exact H. Qed.

Lemma c07_equation : forall d text, d = [c_dollar] \/ d = [c_dollar; c_dollar] ->
  (exists i, startswith text d = true /\ delim_at text d (length d) i /\
     (forall j, j < i -> ~ delim_at text d (length d) j) /\
     extract_equation_content text d = (strip (slice (length d) i text), i + length d))
  \/ ((startswith text d = false \/ forall i, ~ delim_at text d (length d) i) /\
      extract_equation_content text d = ([], 0)).
Proof.
  intros d text Hd.
  assert (Hp : match d with [] => False | x :: _ => x <> c_lb /\ x <> c_rb end)
    by (destruct Hd as [-> | ->]; split; discriminate).
  destruct (extract_equation_content_spec d Hp text) as [(i & e & H1 & H2 & H3 & -> & H4)|H]; [left|right; exact H].
  exists i. auto.
Qed.

Lemma c09_lines : forall text, exists lines outs,
  lines_of text lines /\
  Forall2 (fun line out => exists cut ws, uncommented line cut /\ cut = out ++ ws /\ blank ws /\
             (forall x y, out = y ++ [x] -> isspace x = false)) lines outs /\
  strip_latex_comments text = join [c_nl] outs.
Proof.
  intros text. destruct (strip_comments_lines text) as (ls & outs & H1 & H2 & H3).
  exists ls, outs. split; [exact H1|]. split; [|exact H3].
  clear - H2. induction H2 as [|l o ls outs (cut & Hc & Ho) H IH]; constructor; auto.
  subst o. destruct (trail_split cut) as (ws & Hs & Hb). exists cut, ws.
  split; [exact Hc|]. split; [exact Hs|]. split; [exact Hb|].
  intros x y E. pose proof (f_equal (@rev ch) E) as E2. unfold rstrip in E2. rewrite rev_involutive in E2.
  rewrite rev_app_distr in E2. cbn in E2. clear - E2. revert E2. generalize (rev y). generalize (rev cut).
  induction l as [|z l IH]; intros l0 H; cbn in H; [discriminate|].
  destruct (isspace z) eqn:Ez; [exact (IH _ H)|]. congruence.
Qed.

Lemma c09_fun : forall text l1 l2 line c1 c2,
  (lines_of text l1 -> lines_of text l2 -> l1 = l2) /\
  (uncommented line c1 -> uncommented line c2 -> c1 = c2).
Proof.
  intros text l1 l2 line c1 c2. split.
  - intros H1 H2. apply lines_of_splitlines in H1. apply lines_of_splitlines in H2. congruence.
  - apply uncommented_fun.
Qed.

Lemma c10_refuted : exists text,
  strip_latex_comments (strip_latex_comments text) <> strip_latex_comments text.
Proof. exists (lit "a" ++ [c_nl] ++ lit "%x"). vm_compute. discriminate. Qed.

Lemma c10_idem : forall text,
  (forall p, strip_latex_comments text <> p ++ [c_nl]) ->
  strip_latex_comments (strip_latex_comments text) = strip_latex_comments text.
Proof.
  intros text H. destruct (strip_idem_cases text) as [E|E]; [exact E|]. exfalso. exact (H _ E).
Qed.

Lemma c11_refuted : exists content pos cur,
  pos <= length content /\ last_line (firstn pos content) cur /\ has_unescaped_pct cur /\
  has_comment_on_sameline content pos = false.
Proof.
  exists (lit "\\%a"), 4, (lit "\\%a"). split; [cbn; lia|]. split.
  - split; [|left; reflexivity]. cbn. intros H. repeat destruct H as [H|H]; try discriminate H. exact H.
  - split; [|reflexivity]. exists (lit "\\"), (lit "a"). split; [reflexivity|].
    apply closes_after_esc. reflexivity.
Qed.
