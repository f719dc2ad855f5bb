(** List items and for loops: concrete cases, the for loop handler. *)
From Coq Require Import List NArith PeanoNat Compare_dec Lia Bool String.
From Verif Require Import PyStr Regex RegexLemmas RegexLocal RegexHead TexUtilsModel DelimSpec DelimProofs DelimFinal KeyvalProofs2 TextProofs TextProofs2
  EnvModel EnvSpec EnvProofs EnvHandlerModel EnvHandlerProofs EnvHandlerCases EqModel EqSpec EqProofs EqProofs3 ItemModel ItemSpec ItemProofs ItemProofs2 ItemProofs3.
Import ListNotations.
Notation length := List.length.
Open Scope list_scope.

Definition item (s : string) := handle_item aw alower (lit s).

Definition list_text : str := lit "\item[ (i) ] one \begin{itemize}\item a\end{itemize} two \items \item three".
Lemma list_plain : plain_ends aw list_text.
Proof.
  intros p x r E.
  assert (K : forall n, n <= 75 -> startswith (skipn n list_text) (lit "\end") = true -> n = 39).
  { intros n Hn. do 76 (destruct n; [intros H; vm_compute in H; first [discriminate H|lia]|]). lia. }
  assert (L : length list_text = length p + 5 + length r) by (rewrite E, !app_length; cbn; lia). vm_compute (length list_text) in L.
  assert (Hp : length p = 39); [apply K; [lia|]|].
  - apply startswith_iff. exists (x :: r). rewrite E, skipn_app_exact by reflexivity. reflexivity.
  - assert (S : skipn (length p) list_text = lit "\end" ++ x :: r) by (rewrite E, skipn_app_exact by reflexivity; reflexivity).
    rewrite Hp in S. vm_compute in S. injection S as <- _. split; [reflexivity|discriminate].
Qed.
Lemma not_item_slash : forall s, starts_with (N.eqb c_bs) s = false -> ~ item_here aw s /\ ~ opens_here aw s.
Proof.
  intros [|x s] H; (split; [intros (r & E & _)|intros [(ws & nm & r & _ & _ & E)|(short & r & E & _)]; [|destruct short]]; try discriminate E; injection E as E _; subst x; discriminate H).
Qed.
Ltac no_open := first [apply not_item_slash; reflexivity|
  split; [intros (r & E & B); first [discriminate E|injection E as E; subst r; discriminate B]|intros [(ws & nm & r & _ & _ & E)|(short & r & E & _)]; [|destruct short]; discriminate E]].
Lemma list_item : item_ends aw list_text 13 64.
Proof.
  remember (skipn 17 list_text) as tail eqn:Et.
  destruct (fmeb_spec tail (lit "itemize") 0) as [(i & j & a & b & F & C & X)|[_ X]]; [|rewrite Et in X; vm_compute in X; discriminate X].
  assert (Y : find_matching_env_block tail (lit "itemize") 0 = Some (0, 35, lit "\item a")) by (rewrite Et; vm_compute; reflexivity).
  rewrite X in Y. cbn [skipn plus] in *. injection Y as E1 E2 _. subst i b.
  assert (j = 15) as ->.
  { destruct F as (_ & F & _). eapply marker_fun; [exact F|]. exists [], (skipn 32 list_text). split; [reflexivity|]. split; [rewrite Et|]; reflexivity. }
  rewrite Et in C. eapply (ie_block aw list_text 13 17 35).
  - lia.
  - left. exists [], (lit "itemize"), (skipn 32 list_text). split; [reflexivity|]. split; [vm_compute; intuition discriminate|reflexivity].
  - eapply bk_env with (ws := []) (name := lit "itemize"); [reflexivity|vm_compute; intuition discriminate|reflexivity| |exact C]. reflexivity.
  - intros i Hi. assert (H : i = 13 \/ i = 14 \/ i = 15 \/ i = 16) by lia. destruct H as [->|[->|[->| ->]]]; no_open.
  - apply ie_item; [lia|exists (lit " three"); split; reflexivity|].
    intros i Hi. assert (H : i = 52 \/ i = 53 \/ i = 54 \/ i = 55 \/ i = 56 \/ i = 57 \/ i = 58 \/ i = 59 \/ i = 60 \/ i = 61 \/ i = 62 \/ i = 63) by lia.
    repeat (destruct H as [->|H]; [no_open|]). subst i. no_open.
Qed.
Lemma list_head : item_head (skipn 5 list_text) (Some (lit " (i) ")) 8.
Proof. refine (ih_title [] (lit " (i) ") [c_sp] (skipn 13 list_text) eq_refl _ eq_refl eq_refl). vm_compute; intuition discriminate. Qed.
Lemma list_result : exists t, item "\item[ (i) ] one \begin{itemize}\item a\end{itemize} two \items \item three" = IOut (Some t) 64 /\
  it_content t = lit "one \begin{itemize}\item a\end{itemize} two \items" /\ it_title t = Some (lit "(i)").
Proof. eexists. split; [vm_compute; reflexivity|]. split; reflexivity. Qed.

(** a leading bracket group of the body is lost *)
Lemma interval_lost : item "\item[(i)] [0,1] is compact" = IOut (Some {| it_content := lit " is compact"; it_title := Some (lit "(i)") |}) 27.
Proof. vm_compute. reflexivity. Qed.
(** the title ends at the first closing bracket *)
Lemma title_cut : item "\item[{[1]}] text" = IOut (Some {| it_content := lit "}] text"; it_title := Some (lit "{[1") |}) 17.
Proof. vm_compute. reflexivity. Qed.
(** an unclosed group lets the next item inside *)
Lemma unclosed_group : item "\item a \bgroup b \item c" = IOut (Some {| it_content := lit "a \bgroup b"; it_title := None |}) 18 /\
  item "\item a \begin{x}u\end{x} \bgroup \begin{y}\item b\end{y} \item c" = IOut (Some {| it_content := lit "a \begin{x}u\end{x}"; it_title := None |}) 25.
Proof. split; vm_compute; reflexivity. Qed.

(** * for loops *)
Lemma forloop_exact : forall ws g bs n, blank ws -> starts_with (N.eqb c_lb) g = true -> groups_at c_lb c_rb g bs n -> length bs = 4 ->
  handle_for (lit "\forloop" ++ ws ++ g) = 8 + length ws + n.
Proof.
  intros ws g bs n W S G L. destruct g as [|x g]; [discriminate S|]. cbn [starts_with] in S. apply N.eqb_eq in S. subst x.
  assert (M : re_match_at FORLOOP (lit "\forloop" ++ ws ++ c_lb :: g) 0 = Some {| m_start := 0; m_end := S (8 + length ws); m_caps := [] |}).
  { apply fm_match. unfold FORLOOP. eapply fm_seq; [eapply (fm_rstr (lit "\forloop") _ 0); reflexivity|].
    eapply fm_seq; [eapply (fm_star isspace _ _ [] ws (c_lb :: g)); [reflexivity|exact W|reflexivity]|].
    eapply fm_is_ch. apply skipn_more. reflexivity. }
  unfold handle_for. rewrite M. unfold for_blocks. cbn [m_end]. replace (S (8 + length ws) - 1) with (8 + length ws) by lia.
  assert (K : skipn (8 + length ws) (lit "\forloop" ++ ws ++ c_lb :: g) = c_lb :: g) by (change 8 with (length (lit "\forloop")); apply skipn_more; reflexivity).
  rewrite K, <- L, (blocks_exact c_lb c_rb _ bs n delims_curly G). reflexivity.
Qed.
Lemma for_other : forall text, (forall r, text <> lit "\forloop" ++ r) -> (forall r, text <> lit "\foreach" ++ r) -> handle_for text = 0.
Proof.
  intros text H1 H2. unfold handle_for. rewrite (match_none_rel FORLOOP text), (match_none_rel FOREACH text); [reflexivity| |];
    intros j R; unfold FORLOOP, FOREACH in R; apply rel_rseq2 in R as (k1 & R1 & R); apply rel_rstr in R1 as (_ & r & E); cbn [skipn] in E; [apply (H2 r)|apply (H1 r)]; exact E.
Qed.
Definition left_over (s : string) : str := skipn (handle_for (lit s)) (lit s).
Lemma foreach_eats : left_over "\foreach \x in {1,2}{a} The \textbf{main} result" = lit " result".
Proof. vm_compute. reflexivity. Qed.
Lemma foreach_leaks : left_over "\foreach \x in {1,2}{\draw {a} b;} c" = lit " b;} c".
Proof. vm_compute. reflexivity. Qed.
Lemma foreach_next : left_over "\foreach \x in {1,2}
{a}
{Next} text" = lit " text".
Proof. vm_compute. reflexivity. Qed.
Lemma forloop_step : handle_for (lit "\forloop[2]{i}{0}{\value{i}<9}{x}") = 0.
Proof. vm_compute. reflexivity. Qed.
