(** Cases for C81-C84. *)
From Coq Require Import List NArith ZArith PeanoNat Lia Bool String.
From Verif Require Import PyStr Regex RegexLemmas RegexHead Json TexUtilsModel TextModel DelimSpec DelimProofs DelimProofs2 DelimFinal CommandModel CommandSpec CommandProofs CommandCases TableCases EtoolModel EtoolSpec EtoolProofs EtoolProofs2 BuilderModel BuilderSample FactoryModel FactoryProofs IfModel IfSpec IfProofs IfProofs2 IfProofs3 IfHandlerModel IfHandlerSpec IfHandlerProofs IfHandlerProofs2 IfHandlerProofs3 IfHandlerProofs4 IfHandlerProofs5 IfHandlerProofs6.
Import ListNotations. Notation length := List.length. Notation concat := List.concat. Open Scope list_scope.

(** * what the parser goes on with *)
Lemma after_cond : forall csname pre ifs (head rest : str) t, handle csname ifs (head ++ rest) = Ok (Some t, length head) -> head <> [] -> (pre = true -> contains (lit "@") (ct_type t) = false) ->
  expand_if csname pre ifs (head ++ rest) = Ok (Some (ct_if t ++ rest)).
Proof.
  intros csname pre ifs head rest t H N C. unfold expand_if. unfold str in *. rewrite H. destruct head as [|x head]; [congruence|]. cbn [List.length Nat.eqb].
  replace (pre && contains (lit "@") (ct_type t)) with false by (destruct pre; [rewrite C; reflexivity|reflexivity]). change (S (length head)) with (length (x :: head)). rewrite skipn_app, skipn_all, Nat.sub_diag. reflexivity.
Qed.
Theorem expanded_else : forall csname names name b0 b1 rest, Forall word names -> plain_name name -> branch b0 -> branch b1 ->
  heading names name (render (b0 ++ Else (lit "\else") :: b1 ++ Close (lit "\fi") :: rest)) -> fits names (b0 ++ Else (lit "\else") :: b1 ++ Close (lit "\fi") :: rest) ->
  expand_if csname false (declared_ifs names) (lit "\if" ++ name ++ render b0 ++ lit "\else" ++ render b1 ++ lit "\fi" ++ render rest) =
    Ok (Some (chosen name (strip (render b0)) (strip (render b1)) ++ render rest)).
Proof.
  intros csname names name b0 b1 rest W P B0 B1 H F. destruct (handled_else csname names name b0 b1 rest W P B0 B1 H F) as (kind & _ & E).
  replace (lit "\if" ++ name ++ render b0 ++ lit "\else" ++ render b1 ++ lit "\fi" ++ render rest) with ((lit "\if" ++ name ++ render b0 ++ lit "\else" ++ render b1 ++ lit "\fi") ++ render rest) by (repeat rewrite <- app_assoc; reflexivity).
  rewrite (after_cond csname false _ _ _ (mk_cond kind name (chosen name (strip (render b0)) (strip (render b1))) (chosen name (strip (render b1)) (strip (render b0))) [])); [reflexivity| |discriminate|discriminate].
  replace ((lit "\if" ++ name ++ render b0 ++ lit "\else" ++ render b1 ++ lit "\fi") ++ render rest) with (lit "\if" ++ name ++ render (b0 ++ Else (lit "\else") :: b1 ++ Close (lit "\fi") :: rest)).
  - exact E.
  - rewrite !render_app, !render_cons, !render_app, render_cons. cbn [item_text]. repeat rewrite <- app_assoc. reflexivity.
Qed.
(** * C81: the value of the boolean is not used, and the token is dropped *)
Lemma cond_dropped : forall validate table_cell name a b neg, factory_create validate table_cell (VDict (conditional name a b neg)) = Ok VNone.
Proof. intros. apply create_dropped. exists (conditional name a b neg). split; [reflexivity|]. cbn [lookup conditional]. right. vm_compute. intuition discriminate. Qed.

Theorem etool_conditional : forall validate table_cell text name rest a b n, groups_at c_lb c_rb rest [a; b] n -> command_arg "\ifbool" text name rest ->
  (forall d d', snd (etool_handle d text) = snd (etool_handle d' text)) /\
  exists t e, (forall d, etool_handle d text = (d, (Some t, e))) /\ factory_create validate table_cell (VDict t) = Ok VNone.
Proof.
  intros validate table_cell text name rest a b n G C. split.
  - intros d d'. rewrite (proj1 (conditionals d text name rest a b n G) C), (proj1 (conditionals d' text name rest a b n G) C). reflexivity.
  - exists (conditional name a b false), (length text - length rest + n). split; [intros d; exact (proj1 (conditionals d text name rest a b n G) C)|apply cond_dropped].
Qed.
Lemma etool_case : groups_at c_lb c_rb (lit "{yes}{no} x") [lit "yes"; lit "no"] 9 /\ command_arg "\ifbool" (lit "\ifbool{draft}{yes}{no} x") (lit "draft") (lit "{yes}{no} x").
Proof.
  split.
  - replace 9 with (5 + (4 + 0)) by reflexivity. constructor; [apply (extract_nested_content_iff c_lb c_rb _ _ _ delims_curly); vm_compute; reflexivity|].
    constructor; [apply (extract_nested_content_iff c_lb c_rb _ _ _ delims_curly); vm_compute; reflexivity|constructor].
  - exists []. split; [reflexivity|]. split; [reflexivity|]. vm_compute. intuition discriminate.
Qed.
(** * a text that fits *)
Definition quietb (s rest : str) : bool := forallb (fun j => forallb (fun p => negb (startswith (skipn j s ++ rest) p)) commands_apart) (seq 0 (length s)).
Lemma quiet_ok : forall s rest, quietb s rest = true -> quiet_text s rest.
Proof.
  intros s rest H a b p r E N I X. unfold quietb in H. rewrite forallb_forall in H.
  assert (L : length a < length s) by (rewrite E, app_length; destruct b; [congruence|cbn [List.length]; lia]).
  specialize (H (length a)). rewrite forallb_forall in H. assert (Q : In (length a) (seq 0 (length s))) by (apply List.in_seq; lia). specialize (H Q p I).
  assert (Sk : skipn (length a) s = b) by (rewrite E, skipn_app, skipn_all, Nat.sub_diag; reflexivity). unfold str in *. rewrite Sk, X, startswith_app in H. discriminate H.
Qed.
Definition prefixb (p s : str) : bool := startswith s p.
Lemma no_prefix : forall p s r : str, startswith s p = false -> s <> p ++ r.
Proof. intros p s r H ->. rewrite startswith_app in H. discriminate H. Qed.
Definition ex_names : list str := [lit "draft"].
Definition ex_b0 : list item := [Txt (lit " A "); Open (lit "\iftrue"); Txt (lit " B"); Close (lit "\fi"); Txt (lit " x")].
Definition ex_b1 : list item := [Txt (lit " C")].
Definition ex_rest : list item := [Txt (lit " D")].
Definition ex_all : list item := ex_b0 ++ Else (lit "\else") :: ex_b1 ++ Close (lit "\fi") :: ex_rest.
Lemma ex_words : Forall word ex_names.
Proof. apply Forall_cons; [apply (word_check _ (lit "draf") 116%N); reflexivity|apply Forall_nil]. Qed.
Lemma ex_heading : heading ex_names (lit "draft") (render ex_all).
Proof.
  apply hd_declared; [left; reflexivity|exact (Forall_inv ex_words)| |].
  - intros x q E H. vm_compute in E. injection E as <- _. apply name_ch_spec in H. discriminate H.
  - intros n r [<-|[]] N. congruence.
Qed.
Lemma true_heading : forall x q, isspace x = true -> heading ex_names (lit "true") (x :: q).
Proof.
  intros x q Hx. apply (hd_general _ _ _ x q).
  - apply (word_check _ (lit "tru") 101%N); reflexivity.
  - cbn. lia.
  - reflexivity.
  - left. exact Hx.
  - intros p r I. apply no_prefix. revert p I. apply Forall_forall. vm_compute. repeat constructor.
  - intros n r [<-|[]]. apply no_prefix. reflexivity.
Qed.
Lemma ex_fits : fits ex_names ex_all.
Proof.
  unfold ex_all, ex_b0, ex_b1, ex_rest. cbn [List.app].
  apply fi_txt; [apply quiet_ok; vm_compute; reflexivity|]. change (lit "\iftrue") with (lit "\if" ++ lit "true"). apply fi_open; [apply true_heading; reflexivity|].
  apply fi_txt; [apply quiet_ok; vm_compute; reflexivity|]. apply fi_close; [reflexivity|]. apply fi_txt; [apply quiet_ok; vm_compute; reflexivity|]. apply fi_else; [reflexivity|].
  apply fi_txt; [apply quiet_ok; vm_compute; reflexivity|]. apply fi_close; [reflexivity|]. apply fi_txt; [apply quiet_ok; vm_compute; reflexivity|]. apply fi_nil.
Qed.
Lemma ex_branches : branch ex_b0 /\ branch ex_b1.
Proof. split; [apply b_txt; exact (b_if false _ _ [Txt (lit " B")] [Txt (lit " x")] (b_txt _ _ _ (b_nil _)) (b_txt _ _ _ (b_nil _)))|apply b_txt, b_nil]. Qed.
Lemma ex_plain : plain_name (lit "draft").
Proof. intros r. split; apply no_prefix; reflexivity. Qed.
Definition nocs (s : str) : str * nat := ([], 0).
Lemma ex_run : expand_if nocs false (declared_ifs ex_names) (lit "\ifdraft A \iftrue B\fi x\else C\fi D") = Ok (Some (lit "A \iftrue B\fi x D")).
Proof. vm_compute. reflexivity. Qed.
Lemma false_plain : plain_name (lit "false").
Proof. intros r. split; apply no_prefix; reflexivity. Qed.
Lemma ex_false : expand_if nocs false default_ifs (lit "\iffalse A\else B\fi C") = Ok (Some (lit "B C")).
Proof. vm_compute. reflexivity. Qed.
(** an unclosed one *)
Lemma ex_open_fits : fits ex_names ([Txt (lit " A"); Else (lit "\else")] ++ [Txt (lit " B")]) /\ heading ex_names (lit "draft") (render ([Txt (lit " A"); Else (lit "\else")] ++ [Txt (lit " B")])).
Proof.
  split.
  - cbn [List.app]. apply fi_txt; [apply quiet_ok; vm_compute; reflexivity|]. apply fi_else; [reflexivity|]. apply fi_txt; [apply quiet_ok; vm_compute; reflexivity|]. apply fi_nil.
  - apply hd_declared; [left; reflexivity|exact (Forall_inv ex_words)| |].
    + intros x q E H. vm_compute in E. injection E as <- _. apply name_ch_spec in H. discriminate H.
    + intros n r [<-|[]] N. congruence.
Qed.
(** * C82 *)
Lemma brace_case : groups_upto 3 (lit " {x}{a {y}} {b} d") [lit "x"; lit "a {y}"; lit "b"] 15.
Proof.
  split; [|split; [cbn; lia|cbn; lia]].
  replace 15 with (4 + (7 + (4 + 0))) by reflexivity.
  constructor; [apply (extract_nested_content_iff c_lb c_rb _ _ _ delims_curly); vm_compute; reflexivity|].
  constructor; [apply (extract_nested_content_iff c_lb c_rb _ _ _ delims_curly); vm_compute; reflexivity|].
  constructor; [apply (extract_nested_content_iff c_lb c_rb _ _ _ delims_curly); vm_compute; reflexivity|constructor].
Qed.
Theorem atif_pre : forall csname names name c bs rest p, In name at_commands -> groups_upto 3 rest (c :: bs) p ->
  expand_if csname false (declared_ifs names) (c_bs :: lit name ++ rest) = Ok (Some (nth 0 bs [] ++ skipn p rest)) /\
  expand_if csname true (declared_ifs names) (c_bs :: lit name ++ rest) = Ok (Some (skipn p rest)).
Proof.
  intros csname names name c bs rest p I G. unfold expand_if. rewrite (atif_ok csname names name c bs rest p I G). cbn [Nat.add Nat.eqb]. cbv zeta.
  assert (Sk : skipn (S (length (lit name) + p)) (c_bs :: lit name ++ rest) = skipn p rest).
  { cbn [skipn]. rewrite <- skipn_add, skipn_app, skipn_all, Nat.sub_diag. reflexivity. }
  unfold str in *. rewrite Sk. cbn [ct_type mk_cond ct_if andb]. split; [reflexivity|].
  destruct I as [<-|[<-|[<-|[]]]]; reflexivity.
Qed.
Lemma undefined_case : expand_if nocs true default_ifs (lit "\@ifundefined{foo}{A}{B} C") = Ok (Some (lit " C")) /\ expand_if nocs false default_ifs (lit "\@ifundefined{foo}{A}{B} C") = Ok (Some (lit "A C")).
Proof. vm_compute. split; reflexivity. Qed.
Lemma brace_refuted : handle nocs default_ifs (lit "\IfFileExists{a.tex}{A}{B} rest") = Ok (None, 0) /\
  expand_if nocs false default_ifs (lit "\IfFileExists{a.tex}{A}{B} rest\fi x") = Ok (Some (lit "a.tex}{A}{B} rest x")) /\
  handle nocs default_ifs (lit "\ifthenelse{a}{b} d") = Raise ValueError.
Proof. vm_compute. repeat split; reflexivity. Qed.
(** * C83, C84 *)
Lemma undefined_same : exists t, handle nocs default_ifs (lit "\ifundefined{foo}A\else B\fi C") = Ok (Some t, 28) /\ handle nocs default_ifs (lit "\ifdefined{foo}A\else B\fi C") = Ok (Some t, 26).
Proof. eexists. split; vm_compute; reflexivity. Qed.
Lemma text_lost : expand_if nocs false default_ifs (lit "\iftrue(A) x\else B\fi C") = Ok (Some (lit "x C")) /\
  expand_if nocs false default_ifs (lit "\ifxetex A\else B\fi C") = Ok (Some (lit " C")) /\
  expand_if nocs false default_ifs (lit "\iftrue \orcid{0} x\else y\fi C") = Ok (Some (lit " C")) /\
  expand_if nocs false default_ifs (lit "\iftrue $a\iff b$\else y\fi C") = Ok None /\
  expand_if nocs false default_ifs (lit "\iftrue A\ifbool{x}{y}{z}\else B\fi C") = Ok None.
Proof. vm_compute. repeat split; reflexivity. Qed.
Lemma prefix_name : expand_if nocs false (declared_ifs [lit "a"]) (lit "\ifab X\else Y\fi Z") = Ok (Some (lit "b X Z")) /\
  expand_if nocs false (declared_ifs [lit "ab"; lit "a"]) (lit "\ifab X\else Y\fi Z") = Ok (Some (lit "X Z")).
Proof. vm_compute. repeat split; reflexivity. Qed.
