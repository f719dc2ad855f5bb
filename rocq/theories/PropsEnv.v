(** Properties C67 and C68: environments (parser/handlers/environment.py).
    Specification vocabulary: EnvHandlerSpec.v, EnvSpec.v, DelimSpec.v;
    [group_patterns], [group_word], [is_group_token] in EnvHandlerCases.v. *)
From Coq Require Import List NArith PeanoNat Bool String Lia.
From Verif Require Import PyStr Regex DelimSpec EnvModel EnvSpec SubstModel EnvHandlerModel EnvHandlerSpec EnvHandlerProofs EnvHandlerProofs2 EnvHandlerNames EnvHandlerCases.
Import ListNotations.
Notation length := List.length.
Open Scope list_scope.

(** * C67 *)
(** \begin{name} with its closing \end{name}: exactly the environment is
    consumed, and the token reports it (kind, number, title, arguments, text). *)
Theorem C67_environment_partial : forall w lower isalpha st text ws name rest j s e,
  text = lit "\begin" ++ ws ++ [c_lb] ++ name ++ [c_rb] ++ rest -> blank ws -> ~ In c_rb name -> strip name = name -> name <> lit "comment" ->
  j = 6 + length ws + length name + 2 -> closed_at name text j s e -> unknown name (es_envs st) ->
  exists t, handle w lower isalpha st text = (st, Out (Some t) e) /\ describes lower st name (strip (slice j s text)) t.
Proof. exact regular_env. Qed.
Print Assumptions C67_environment_partial.
(** comment environments vanish *)
Theorem C67_comment : forall w lower isalpha st text ws rest j s e,
  text = lit "\begin" ++ ws ++ [c_lb] ++ lit "comment" ++ [c_rb] ++ rest -> blank ws ->
  j = 6 + length ws + 7 + 2 -> closed_at (lit "comment") text j s e ->
  handle w lower isalpha st text = (st, Out None e).
Proof. exact env_comment. Qed.
Print Assumptions C67_comment.
(** without a closing \end only the \begin is consumed; the text after it is left to be parsed *)
Theorem C67_unclosed : forall w lower isalpha st text ws name rest j,
  text = lit "\begin" ++ ws ++ [c_lb] ++ name ++ [c_rb] ++ rest -> blank ws -> ~ In c_rb name -> strip name = name -> name <> lit "comment" ->
  j = 6 + length ws + length name + 2 -> (forall s e, ~ closed_at name text j s e) -> unknown name (es_envs st) ->
  exists t, handle w lower isalpha st text = (st, Out (Some t) j) /\ describes lower st name [] t /\ et_content t = [] /\ skipn j text = rest.
Proof. exact regular_unclosed. Qed.
Print Assumptions C67_unclosed.
(** \begingroup...\endgroup and \bgroup...\egroup *)
Theorem C67_group : forall w lower isalpha st short rest, w 112%N = true -> (match rest with x :: _ => w x | [] => false end) = false ->
  let text := group_word short ++ rest in pair_match w text = None ->
  (exists t s e, pclosed_at (fst (group_patterns w short)) (snd (group_patterns w short)) text (length (group_word short)) s e /\
     handle w lower isalpha st text = (st, Out (Some t) e) /\ is_group_token t (slice (length (group_word short)) s text)) \/
  ((forall s e, ~ pclosed_at (fst (group_patterns w short)) (snd (group_patterns w short)) text (length (group_word short)) s e) /\
     handle w lower isalpha st text = (st, Out None 0)).
Proof. exact group_handled. Qed.
Print Assumptions C67_group.
(** whatever the text: the position is inside it, and nothing is reported or changed without consuming text *)
Theorem C67_position : forall w lower isalpha st text st' t p, handle w lower isalpha st text = (st', Out t p) ->
  p <= length text /\ (p = 0 -> t = None /\ st' = st).
Proof. exact position. Qed.
Print Assumptions C67_position.
Example C67_case : hd0 env_clear "\begin{theorem}[T] x \begin {theorem}y\end{theorem} \end{theorem} z" =
  (env_clear, Out (Some (mk "math_env" "theorem" true (Some "T"%string) [] " x \begin {theorem}y\end{theorem}")) 65).
Proof. exact sample_theorem. Qed.
Example C67_case_args : hd0 env_clear "\begin{minipage}[t]{3cm} x\end{minipage}" = (env_clear, Out (Some (mk "group" "minipage" false None ["3cm"%string] " x")) 40).
Proof. exact sample_minipage. Qed.
Example C67_case_group : hd0 env_clear "\begingroup a\bgroup b\egroup\begingroup c\endgroup\endgroup d" =
  (env_clear, Out (Some (mk "group" "group" false None [] " a\bgroup b\egroup\begingroup c\endgroup")) 60).
Proof. vm_compute. reflexivity. Qed.
Example C67_case_unclosed : hd0 env_clear "\begin{quote}abc\end{quot}" = (env_clear, Out (Some (mk "quote" "quote" false None [] "")) 13).
Proof. vm_compute. reflexivity. Qed.
(** the name that is shown: after any declarations, the last \floatname or
    \newtheorem of the environment decides, and without one its own name *)
Theorem C67_names : forall w lower isalpha h ws name rest j s e text,
  text = lit "\begin" ++ ws ++ [c_lb] ++ name ++ [c_rb] ++ rest -> blank ws -> ~ In c_rb name -> ~ In 42%N name -> strip name = name -> name <> lit "comment" ->
  j = 6 + length ws + length name + 2 -> closed_at name text j s e ->
  exists t, handle w lower isalpha (declared h) text = (declared h, Out (Some t) e) /\
    (forall h1 h2 u, (forall v, ~ In (NewTheorem name v) h) -> h = h1 ++ FloatName name u :: h2 -> (forall v, ~ In (FloatName name v) h2) -> et_name t = u) /\
    (forall h1 h2 u, h = h1 ++ NewTheorem name u :: h2 -> (forall v, ~ In (NewTheorem name v) h2) -> (forall v, ~ In (FloatName u v) h) -> et_name t = u) /\
    ((forall v, ~ In (NewTheorem name v) h) -> (forall v, ~ In (FloatName name v) h) -> et_name t = name).
Proof. exact names_shown. Qed.
Print Assumptions C67_names.
Example C67_names_case : let h := [FloatName (lit "program") (lit "Prog"); NewTheorem (lit "thm") (lit "Theorem"); FloatName (lit "program") (lit "Program")] in
  (forall v, ~ In (NewTheorem (lit "program") v) h) /\ h = [FloatName (lit "program") (lit "Prog"); NewTheorem (lit "thm") (lit "Theorem")] ++ FloatName (lit "program") (lit "Program") :: [] /\ (forall v, ~ In (FloatName (lit "program") v) []).
Proof. exact names_case. Qed.
(** False: text in brackets at the beginning of an environment that has no
    optional argument is lost. *)
Theorem C67_bracket_text_refuted : hd0 env_clear "\begin{quote}[1] says so\end{quote}" = (env_clear, Out (Some (mk "quote" "quote" false None [] " says so")) 35).
Proof. exact bracket_lost. Qed.
Print Assumptions C67_bracket_text_refuted.
(** False: a \newtheorem environment with an own title is neither a math
    environment nor numbered. *)
Theorem C67_own_title_refuted : handle aw alower aal (process_newtheorem env_clear (lit "thm") (lit "Main Result")) (lit "\begin{thm}x\end{thm}") =
  (process_newtheorem env_clear (lit "thm") (lit "Main Result"), Out (Some (mk "environment" "Main Result" false None [] "x")) 21).
Proof. exact title_unnumbered. Qed.
Print Assumptions C67_own_title_refuted.
(** False for \name...\endname: a longer command that begins with the same
    letters makes the whole text disappear. *)
Theorem C67_pair_refuted : hd0 env_clear "\center\centering x\endcenter y" = (env_clear, Out (Some (mk "group" "center" false None [] "")) 29).
Proof. exact pair_lost. Qed.
Print Assumptions C67_pair_refuted.
(** False with blanks in the name: a later environment is taken, the text
    before it is lost. *)
Theorem C67_blank_name_refuted : hd0 env_clear "\begin{ a }x\end{ a } text \begin{a}z\end{a}" = (env_clear, Out (Some (mk "environment" "a" false None [] "z")) 44).
Proof. exact blank_name_lost. Qed.
Print Assumptions C67_blank_name_refuted.
(** and some texts raise an exception *)
Theorem C67_raises_refuted : hd0 env_clear "\beginx y\endbeginx" = (env_clear, Raises).
Proof. exact begin_raises. Qed.
Print Assumptions C67_raises_refuted.

(** * C68 *)
(** \newenvironment{name}[n][default]...{begin}{end} is consumed exactly and is
    from then on the definition of that name. *)
Theorem C68_define : forall w lower isalpha st s rest d, source_means s rest d ->
  handle w lower isalpha st (env_source_text s ++ rest) =
    ({| es_theorems := es_theorems st; es_floats := es_floats st; es_envs := (sc_name s, d) :: es_envs st |}, Out None (length (env_source_text s))).
Proof. exact define_env. Qed.
Print Assumptions C68_define.
(** A use of a defined environment: begin part with the arguments, text, end part with the arguments. *)
Theorem C68_use_partial : forall w lower isalpha st text ws name rest j s e d,
  text = lit "\begin" ++ ws ++ [c_lb] ++ name ++ [c_rb] ++ rest -> blank ws -> ~ In c_rb name -> strip name = name -> name <> lit "comment" ->
  j = 6 + length ws + length name + 2 -> closed_at name text j s e -> newest name (es_envs st) d ->
  exists oargs body1 rargs body2,
    opt_args_read (ed_opts d) (strip (slice j s text)) oargs body1 /\
    req_args_read (ed_num d - length (ed_opts d)) body1 rargs body2 /\
    exists t, handle w lower isalpha st text = (st, Out (Some t) e) /\ et_name t = name /\ kind_is (lower name) (et_type t) /\
      et_numbered t = false /\ et_title t = None /\ et_args t = [] /\
      et_content t = substitute_args isalpha (ed_begin d) (oargs ++ rargs) false ++ [c_nl] ++ body2 ++ [c_nl] ++
        substitute_args isalpha (ed_end d) (oargs ++ rargs) false.
Proof. exact user_env. Qed.
Print Assumptions C68_use_partial.
(** the arguments are determined by the text *)
Theorem C68_arguments_unique : 
  (forall ds t a1 r1, opt_args_read ds t a1 r1 -> forall a2 r2, opt_args_read ds t a2 r2 -> a1 = a2 /\ r1 = r2) /\
  (forall n t a1 r1, req_args_read n t a1 r1 -> forall a2 r2, req_args_read n t a2 r2 -> a1 = a2 /\ r1 = r2).
Proof. split; [exact opt_read_fun|exact req_read_fun]. Qed.
Print Assumptions C68_arguments_unique.
Example C68_case_source : source_means src_foo (lit " tail") def_foo /\ env_source_text src_foo = lit "\newenvironment{foo}[2][d]{<#1|#2>} {</>}".
Proof. split; [exact src_foo_means|reflexivity]. Qed.
Example C68_case : hd0 st_foo "\begin{foo}[x]{y}z\end{foo}" = (st_foo, Out (Some (mk "environment" "foo" false None [] ("<x|y>" ++ String (Ascii.ascii_of_nat 10) ("z" ++ String (Ascii.ascii_of_nat 10) "</>")))) 27).
Proof. exact sample_foo. Qed.
Example C68_case_default : hd0 st_foo "\begin{foo}{y}z\end{foo}" = (st_foo, Out (Some (mk "environment" "foo" false None [] ("<d|y>" ++ String (Ascii.ascii_of_nat 10) ("z" ++ String (Ascii.ascii_of_nat 10) "</>")))) 24).
Proof. exact sample_foo_default. Qed.
(** False with a blank between arguments (TeX skips it). *)
Theorem C68_blank_refuted : hd0 st_foo "\begin{foo}[x] {y}z\end{foo}" = (st_foo, Out (Some (mk "environment" "foo" false None [] ("<x|>" ++ String (Ascii.ascii_of_nat 10) (" {y}z" ++ String (Ascii.ascii_of_nat 10) "</>")))) 28).
Proof. exact foo_blank. Qed.
Print Assumptions C68_blank_refuted.
(** False: \provideenvironment replaces an existing definition. *)
Theorem C68_provide_refuted : exists d, dget (lit "foo") (es_envs (fst (hd0 st_foo "\provideenvironment{foo}{a}{b}"))) = Some d /\ dget (lit "foo") (es_envs st_foo) = Some def_foo /\ d <> def_foo.
Proof. exact provide_overrides. Qed.
Print Assumptions C68_provide_refuted.
