(** The statements of PropsParse.v that need a little more than ParseCases.v. *)
From Coq Require Import List NArith ZArith PeanoNat Lia Bool String.
From Verif Require Import PyStr Regex RegexLemmas RegexHead TexUtilsModel EnvModel DelimSpec DelimProofs Json BuilderModel TokensModel ContentSpec ContentProofs2 ContentProofs3 CommandModel CommandSpec CommandProofs CommandProofs5 CommandCases ParseModel ParseSpec ParseProofs ParseWeight ParseCore ParseCases.
Import ListNotations. Notation length := List.length. Notation concat := List.concat. Open Scope list_scope.

Lemma group_diverges' : forall St expand user_command define if_else legacy before after process on_label isword is_env is_new on_env on_new doc rest s o,
  strip_latex_comments doc = lit "\begingroup" ++ rest ->
  (forall p q, rest <> p ++ lit "\endgroup" ++ q) ->
  isword 112%N = true -> (forall x r, rest = x :: r -> isword x = false) ->
  let t := lit "\begingroup" ++ rest in
  user_command s t = Ok None -> define s t = Ok (s, 0%Z) -> if_else s t = Ok None -> legacy s t = Ok None ->
  Forall (fun h => h_can h s t = false) before -> is_env s t = false -> is_new s t = false ->
  forall fuel, parse St expand user_command define if_else legacy (before ++ environments St isword is_env is_new on_env on_new :: after) process on_label fuel o s doc = None.
Proof. intros. eapply group_diverges; eassumption. Qed.
Lemma group_case : forall isalnum ifs ew fuel, core_parse isalnum ifs ew fuel empty (lit "\begingroup A paper.") = None.
Proof.
  intros isalnum ifs ew fuel. unfold core_parse, core_handlers.
  apply (group_diverges' cstate _ _ _ _ _ [overpic cstate; tikz cstate] [] core_process core_label letter _ _ _ _ _ (lit " A paper.")).
  - vm_compute. reflexivity.
  - intros p q E. assert (C : In c_bs (lit " A paper.")). { rewrite E. apply in_or_app. right. apply in_or_app. left. left. reflexivity. }
    cbn in C. repeat (destruct C as [C|C]; [discriminate C|]). exact C.
  - reflexivity.
  - intros x r E. injection E as <- _. reflexivity.
  - vm_compute. reflexivity.
  - vm_compute. reflexivity.
  - reflexivity.
  - reflexivity.
  - repeat constructor.
  - reflexivity.
  - reflexivity.
Qed.
Lemma unknown_lost : forall isalnum ifs ew fuel,
  core_parse isalnum ifs ew (3 + fuel) empty (lit "A paper. \foo{bar") = Some (Raise TypeError) /\
  parse_file_result cstate (core_expand isalnum ew) core_user (core_define isalnum ifs ew) none_of none_of core_handlers core_process core_label (3 + fuel) empty (lit "A paper. \foo{bar") = Some [].
Proof.
  intros isalnum ifs ew fuel. pose proof (unknown_unclosed isalnum ifs ew fuel) as H. split; [exact H|]. unfold parse_file_result. unfold core_parse in H. rewrite H. reflexivity.
Qed.
Lemma group_spacing : forall isalnum ifs ew fuel,
  core_parse isalnum ifs ew (6 + fuel) empty (lit "two {words} here") = Some (Ok (empty, [text_token (lit "twowords here")])) /\
  core_parse isalnum ifs ew (6 + fuel) empty (lit "two words here") = Some (Ok (empty, [text_token (lit "two words here")])).
Proof. intros isalnum ifs ew fuel. split; [apply group_glues|]. unfold core_parse, parse. cbn [loop Nat.add]. vm_compute. reflexivity. Qed.
Lemma plain_case : forall isalnum ifs ew, core_parse isalnum ifs ew 1 empty (lit "  Hello, [world] (1)!") = Some (Ok (empty, [text_token (lit "Hello, [world] (1)!")])).
Proof. intros. vm_compute. reflexivity. Qed.

Lemma unknown_closed : forall St expand (s : St) name arg rest x, word name -> good_body arg -> expand s ([c_bs] ++ name ++ [c_lb] ++ arg ++ [c_rb]) = Ok x ->
  exists tok, check_unknown St expand s ([c_bs] ++ name ++ [c_lb] ++ arg ++ [c_rb] ++ rest) = Ok (Some (tok, length name + length arg + 3)).
Proof.
  intros St expand s name arg rest x W B E. unfold check_unknown.
  set (t := [c_bs] ++ name ++ [c_lb] ++ arg ++ [c_rb] ++ rest).
  assert (M : re_match_at P_unknown t 0 = Some {| m_start := 0; m_end := S (1 + length name); m_caps := [] |}).
  { apply fm_match. eapply fm_seq. { eapply fm_is_ch. reflexivity. }
    eapply fm_seq. { apply (fm_plus _ t 1 [] name (c_lb :: arg ++ [c_rb] ++ rest)); [reflexivity|apply word_nonempty, W| |reflexivity].
      apply forallb_forall. intros y Hy. pose proof (word_forallb _ W) as F. rewrite forallb_forall in F. rewrite (F y Hy). reflexivity. }
    apply fm_alt_left. assert (K : skipn (1 + length name) t = c_lb :: arg ++ [c_rb] ++ rest).
    { change (1 + length name) with (S (length name)). unfold t. cbn [app skipn]. rewrite skipn_app, skipn_all, Nat.sub_diag. reflexivity. }
    eapply fm_seq. { apply (fm_star isspace t (1 + length name) [] [] _ K); reflexivity. }
    cbn [length]. rewrite Nat.add_0_r. eapply fm_is_ch. exact K. }
  rewrite M. cbn [m_end].
  assert (G : m_group0 t {| m_start := 0; m_end := S (1 + length name); m_caps := [] |} = [c_bs] ++ name ++ [c_lb]).
  { replace (S (1 + length name)) with (length ([c_bs] ++ name ++ [c_lb])) by (rewrite !app_length; cbn; lia). apply (group0_at t _ (arg ++ [c_rb] ++ rest)). unfold t. rewrite <- !app_assoc. reflexivity. }
  rewrite G.
  assert (En : endswith ([c_bs] ++ name ++ [c_lb]) [c_lb] = true).
  { rewrite app_assoc. unfold endswith. rewrite (rev_app_distr ([c_bs] ++ name) [c_lb]). reflexivity. }
  rewrite En. cbv zeta.
  pose proof (nested_arg t ([c_bs] ++ name) arg rest B) as A. replace (S (1 + length name) - 1) with (S (length ([c_bs] ++ name)) - 1) by (cbn; lia).
  rewrite A by (unfold t; rewrite <- !app_assoc; reflexivity). cbn [bind].
  replace (([c_bs] ++ name ++ [c_lb]) ++ arg ++ [c_rb]) with ([c_bs] ++ name ++ [c_lb] ++ arg ++ [c_rb]) by (rewrite <- !app_assoc; reflexivity).
  rewrite E. cbn [bind].
  replace (S (1 + length name) + (1 + length arg + 1) - 1) with (length name + length arg + 3) by lia.
  destruct (startswith x [c_bs]); eexists; reflexivity.
Qed.

(** a parser with two macros and nothing else *)
Definition bare_parse (fuel : nat) (content : str) : run (cstate * list dict) :=
  parse cstate (fun _ t => Ok t) (fun s t => Ok (option_map (fun p => (fst p, Z.of_nat (snd p))) (handle_command letter s t)))
    (fun s _ => Ok (s, 0%Z)) none_of none_of [] core_process core_label fuel default_opts {| c_cmds := table ms_chain; c_lets := [] |} content.
Lemma bare_ends : forall fuel content, macro_weight ms_chain chain_rank (strip_latex_comments content) < fuel -> bare_parse fuel content <> None.
Proof.
  intros fuel content L. destruct ms_chain_ok as (A & B & C & _).
  apply (macros_end cstate (fun s => s) _ _ _ _ _ _ _ ms_chain chain_rank); auto.
  - intros s t r e _ _ H. discriminate H.
  - intros s t r e _ _ H. discriminate H.
  - intros s t s' e H [= <- _]. exact H.
  - intros s l tk s' tk' H [= <- _]. exact H.
Qed.
