(** Equations: sample case and counterexamples. *)
From Coq Require Import List NArith PeanoNat Lia Bool String Permutation.
From Verif Require Import PyStr Regex RegexLemmas RegexLocal RegexHead TexUtilsModel DelimSpec DelimProofs DelimFinal Placeholder PlaceProofs TableCases
  EnvModel EnvProofs EnvHandlerModel EnvHandlerProofs EnvHandlerCases EqModel EqSpec EqProofs EqProofs2 EqProofs3.
Import ListNotations.
Notation length := List.length.
Notation concat := List.concat.
Open Scope list_scope.

(** * a conversion that never ends *)
Definition endless : str := lit "\array{c}\arraystretch x\endarray+z".
Definition grown_by : str := lit "\begin{array}\end{array}".
Fixpoint times (k : nat) (s : str) : str := match k with O => [] | S k => s ++ times k s end.
Definition head_part : str := lit "\array{c}\arraystretch x\endarray+".
Definition grown (k : nat) : str := head_part ++ times k grown_by ++ [122%N].

Ltac spell O := match type of O with occurs _ (?a ++ ?b) => let v := eval vm_compute in a in change a with v in O; cbn [List.app] in O end.
Lemma tail_no_end : forall k, ~ occurs (lit "\endarray") (times k grown_by ++ [122%N]).
Proof.
  induction k as [|k IH]; intros O.
  - cbn [times List.app] in O. apply occurs_cons in O as [(q & P)|O]; [discriminate P|]. destruct O as (p & q & E). destruct p; discriminate E.
  - change (times (S k) grown_by ++ [122%N]) with ((grown_by ++ times k grown_by) ++ [122%N]) in O. rewrite <- app_assoc in O.
    remember (times k grown_by ++ [122%N]) as tl eqn:Et. apply IH. clear IH Et. spell O.
    repeat (apply occurs_cons in O as [(q & P)|O]; [discriminate P|]). exact O.
Qed.
Lemma tail_no_begin : forall k, ~ occurs (lit "\array") (times k grown_by ++ [122%N]).
Proof.
  induction k as [|k IH]; intros O.
  - cbn [times List.app] in O. apply occurs_cons in O as [(q & P)|O]; [discriminate P|]. destruct O as (p & q & E). destruct p; discriminate E.
  - change (times (S k) grown_by ++ [122%N]) with ((grown_by ++ times k grown_by) ++ [122%N]) in O. rewrite <- app_assoc in O.
    remember (times k grown_by ++ [122%N]) as tl eqn:Et. apply IH. clear IH Et. spell O.
    repeat (apply occurs_cons in O as [(q & P)|O]; [discriminate P|]). exact O.
Qed.
Lemma rfind_some : forall p s, occurs p s -> exists k, rfind p s = Some k.
Proof.
  intros p s. induction s as [|x s IH]; intros O.
  - destruct O as (a & b & E). symmetry in E. apply app_eq_nil in E as [-> E]. apply app_eq_nil in E as [-> _]. exists 0. reflexivity.
  - cbn [rfind]. destruct (rfind p s) as [k|] eqn:R; [eauto|]. apply occurs_cons in O as [P|O]; [|apply IH in O as (k & O); discriminate O].
    apply startswith_iff in P. rewrite P. eauto.
Qed.
Lemma grown_pair : forall k, pair_search aw (grown k) = Some (lit "array").
Proof.
  intros k. unfold grown. generalize (times k grown_by ++ [122%N]). intros tl.
  assert (N : pair_name aw (head_part ++ tl) = Some (lit "array")).
  { unfold pair_name. change (head_part ++ tl) with (c_bs :: lit "array{c}\arraystretch x\endarray+" ++ tl). change (N.eqb c_bs c_bs) with true. cbv iota.
    change (run_len (fun y => aw y || N.eqb y 64%N) (lit "array{c}\arraystretch x\endarray+" ++ tl)) with 5.
    set (t := c_bs :: lit "array{c}\arraystretch x\endarray+" ++ tl).
    cbn [pair_name_try]. change (slice 1 6 t) with (lit "array"). change (prev_is aw t 6) with true. change (next_is aw t 6) with false. cbn [xorb].
    destruct (rfind_some (lit "\end" ++ lit "array") (skipn 6 t)) as (j & J).
    { exists (lit "{c}\arraystretch x"), (lit "+" ++ tl). reflexivity. }
    rewrite J. reflexivity. }
  destruct (head_part ++ tl) as [|x r] eqn:E; [discriminate E|]. cbn [pair_search]. rewrite N. reflexivity.
Qed.
Lemma absent_search : forall u t pos, u <> [] -> ~ occurs u (skipn pos t) -> re_search_from (rstr u) t pos = None.
Proof.
  intros u t pos U O. apply re_search_none. intros i j Hi R. apply rel_rstr in R as (_ & r & R). apply O.
  replace i with (pos + (i - pos)) in R by lia. rewrite <- skipn_add in R. eapply occurs_skipn. exists [], r. exact R.
Qed.
Lemma encp_step : forall fuel text b e level pos cs st, encp_loop (S fuel) text b e level pos cs st =
      if Nat.ltb 0 level && Nat.ltb pos (length text) then
        match re_search_from e text pos with
        | None => Some None
        | Some em =>
            let close := match re_search_from b text pos with
                         | None => true
                         | Some bm => Nat.ltb (m_start em) (m_start bm)
                         end in
            if close then
              let level := level - 1 in
              if Nat.eqb level 0
              then Some (Some (st, m_end em, slice cs (m_start em) text))
              else encp_loop fuel text b e level (m_end em) cs st
            else
              match re_search_from b text pos with
              | Some bm => encp_loop fuel text b e (level + 1) (m_end bm) cs st
              | None => Some None
              end
        end
      else Some None.
Proof. reflexivity. Qed.
Lemma grown_unmatched : forall k, extract_nested_content_pattern (grown k) (rstr (c_bs :: lit "array")) (rstr (lit "\end" ++ lit "array")) = Some None.
Proof.
  intros k. unfold grown. pose proof (tail_no_end k) as TE. pose proof (tail_no_begin k) as TB.
  assert (TL : exists x r, times k grown_by ++ [122%N] = x :: r) by (destruct k; [exists 122%N, []; reflexivity|eexists _, _; reflexivity]).
  destruct TL as (x & r & TL). rewrite TL in *. clear TL. set (tl := x :: r) in *. set (t := head_part ++ tl).
  assert (Lt : length t = 34 + length tl) by (unfold t; rewrite app_length; reflexivity). assert (L1 : 0 < length tl) by (cbn; lia).
  assert (B0 : re_search_from (rstr (c_bs :: lit "array")) t 0 = Some {| m_start := 0; m_end := 6; m_caps := [] |}) by (apply search_at_zero; reflexivity).
  assert (B6 : re_search_from (rstr (c_bs :: lit "array")) t 6 = Some {| m_start := 9; m_end := 15; m_caps := [] |}).
  { apply (search_first _ t 6 9); [lia|lia| |reflexivity]. intros i H1 H2. do 9 (destruct i as [|i]; [try lia; reflexivity|]). lia. }
  assert (E6 : re_search_from (rstr (lit "\end" ++ lit "array")) t 6 = Some {| m_start := 24; m_end := 33; m_caps := [] |}).
  { apply (search_first _ t 6 24); [lia|lia| |reflexivity]. intros i H1 H2. do 24 (destruct i as [|i]; [try lia; reflexivity|]). lia. }
  assert (E15 : re_search_from (rstr (lit "\end" ++ lit "array")) t 15 = Some {| m_start := 24; m_end := 33; m_caps := [] |}).
  { apply (search_first _ t 15 24); [lia|lia| |reflexivity]. intros i H1 H2. do 24 (destruct i as [|i]; [try lia; reflexivity|]). lia. }
  assert (B15 : re_search_from (rstr (c_bs :: lit "array")) t 15 = None).
  { apply absent_search; [discriminate|]. change (skipn 15 t) with (lit "stretch x\endarray+" ++ tl). intros O. apply TB. revert O. generalize tl. intros u O. spell O.
    repeat (apply occurs_cons in O as [(q & P)|O]; [discriminate P|]). exact O. }
  assert (E33 : re_search_from (rstr (lit "\end" ++ lit "array")) t 33 = None).
  { apply absent_search; [discriminate|]. change (skipn 33 t) with (lit "+" ++ tl). intros O. apply TE. revert O. generalize tl. intros u O. spell O.
    repeat (apply occurs_cons in O as [(q & P)|O]; [discriminate P|]). exact O. }
  unfold extract_nested_content_pattern. rewrite B0. cbn [m_end m_start].
  destruct (length t) as [|[|[|f]]] eqn:Lf; try lia.
  rewrite encp_step, E6, B6. replace (Nat.ltb 6 (length t)) with true by (symmetry; apply Nat.ltb_lt; lia). cbn [Nat.ltb Nat.leb andb m_start m_end plus].
  rewrite encp_step, E15, B15. replace (Nat.ltb 15 (length t)) with true by (symmetry; apply Nat.ltb_lt; lia). cbn [Nat.ltb Nat.leb andb m_start m_end Nat.sub Nat.eqb].
  rewrite encp_step, E33. destruct (_ && _); reflexivity.
Qed.
Lemma grown_next : forall k, firstn (length (grown k) - 1) (grown k) ++ (lit "\begin{" ++ lit "array" ++ lit "}" ++ [] ++ lit "\end{" ++ lit "array" ++ lit "}") ++ skipn (length (grown k) - 1) (grown k) = grown (S k).
Proof.
  intros k. unfold grown. rewrite !app_assoc. rewrite app_length. cbn [length]. rewrite Nat.add_sub. rewrite firstn_app_exact, skipn_app_exact by reflexivity.
  assert (C : times (S k) grown_by = times k grown_by ++ grown_by).
  { clear. induction k as [|k IH]; [reflexivity|]. change (times (S (S k)) grown_by) with (grown_by ++ times (S k) grown_by). rewrite IH at 1. rewrite app_assoc. reflexivity. }
  rewrite C. rewrite <- !app_assoc. reflexivity.
Qed.
Lemma endless_pairs : forall fuel k, convert_pairs aw fuel (grown k) = None.
Proof.
  induction fuel as [|f IH]; intros k; [reflexivity|]. cbn [convert_pairs]. rewrite grown_pair, grown_unmatched.
  destruct f as [|f]; [reflexivity|]. assert (Z : convert_pairs aw (S f) [] = Some []) by reflexivity. rewrite Z. rewrite grown_next. apply IH.
Qed.

(** the components of the samples: no formatting, no boxes, \ref{a} is a command *)
Definition no_fmt (s : str) : str * nat := ([], 0).
Definition ref_search (s : str) : option nat := find_sub (lit "\ref{a}") s.
Definition ref_handle (s : str) : option nat * nat := if startswith s (lit "\ref{a}") then (Some 7, 7) else (None, 0).
Notation sample := (handle_eq aw (fun s => s) no_fmt no_fmt nat ref_search ref_handle).

Lemma endless_equation : forall process fmt box T search handle fuel,
  handle_eq aw process fmt box T search handle fuel EQUATION_ENV (lit "$" ++ endless ++ lit "$") = None.
Proof.
  intros. unfold handle_eq.
  assert (M : eq_match (eq_kinds EQUATION_ENV) (lit "$" ++ endless ++ lit "$") = Some (KInlineDollar, {| m_start := 0; m_end := 37; m_caps := [(1, (1, 36))] |})) by (vm_compute; reflexivity).
  rewrite M. unfold finish_eq.
  assert (G : strip (match m_group (lit "$" ++ endless ++ lit "$") 1 {| m_start := 0; m_end := 37; m_caps := [(1, (1, 36))] |} with Some g => g | None => [] end) = endless) by (vm_compute; reflexivity).
  rewrite G. assert (B : check_delimiter_balance endless c_lb c_rb = true) by (vm_compute; reflexivity). rewrite B.
  assert (H : handle_labels endless = (endless, [])) by (vm_compute; reflexivity). rewrite H.
  change endless with (grown 0). rewrite endless_pairs. reflexivity.
Qed.

(** * further counterexamples *)
Lemma two_lines : can_handle_eq EQUATION_ENV (lit "\(a" ++ [c_nl] ++ lit "b\) c") = false /\ can_handle_eq EQUATION_ENV (lit "\(a b\) c") = true.
Proof. vm_compute. auto. Qed.
Lemma nested_ends_early : exists tok e, sample 100 EQUATION_ENV (lit "\begin{aligned}a\begin{aligned}b\end{aligned}c\end{aligned}") = Some (Some tok, e) /\
  q_content nat tok = lit "a\begin{aligned}b" /\ skipn e (lit "\begin{aligned}a\begin{aligned}b\end{aligned}c\end{aligned}") = lit "c\end{aligned}".
Proof. eexists _, _. split; [vm_compute; reflexivity|]. vm_compute. auto. Qed.
Lemma escaped_dollar : exists tok e, sample 100 EQUATION_ENV (lit "$a\$b$ c") = Some (Some tok, e) /\ q_content nat tok = lit "a\" /\ skipn e (lit "$a\$b$ c") = lit "b$ c".
Proof. eexists _, _. split; [vm_compute; reflexivity|]. vm_compute. auto. Qed.
Lemma bracket_lost : exists tok e, sample 100 EQUATION_ENV (lit "\[x \mbox{\[y\]} z\] t") = Some (Some tok, e) /\ q_content nat tok = [] /\ skipn e (lit "\[x \mbox{\[y\]} z\] t") = lit "} z\] t".
Proof. eexists _, _. split; [vm_compute; reflexivity|]. vm_compute. auto. Qed.

(** * a case of the theorem *)
Definition case_text : str := lit "\begin {align*} x \label{eq:1} &= \ref{a} \\ y\label {eq:{2}} \end{align*} T".
Lemma case_ok : exists tok, sample 100 EQUATION_ENV case_text = Some (Some tok, 74) /\
  the_token nat (KEnv (lit "align")) false (lit "x  &= ___PLACEHOLDER_0___ \\ y") [lit "eq:1"; lit "eq:{2}"] [(lit "___PLACEHOLDER_0___", 7)] tok.
Proof.
  assert (Z : case_text = env_mark (lit "\begin") [c_sp] (lit "align") true ++ lit " x \label{eq:1} &= \ref{a} \\ y\label {eq:{2}} " ++ env_mark (lit "\end") [] (lit "align") true ++ lit " T") by reflexivity.
  destruct (whole aw (fun s => s) no_fmt no_fmt nat ref_search ref_handle 100 EQUATION_ENV (KEnv (lit "align")) case_text (lit " x \label{eq:1} &= \ref{a} \\ y\label {eq:{2}} ") 74 false
    (lit "x \label{eq:1} &= \ref{a} \\ y\label {eq:{2}}") (lit "x ") [([], lit "eq:1", lit " &= \ref{a} \\ y"); ([c_sp], lit "eq:{2}", [])]
    (lit "x  &= ") [(lit "\ref{a}", 7, lit " \\ y")]) as (tok & R & K).
  - apply Permutation_refl.
  - rewrite Z. refine (es_env EQUATION_ENV (lit "align") [c_sp] true (lit " x \label{eq:1} &= \ref{a} \\ y\label {eq:{2}} ") [] true (lit " T") _ _ _ _); [right; left; reflexivity|reflexivity|reflexivity|].
    intros k Hk (ws & st & r & _ & E). assert (S : startswith (skipn k (lit " x \label{eq:1} &= \ref{a} \\ y\label {eq:{2}} " ++ env_mark (lit "\end") [] (lit "align") true ++ lit " T")) (lit "\end") = true).
    { rewrite E. unfold env_mark. rewrite <- app_assoc. apply startswith_iff. eexists. reflexivity. }
    clear E. vm_compute in Hk. do 47 (destruct k as [|k]; [vm_compute in S; discriminate S|]). lia.
  - vm_compute. discriminate.
  - left. eauto.
  - left. split; [discriminate|reflexivity].
  - reflexivity.
  - apply Forall_forall. intros x [<-|[<-|[]]]; unfold good_label; (split; [reflexivity|split; [discriminate|split; [apply (c06_balance _ _ _ delims_curly); vm_compute; reflexivity|split; [|split; apply not_occurs; vm_compute; reflexivity]]]]).
    + exists 0. split; [apply (eib_other (lit "eq:")); discriminate|exists 0; reflexivity].
    + exists 0. split; [apply (eib_other (lit "eq:{2")); discriminate|exists 0; reflexivity].
  - apply not_occurs. vm_compute. reflexivity.
  - intros p x r E. exfalso. assert (O : occurs (lit "\end") (lit "x  &= \ref{a} \\ y")) by (exists p, (x :: r); exact E). apply occurs_dec in O. vm_compute in O. discriminate O.
  - intros p r _. split; reflexivity.
  - apply (cr_cmd ref_search ref_handle (lit "x  &= ") (lit "\ref{a}") 7 (lit " \\ y") [] (lit " \\ y")); [discriminate|reflexivity|reflexivity|]. apply cr_none. reflexivity.
  - vm_compute. lia.
  - exists tok. split; [exact R|exact K].
Qed.
