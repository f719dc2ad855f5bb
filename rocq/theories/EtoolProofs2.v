(** C30: \ifbool and \notbool. *)
From Coq Require Import List NArith ZArith PeanoNat Lia Bool String.
From Verif Require Import PyStr Regex RegexLemmas RegexHead Json TexUtilsModel DelimSpec DelimProofs DelimProofs2 DelimFinal KeyvalProofs2 EtoolModel EtoolSpec EtoolProofs.
Import ListNotations. Notation length := List.length. Notation concat := List.concat. Open Scope list_scope.

Lemma ifnot_match : forall (neg : bool) t arg rest ws, cmd_arg (lit (if neg then "\notbool" else "\ifbool")) t arg rest ws ->
  exists m, re_match_at ifnotbool_pattern t 0 = Some m /\ group1 t m = arg /\ skipn (m_end m) t = rest /\ m_end m + length rest = length t.
Proof.
  intros neg t arg rest ws (-> & Hw & Ha). unfold ifnotbool_pattern. rewrite seq_brace. set (name := lit (if neg then "\notbool" else "\ifbool")).
  eexists. split; [|split; [|split]].
  - apply fm_match. eapply fm_seq.
    + instantiate (1 := []). instantiate (1 := length name). destruct neg.
      * apply fm_alt_right; [|exact (fm_rstr name _ 0 [] (ws ++ [c_lb] ++ arg ++ [c_rb] ++ rest) eq_refl)]. rewrite rm_rstr. reflexivity.
      * apply fm_alt_left. exact (fm_rstr name _ 0 [] (ws ++ [c_lb] ++ arg ++ [c_rb] ++ rest) eq_refl).
    + apply fm_brace_arg with (rest := rest); [|exact Hw|exact Ha]. rewrite skipn_app, skipn_all, Nat.sub_diag. reflexivity.
  - unfold group1, m_group. cbn [m_caps cap_get Nat.eqb option_map].
    replace (length name + length ws + 1) with (length (name ++ ws ++ [c_lb])) by (rewrite !app_length; cbn; lia).
    replace (name ++ ws ++ [c_lb] ++ arg ++ [c_rb] ++ rest) with ((name ++ ws ++ [c_lb]) ++ arg ++ ([c_rb] ++ rest)) by (rewrite <- !app_assoc; reflexivity).
    apply slice_mid.
  - cbn [m_end]. replace (name ++ ws ++ [c_lb] ++ arg ++ [c_rb] ++ rest) with ((name ++ ws ++ [c_lb] ++ arg ++ [c_rb]) ++ rest) by (rewrite <- !app_assoc; reflexivity).
    replace (length name + length ws + 1 + length arg + 1) with (length (name ++ ws ++ [c_lb] ++ arg ++ [c_rb])) by (rewrite !app_length; cbn; lia).
    rewrite skipn_app, skipn_all, Nat.sub_diag. reflexivity.
  - cbn [m_end]. rewrite !app_length. cbn [length]. lia.
Qed.

(** The token that reports a conditional. *)
Definition conditional (name yes no : str) (neg : bool) : dict :=
  [(lit "type", VStr (lit "bool_conditional")); (lit "name", VStr name); (lit "true_code", VStr yes); (lit "false_code", VStr no); (lit "is_not", VBool neg)].
Theorem conditionals : forall d text name rest a b n, groups_at c_lb c_rb rest [a; b] n ->
  (command_arg "\ifbool" text name rest -> etool_handle d text = (d, (Some (conditional name a b false), length text - length rest + n))) /\
  (command_arg "\notbool" text name rest -> etool_handle d text = (d, (Some (conditional name b a true), length text - length rest + n))).
Proof.
  intros d text name rest a b n G. pose proof (blocks_exact c_lb c_rb rest [a; b] n delims_curly G) as X. cbn [List.length] in X.
  split; intros C.
  - apply command_arg_cmd in C as (ws & C). destruct (ifnot_match false _ _ _ _ C) as (m & M & G1 & Sk & L). unfold etool_handle. rewrite M. f_equal. unfold handle_ifnotbool. rewrite Sk, X, G1.
    assert (S0 : startswith text (lit "\notbool") = false) by (destruct C as (-> & _); reflexivity). rewrite S0. unfold conditional. repeat f_equal. lia.
  - apply command_arg_cmd in C as (ws & C). destruct (ifnot_match true _ _ _ _ C) as (m & M & G1 & Sk & L). unfold etool_handle. rewrite M. f_equal. unfold handle_ifnotbool. rewrite Sk, X, G1.
    assert (S0 : startswith text (lit "\notbool") = true) by (destruct C as (-> & _); reflexivity). rewrite S0. unfold conditional. repeat f_equal. lia.
Qed.
Lemma conditionals_case : etool_handle [] (lit "\notbool {draft}{a {x}} {b} c") = ([], (Some (conditional (lit "draft") (lit "b") (lit "a {x}") true), 27)).
Proof. vm_compute. reflexivity. Qed.
