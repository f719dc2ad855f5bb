(** C85: a document read step by step, and the brace lost at the end. *)
From Coq Require Import List NArith ZArith PeanoNat Lia Bool String.
From Verif Require Import PyStr Regex RegexLemmas RegexHead TexUtilsModel DelimSpec DelimProofs Json BuilderModel TokensModel CommandModel CommandSpec CommandProofs CommandCases ParseModel ParseProofs ParseCases ParseRead ParseReadProofs ParseReadProofs2 ParseReadProofs3.
Import ListNotations. Notation length := List.length. Notation concat := List.concat. Open Scope list_scope.

(** a handler that parses a text of its own, and one for formulas *)
Definition note_handler : handler unit := {|
  h_can := fun _ t => startswith t (lit "\note");
  h_run := fun ps s t _ => ask (s1, nested) <- ps default_opts s (lit "a {b}"); ret (s1, TList nested, 5%Z);
  h_env := false |}.
Definition dollar_handler : handler unit := {|
  h_can := fun _ t => startswith t (lit "$x$");
  h_run := fun _ s t _ => ret (s, TDict [(k_type, VStr (lit "equation")); (k_content, VStr (lit "x"))], 3%Z);
  h_env := false |}.
Definition demo_user (_ : unit) (t : str) : res (option (str * Z)) := Ok (if startswith t (lit "\m") then Some (lit "macro", 2%Z) else None).
Definition demo_process (_ : parser unit) (_ : bool) (t : tok_in) (s : unit) (tk : list dict) : run (unit * list dict) :=
  match add_token t tk false with Ok tk1 => ret (s, tk1) | Raise e => Some (Raise e) end.
Definition demo_reading := reading unit (fun _ t => Ok t) demo_user (fun s _ => Ok (s, 0%Z)) (fun _ _ => Ok None) (fun _ _ => Ok None) [note_handler; dollar_handler] demo_process (fun s _ tk => Ok (s, tk)).
Definition demo_parse := parse unit (fun _ t => Ok t) demo_user (fun s _ => Ok (s, 0%Z)) (fun _ _ => Ok None) (fun _ _ => Ok None) [note_handler; dollar_handler] demo_process (fun s _ tk => Ok (s, tk)).
Definition eqn : dict := [(k_type, VStr (lit "equation")); (k_content, VStr (lit "x"))].

Ltac in_chars := repeat first [apply in_nil | apply in_char; [let H := fresh in (intros H; cbn in H; repeat (destruct H as [H|H]; [discriminate|]); exact H)|] | apply in_escape; [cbn; tauto|]].
Lemma idle_id : forall (f : unit -> str -> res (option (str * Z))) s d, f s d = Ok None -> idle unit f s d.
Proof. intros. left. assumption. Qed.
Ltac idle_tac := left; reflexivity.
Ltac no_macro_tac := split; [idle_tac|exists 0%Z; split; [reflexivity|lia]].
Ltac unclaimed_tac := split; [no_macro_tac|split; [idle_tac|intros _; idle_tac]].
Ltac cmd_tac := left; eexists _, _; split; [reflexivity|].
Ltac last_tac := intros p E; apply (f_equal (@rev ch)) in E; rewrite rev_app_distr in E; vm_compute in E; discriminate E.

(** "Set \{1\} $x$\m {ok} \note\\end" *)
Definition demo_doc : str := lit "Set \{1\} $x$\m {ok} \note\\end".
Lemma note_inside : demo_reading default_opts tt None [] (strip_latex_comments (lit "a {b}")) tt [text_token (lit "ab")].
Proof.
  change (strip_latex_comments (lit "a {b}")) with ([] ++ lit "a" ++ lit " {b}").
  eapply rd_text; [reflexivity|in_chars|eexists _, _; split; reflexivity|last_tac|reflexivity|reflexivity|apply (de_group _ c_sp); reflexivity|].
  change (lit " {b}") with ([c_sp] ++ [c_lb] ++ lit "b" ++ [c_rb] ++ []).
  eapply rd_group; [reflexivity|apply closed_grp; vm_compute; reflexivity|change (strip_latex_comments (lit "b")) with ([] ++ lit "b"); eapply rd_text_end; [reflexivity|in_chars|eexists _, _; split; reflexivity|last_tac|reflexivity|reflexivity]|reflexivity|apply rd_end; reflexivity].
Qed.
Lemma demo_read : demo_reading default_opts tt None [] (strip_latex_comments demo_doc) tt
  [text_token (lit "Set \{1\} "); eqn; text_token (lit "macrook"); text_token (lit "ab" ++ [c_nl] ++ lit "end")].
Proof.
  change (strip_latex_comments demo_doc) with ([] ++ lit "Set \{1\} " ++ lit "$x$\m {ok} \note\\end").
  eapply rd_text; [reflexivity|in_chars|eexists _, _; split; reflexivity|last_tac|reflexivity|reflexivity|apply de_command; eexists _, _; split; [reflexivity|tauto]|].
  change (lit "$x$\m {ok} \note\\end") with ([] ++ lit "$x$\m {ok} \note\\end").
  eapply (rd_act _ _ _ _ _ _ _ _ _ _ _ _ _ _ _ [] tt _ 3); [reflexivity|left; eexists _, _; split; [reflexivity|tauto]|intros ? ? ? ? ? []| |cbn; lia|].
  { intros ps _. eapply (ac_token _ _ _ _ _ _ _ _ _ _ _ _ _ _ tt [note_handler] dollar_handler [] tt (TDict eqn) 3 tt); [unclaimed_tac|reflexivity|repeat constructor|reflexivity|reflexivity| |reflexivity].
    unfold nothing. intros [E|[E|[E|E]]]; discriminate E. }
  change (skipn 3 (lit "$x$\m {ok} \note\\end")) with ([] ++ lit "\m {ok} \note\\end").
  eapply (rd_replace _ _ _ _ _ _ _ _ _ _ _ _ _ _ _ tt (lit "macro") 2); [reflexivity|left; eexists _, _; split; [reflexivity|right; right; split; [reflexivity|]]| |cbn; lia|].
  { intros y q E. injection E as <- _. cbn. intros H. repeat (destruct H as [H|H]; [discriminate|]). destruct H. }
  { intros ps. apply ac_macro; [reflexivity|lia]. }
  change (lit "macro" ++ skipn 2 (lit "\m {ok} \note\\end")) with ([] ++ lit "macro" ++ lit " {ok} \note\\end").
  eapply rd_text; [reflexivity|in_chars|eexists _, _; split; reflexivity|last_tac|reflexivity|reflexivity|apply (de_group _ c_sp); reflexivity|].
  change (lit " {ok} \note\\end") with ([c_sp] ++ [c_lb] ++ lit "ok" ++ [c_rb] ++ lit " \note\\end").
  eapply rd_group; [reflexivity|apply closed_grp; vm_compute; reflexivity|change (strip_latex_comments (lit "ok")) with ([] ++ lit "ok"); eapply rd_text_end; [reflexivity|in_chars|eexists _, _; split; reflexivity|last_tac|reflexivity|reflexivity]|reflexivity|].
  change (lit " \note\\end") with ([c_sp] ++ lit "\note\\end").
  eapply (rd_act _ _ _ _ _ _ _ _ _ _ _ _ _ _ _ [(default_opts, tt, lit "a {b}", (tt, [text_token (lit "ab")]))] tt _ 5); [reflexivity|left; eexists _, _; split; [reflexivity|right; right; split; [reflexivity|]]| | |cbn; lia|].
  { intros y q E. injection E as <- _. cbn. intros H. repeat (destruct H as [H|H]; [discriminate|]). destruct H. }
  { intros o1 s0 c s2 tk2 [E|[]]. injection E as <- <- <- <- <-. exact note_inside. }
  { intros ps A. eapply (ac_token _ _ _ _ _ _ _ _ _ _ _ _ _ _ tt [] note_handler [dollar_handler] tt (TList [text_token (lit "ab")]) 5 tt); [unclaimed_tac|reflexivity|constructor|reflexivity| | |reflexivity].
    - cbn [h_run note_handler]. rewrite (A _ _ _ _ (or_introl eq_refl)). reflexivity.
    - unfold nothing. intros [E|[E|[E|E]]]; discriminate E. }
  change (skipn 5 (lit "\note\\end")) with ([] ++ lit "\\end").
  eapply (rd_act _ _ _ _ _ _ _ _ _ _ _ _ _ _ _ [] tt _ 2); [reflexivity|left; eexists _, _; split; [reflexivity|right; right; split; [reflexivity|]]|intros ? ? ? ? ? []| |cbn; lia|].
  { intros y q E. injection E as <- _. cbn. intros H. repeat (destruct H as [H|H]; [discriminate|]). destruct H. }
  { intros ps _. eapply (ac_break _ _ _ _ _ _ _ _ _ _ _ _ _ _ tt (lit "end")); [|reflexivity| |reflexivity].
    - split; [unclaimed_tac|repeat constructor].
    - intros ws a q B _ E. destruct ws as [|w ws]; cbn [app lit] in E; [discriminate E|]. assert (W : w = 101%N) by (injection E as; congruence). subst w. discriminate B. }
  change (skipn 2 (lit "\\end")) with ([] ++ lit "end").
  eapply rd_text_end; [reflexivity|in_chars|eexists _, _; split; reflexivity|last_tac|reflexivity|reflexivity].
Qed.
Lemma demo_run : demo_parse 20 default_opts tt demo_doc = ret (tt, [text_token (lit "Set \{1\} "); eqn; text_token (lit "macrook"); text_token (lit "ab" ++ [c_nl] ++ lit "end")]).
Proof. vm_compute. reflexivity. Qed.

(** the brace at the end *)
Section Lost.
Variable St : Type.
Variable expand : St -> str -> res str.
Variable user_command : St -> str -> res (option (str * Z)).
Variable define : St -> str -> res (St * Z).
Variable if_else : St -> str -> res (option (str * Z)).
Variable legacy : St -> str -> res (option (str * Z)).
Variable handlers : list (handler St).
Variable process : parser St -> bool -> tok_in -> St -> list dict -> run (St * list dict).
Variable on_label : St -> str -> list dict -> res (St * list dict).
Lemma brace_lost : forall o s fuel, unknown_on o = false ->
  parse St expand user_command define if_else legacy handlers process on_label (S fuel) o s (lit "the set \{") = ret (s, [text_token (lit "the set \")]).
Proof.
  intros o s fuel U. unfold parse. replace (strip_latex_comments (lit "the set \{")) with (lit "the set \{") by (vm_compute; reflexivity).
  cbn [loop]. unfold step. cbv zeta. change ((0 <? Z.of_nat (length (lit "the set \{")))%Z) with true. cbv iota.
  replace (skip_spaces (Z.to_nat (Z.of_nat (length (lit "the set \{")) - 0)) (lit "the set \{") 0) with 0%Z by (vm_compute; reflexivity).
  change (Z.of_nat (length (lit "the set \{")) <=? 0)%Z with false. cbv iota. change (at_pos (lit "the set \{") 0) with (@Ok ch 116%N). cbn [rbind].
  change (N.eqb 116 c_lb) with false. cbv iota. unfold after_group. change (from (lit "the set \{") 0) with (lit "the set \{").
  replace (re_search DELIM (lit "the set \{")) with (@None mobj) by (vm_compute; reflexivity). cbv zeta iota. unfold take_text. rewrite U. vm_compute. reflexivity.
Qed.
End Lost.
