(** C104, C105: the loop over \expandafter and \csname. *)
From Coq Require Import List NArith ZArith PeanoNat Lia Bool String.
From Verif Require CommandModel ContentProofs2 FormatProofs3 FormatProofs5 CommandProofs CommandProofs2 CommandProofs3 CommandProofs4 CommandProofs6 CommandProofs7 CommandProofs8.
From Verif Require Import PyStr Regex RegexLemmas RegexHead RegexAbs DelimSpec DelimProofs DelimFinal TexUtilsModel EnvModel EnvSpec EnvProofs StyleModel CommandSpec DefModel DefSpec DefProofs DefProofs3 DefProofs4 DefProofs8 DefProofs9.
Import ListNotations. Notation length := List.length. Notation concat := List.concat. Open Scope list_scope.

Section Any.
Variables u ualpha ualnum : ch -> bool.
Local Notation handle := (handle u ualpha ualnum).
Lemma def_first : forall keyword gap r, In keyword def_words -> blank gap ->
  first_match (PATTERNS u) (lit keyword ++ gap ++ c_bs :: r) = Some (KDef, {| m_start := 0; m_end := S (length (lit keyword ++ gap)); m_caps := [] |}).
Proof.
  intros keyword gap r I B. assert (G : fm (RSeq sp (rstr (lit "\"))) (lit keyword ++ gap ++ c_bs :: r) (length (lit keyword)) [] (S (length (lit keyword ++ gap))) []).
  { assert (E : skipn (length (lit keyword)) (lit keyword ++ gap ++ c_bs :: r) = gap ++ c_bs :: r) by apply sk_pre. eapply fm_seq; [apply (fm_star isspace _ _ [] gap _ E B); reflexivity|]. apply skipn_more in E.
    pose proof (fm_rstr (lit "\") _ _ [] r E) as F. rewrite app_length. change (length (lit "\")) with 1 in F. replace (S (length (lit keyword) + length gap)) with (length (lit keyword) + length gap + 1) by lia. exact F. }
  revert G. generalize (S (length (lit keyword ++ gap))). intros e G. unfold def_words in I. cbn [In] in I.
  repeat (destruct I as [<-|I]; [(eapply clear_first; [vm_compute; reflexivity|]); apply fm_match; unfold DEF_PREFIX; cbn [rseq]; do 4 (eapply fm_seq; [eexists; reflexivity|]); exact G|]). destruct I.
Qed.
Lemma def_enter : forall keyword gap r, In keyword def_words -> blank gap -> let t := lit keyword ++ gap ++ c_bs :: r in
  handle t = def_prefix_loop u (S (length t)) t (lit keyword ++ gap) P_def (handle_def ualpha) true 1 (length (lit keyword ++ gap)) [].
Proof.
  intros keyword gap r I B t. rewrite (handle_finish _ _ _ _ _ _ (def_first keyword gap r I B)). cbn [finish]. unfold def_prefix. cbn [m_end]. replace (S (length (lit keyword ++ gap)) - 1) with (length (lit keyword ++ gap)) by lia.
  do 2 f_equal. unfold m_group0, slice. cbn [m_start m_end skipn]. rewrite Nat.sub_0_r. fold t.
  assert (Et : t = (lit keyword ++ gap ++ [c_bs]) ++ r) by (unfold t; rewrite <- !app_assoc; reflexivity). rewrite Et. replace (S (length (lit keyword ++ gap))) with (length (lit keyword ++ gap ++ [c_bs])) by (rewrite !app_length; cbn; lia).
  rewrite firstn_app_exact by reflexivity. rewrite (app_assoc (lit keyword)). apply removelast_last.
Qed.
(** ** one step of the loop *)
Section Loop.
Variables (t prefix : str) (full : re) (handler : str -> mobj -> outcome result) (add : bool) (max : nat).
Local Notation loop := (def_prefix_loop u).
Lemma loop_csname : forall fu start inners rest inner e, start < length t -> skipn start t = rest -> length inners < max ->
  re_match_at (RSeq sp (EXPAND_PATTERN u)) rest 0 = None -> concat_csname u rest = Some (inner, e) ->
  loop (S fu) t prefix full handler add max start inners = loop fu t prefix full handler add max (start + e) (inners ++ [inner]).
Proof.
  intros fu start inners rest inner e L E Lm N C. cbn [def_prefix_loop]. rewrite (proj2 (Nat.ltb_lt _ _) L), E, (proj2 (Nat.ltb_lt _ _) Lm). cbv zeta. rewrite N, C. reflexivity.
Qed.
Lemma loop_expand : forall fu start inners rest m, start < length t -> skipn start t = rest -> length inners < max ->
  re_match_at (RSeq sp (EXPAND_PATTERN u)) rest 0 = Some m ->
  loop (S fu) t prefix full handler add max start inners = loop fu t prefix full handler add max (start + m_end m) inners.
Proof.
  intros fu start inners rest m L E Lm N. cbn [def_prefix_loop]. rewrite (proj2 (Nat.ltb_lt _ _) L), E, (proj2 (Nat.ltb_lt _ _) Lm). cbv zeta. rewrite N. reflexivity.
Qed.
Definition named_by (inners : list str) : str := match inners with [] => [c_bs] | _ => concat (map (fun i => c_bs :: no_blanks i) inners) end.
Lemma loop_stop : forall fu start inners rest, start < length t -> skipn start t = rest ->
  (length inners < max -> re_match_at (RSeq sp (EXPAND_PATTERN u)) rest 0 = None /\ concat_csname u rest = None) ->
  loop (S fu) t prefix full handler add max start inners =
  (let start' := match rest with x :: _ => if N.eqb x c_bs then S start else start | [] => start end in
   let text := (prefix ++ named_by inners) ++ skipn start' t in
   match re_match_at full text 0 with
   | None => Ok (None, 0%Z)
   | Some m => match handler text m with
               | Ok (tk, e) => Ok (option_map (with_csname add inners) tk, (Z.of_nat start' + e - Z.of_nat (length (prefix ++ named_by inners)))%Z)
               | Raise => Raise
               | Spin => Spin
               end
   end).
Proof.
  intros fu start inners rest L E H. cbn [def_prefix_loop]. rewrite (proj2 (Nat.ltb_lt _ _) L), E. cbv zeta.
  destruct (Nat.ltb (length inners) max) eqn:Lm; [|reflexivity]. apply Nat.ltb_lt in Lm. destruct (H Lm) as (-> & ->). reflexivity.
Qed.
End Loop.
End Any.
