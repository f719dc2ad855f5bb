(** C103 continued: counters, switches, registers. *)
From Coq Require Import List NArith ZArith PeanoNat Lia Bool String.
From Verif Require EqProofs CommandModel CommandProofs CommandProofs2 CommandProofs4 CommandProofs6 CommandProofs8.
From Verif Require Import PyStr Regex RegexLemmas RegexHead RegexAbs DelimSpec DelimProofs DelimFinal TexUtilsModel StyleModel CommandSpec DefModel DefSpec DefProofs DefProofs3 DefProofs4.
Import ListNotations. Notation length := List.length. Notation concat := List.concat. Open Scope list_scope.
Notation fm := RegexHead.first_match.
Notation first_match := DefModel.first_match.

Lemma sees_step : forall H K pre s rest c j c', fm H (pre ++ s ++ rest) (length pre) c (length (pre ++ s)) c -> sees K (pre ++ s) rest c j c' -> sees (RSeq H K) pre (s ++ rest) c j c'.
Proof. intros H K pre s rest c j c' A B. unfold sees in *. rewrite <- app_assoc in B. eapply fm_seq; [exact A|exact B]. Qed.
(** a list of earlier patterns that are excluded by other means *)
Fixpoint clear_but (p : str) (k : kind) (skip : kind -> bool) (l : list (kind * re)) : option re :=
  match l with
  | [] => None
  | (k', r) :: l' => if kind_beq k k' then Some r else if skip k' || dead p r then clear_but p k skip l' else None
  end.
Lemma clear_but_first : forall p k skip l r rest m, clear_but p k skip l = Some r -> (forall k' r', In (k', r') l -> skip k' = true -> re_match_at r' (p ++ rest) 0 = None) ->
  re_match_at r (p ++ rest) 0 = Some m -> first_match l (p ++ rest) = Some (k, m).
Proof.
  intros p k skip l r rest m. induction l as [|(k', r') l IH]; intros H A M; [discriminate|]. cbn [clear_but] in H. cbn [DefModel.first_match]. destruct (kind_beq k k') eqn:E; [injection H as ->; apply kind_ok in E; subst k'; rewrite M; reflexivity|].
  destruct (skip k') eqn:S; cbn [orb] in H.
  - rewrite (A k' r' (or_introl eq_refl) S). apply IH; [exact H| |exact M]. intros k2 r2 I. apply A. right. exact I.
  - destruct (dead p r') eqn:D; [|discriminate]. rewrite (dead_none p r' rest D). apply IH; [exact H| |exact M]. intros k2 r2 I. apply A. right. exact I.
Qed.
Lemma solid_all : forall a b name, solid [a; b] name -> forallb (fun x => negb (isspace x) && negb (N.eqb x a) && negb (N.eqb x b)) name = true.
Proof.
  intros a b name [_ H]. apply forallb_forall. intros x I. destruct (H x I) as (S & N). rewrite S. destruct (N.eqb_spec x a) as [->|_]; [destruct N; left; reflexivity|]. destruct (N.eqb_spec x b) as [->|_]; [destruct N; right; left; reflexivity|reflexivity].
Qed.
Lemma stops_none : forall a b rest, stops [a; b] rest -> (match rest with x :: _ => negb (isspace x) && negb (N.eqb x a) && negb (N.eqb x b) | [] => false end) = false.
Proof.
  intros a b [|x r] H; [reflexivity|]. destruct H as [H|[<-|[<-|[]]]]; [rewrite H; reflexivity|rewrite N.eqb_refl; rewrite Bool.andb_false_r; reflexivity|rewrite N.eqb_refl; apply Bool.andb_false_r].
Qed.
Lemma solid_strip : forall s name, solid s name -> strip name = name.
Proof. intros s name [_ H]. apply CommandProofs8.strip_nospace. intros x I. apply (H x I). Qed.
Section Any.
Variables u ualpha ualnum : ch -> bool.
Local Notation handle := (handle u ualpha ualnum).

Lemma counter_ok : forall word gap name rest, In word counter_words -> blank gap -> name <> [] -> ~ In c_rb name ->
  let src := lit word ++ gap ++ braced name in handle (src ++ rest) = Ok (Some (DCounter (strip name)), Z.of_nat (length src)).
Proof.
  intros word gap name rest I B N1 N2. cbv zeta. rewrite <- !app_assoc.
  assert (D : clear_to (lit word) KCounter (PATTERNS u) = Some P_counter) by (destruct I as [<-|[<-|[<-|[]]]]; vm_compute; reflexivity).
  erewrite handle_finish; [|apply (clear_first (lit word) KCounter _ P_counter); [exact D|apply fm_match; unfold P_counter; apply rseqe_ok; cbn [rseqe]]].
  2:{ instantiate (1 := [(1, (length (((lit word) ++ gap) ++ [c_lb]), length (((lit word) ++ gap) ++ [c_lb]) + length name))]). instantiate (1 := length ((lit word ++ gap) ++ braced name)).
      assert (S : sees (RSeq sp (RSeq (BRACE 1) REps)) (lit word) (gap ++ braced name ++ rest) [] (length ((lit word ++ gap) ++ braced name)) [(1, (length (((lit word) ++ gap) ++ [c_lb]), length (((lit word) ++ gap) ++ [c_lb]) + length name))]).
      { apply sees_blanks; [exact B|apply next_lb2|]. apply sees_plus_arg; [exact N2|exact N1|]. apply sees_done. }
      destruct I as [<-|[<-|[<-|[]]]]; (eapply fm_seq; [eexists; reflexivity|]; eapply fm_seq; [eexists; reflexivity|]; exact S). }
  cbn [finish m_end]. at_ 1 ((lit word ++ gap) ++ [c_lb]) name. ends.
Qed.
Lemma setcounter_ok : forall gap name gap2 value rest, blank gap -> blank gap2 -> name <> [] -> ~ In c_rb name -> value <> [] -> ~ In c_rb value ->
  let src := lit "\setcounter" ++ gap ++ braced name ++ gap2 ++ braced value in handle (src ++ rest) = Ok (Some (DCounter (strip name)), Z.of_nat (length src)).
Proof.
  intros gap name gap2 value rest B1 B2 N1 N2 N3 N4. cbv zeta. rewrite <- !app_assoc. reads u KSetcounter (lit "\setcounter") P_setcounter.
  2:{ apply sees_lit. apply sees_blanks; [exact B1|apply next_lb2|]. apply sees_plus_arg; [exact N2|exact N1|]. apply sees_blanks; [exact B2|apply next_lb2|]. apply sees_plus_arg; [exact N4|exact N3|]. apply sees_done. }
  cbn [finish m_end]. at_ 1 ((([] ++ lit "\setcounter") ++ gap) ++ [c_lb]) name. ends.
Qed.
Lemma boolean_ok : forall word gap name rest, In word ["\newboolean"; "\renewboolean"]%string -> blank gap -> name <> [] -> ~ In c_rb name ->
  let src := lit word ++ gap ++ braced name in handle (src ++ rest) = Ok (None, Z.of_nat (length src)).
Proof.
  intros word gap name rest I B N1 N2. cbv zeta. rewrite <- !app_assoc.
  assert (D : clear_to (lit word) KBoolean (PATTERNS u) = Some P_boolean) by (destruct I as [<-|[<-|[]]]; vm_compute; reflexivity).
  erewrite handle_finish; [|apply (clear_first (lit word) KBoolean _ P_boolean); [exact D|apply fm_match; unfold P_boolean; apply rseqe_ok; cbn [rseqe]]].
  2:{ instantiate (1 := [(1, (length (((lit word) ++ gap) ++ [c_lb]), length (((lit word) ++ gap) ++ [c_lb]) + length name))]). instantiate (1 := length ((lit word ++ gap) ++ braced name)).
      assert (S : sees (RSeq sp (RSeq (BRACE 1) REps)) (lit word) (gap ++ braced name ++ rest) [] (length ((lit word ++ gap) ++ braced name)) [(1, (length (((lit word) ++ gap) ++ [c_lb]), length (((lit word) ++ gap) ++ [c_lb]) + length name))]).
      { apply sees_blanks; [exact B|apply next_lb2|]. apply sees_plus_arg; [exact N2|exact N1|]. apply sees_done. }
      destruct I as [<-|[<-|[]]]; (eapply fm_seq; [eexists; reflexivity|]; eapply fm_seq; [eexists; reflexivity|]; eapply fm_seq; [eexists; reflexivity|]; exact S). }
  cbn [finish m_end]. ends.
Qed.
Lemma if_ok : forall word gap name rest, In word [lit "\newif"; lit "\renewif"] -> blank gap -> solid [c_lb; c_bs] name -> stops [c_lb; c_bs] rest ->
  let src := word ++ gap ++ lit "\if" ++ name in handle (src ++ rest) = Ok (Some (DIf name), Z.of_nat (length src)).
Proof.
  intros word gap name rest I B N S. cbv zeta. rewrite <- !app_assoc.
  assert (D : clear_to word KIf (PATTERNS u) = Some P_if) by (destruct I as [<-|[<-|[]]]; vm_compute; reflexivity).
  erewrite handle_finish; [|apply (clear_first word KIf _ P_if); [exact D|apply fm_match; unfold P_if; apply rseqe_ok; cbn [rseqe]]].
  2:{ instantiate (1 := [(1, (length ((word ++ gap) ++ lit "\if"), length ((word ++ gap) ++ lit "\if") + length name))]). instantiate (1 := length (((word ++ gap) ++ lit "\if") ++ name)).
      assert (S' : sees (RSeq sp (RSeq (rstr (lit "\if")) (RSeq (RGrp 1 (rplus (RChr (fun x => negb (isspace x) && negb (N.eqb x c_lb) && negb (N.eqb x c_bs))))) REps))) word (gap ++ lit "\if" ++ name ++ rest) [] (length (((word ++ gap) ++ lit "\if") ++ name)) [(1, (length ((word ++ gap) ++ lit "\if"), length ((word ++ gap) ++ lit "\if") + length name))]).
      { apply sees_blanks; [exact B|intros x r E; injection E as <- _; reflexivity|]. apply sees_lit. apply sees_run; [apply N|apply solid_all; exact N|apply stops_none; exact S|]. apply sees_done. }
      destruct I as [<-|[<-|[]]]; (eapply fm_seq; [eexists; reflexivity|]; eapply fm_seq; [eexists; reflexivity|]; eapply fm_seq; [eexists; reflexivity|]; exact S'). }
  cbn [finish m_end]. at_ 1 ((word ++ gap) ++ lit "\if") name. ends.
Qed.
Lemma fam_ok : forall gap name rest, blank gap -> solid [c_lb; c_lk] name -> stops [c_lb; c_lk] rest ->
  let src := lit "\newfam" ++ gap ++ [c_bs] ++ name in handle (src ++ rest) = Ok (Some (DFam name), Z.of_nat (length src)).
Proof.
  intros gap name rest B N S. cbv zeta. rewrite <- !app_assoc. reads u KFam (lit "\newfam") P_fam.
  2:{ apply sees_lit. apply sees_blanks; [exact B|intros x r E; injection E as <- _; reflexivity|]. change ([c_bs] ++ name ++ rest) with (lit "\" ++ name ++ rest). apply sees_lit. apply sees_run; [apply N|apply solid_all; exact N|apply stops_none; exact S|]. apply sees_done. }
  cbn [finish m_end]. at_ 1 ((([] ++ lit "\newfam") ++ gap) ++ lit "\") name. rewrite (solid_strip _ _ N). ends.
Qed.
Lemma counter_dead : forall word rest, In word register_words -> startswith rest (lit "er") = false -> re_match_at P_counter (lit word ++ rest) 0 = None.
Proof.
  intros word rest I S.
  assert (A : rm P_counter (lit word ++ rest) 0 [] = []); [|unfold re_match_at; rewrite A; reflexivity].
  assert (E1 : rm (RAlt (RSeq (ropt (rstr (lit "re"))) (rstr (lit "newcounter"))) (rstr (lit "stepcounter"))) (lit word ++ rest) 1 [] = []).
  { assert (L : 1 <= length (lit word ++ rest)) by (repeat (destruct I as [<-|I]; [cbn; lia|]); destruct I).
    apply EqProofs.rm_none_rel; [exact L|]. intros j R.
    assert (Q : forall k s r, k <= 3 -> lit word ++ rest = s -> skipn k s = lit "newcounter" ++ r -> rest = lit "er" ++ r).
    { intros k s r Lk <- Er. do 4 (destruct k as [|k]; [clear R; repeat (destruct I as [<-|I]; [solve [discriminate Er | cbn in Er; injection Er as ->; reflexivity]|]); destruct I|]). lia. }
    assert (Q' : forall r, rest <> lit "er" ++ r) by (intros r ->; rewrite startswith_app in S; discriminate S).
    apply rel_alt2 in R as [R|R].
    - apply rel_rseq2 in R as (k & R1 & R2). unfold ropt in R1. apply rel_alt2 in R1 as [R1|R1].
      + apply rel_rstr in R1 as (-> & r1 & R1). apply rel_rstr in R2 as (_ & r2 & R2). apply (Q' r2). apply (Q 3 _ r2 ltac:(lia) eq_refl R2).
      + inversion R1; subst. apply rel_rstr in R2 as (_ & r2 & R2). apply (Q' r2). apply (Q 1 _ r2 ltac:(lia) eq_refl R2).
    - apply rel_rstr in R as (_ & r & R). clear - I R. repeat (destruct I as [<-|I]; [discriminate R|]). destruct I. }
  assert (E2 : rm (rstr (lit "\")) (lit word ++ rest) 0 [] = [(1, [])]) by (repeat (destruct I as [<-|I]; [reflexivity|]); destruct I).
  unfold P_counter. cbn [rseq]. set (alt := RAlt _ _) in *. set (K := RSeq sp _). change (rm (RSeq (rstr (lit "\")) (RSeq alt K)) (lit word ++ rest) 0 []) with (flat_map (fun p => rm (RSeq alt K) (lit word ++ rest) (fst p) (snd p)) (rm (rstr (lit "\")) (lit word ++ rest) 0 [])).
  rewrite E2. cbn [flat_map fst snd]. rewrite (rm_seq_none _ _ _ _ _ E1). reflexivity.
Qed.
Lemma register_ok : forall word gap name rest, In word register_words -> blank gap -> solid [c_lb; c_lk] name -> stops [c_lb; c_lk] rest ->
  let src := lit word ++ gap ++ [c_bs] ++ name in handle (src ++ rest) = Ok (Some (DOther name), Z.of_nat (length src)).
Proof.
  intros word gap name rest I B N S. cbv zeta. rewrite <- !app_assoc.
  assert (D : clear_but (lit word) KOther (fun k => kind_beq k KCounter) (PATTERNS u) = Some P_other) by (repeat (destruct I as [<-|I]; [vm_compute; reflexivity|]); destruct I).
  assert (Er : startswith (gap ++ [c_bs] ++ name ++ rest) (lit "er") = false).
  { destruct gap as [|x gap]; [reflexivity|]. unfold blank in B. cbn [forallb] in B. apply Bool.andb_true_iff in B as (B & _). cbn [List.app]. destruct (startswith (x :: gap ++ c_bs :: name ++ rest) (lit "er")) eqn:Q; [|reflexivity]. apply startswith_spec in Q as (q & Q). injection Q as -> _. discriminate B. }
  erewrite handle_finish; [|apply (clear_but_first (lit word) KOther (fun k => kind_beq k KCounter) _ P_other); [exact D| |apply fm_match; unfold P_other; apply rseqe_ok; cbn [rseqe]]].
  2:{ intros k' r' I' E'. apply kind_ok in E'. subst k'. assert (r' = P_counter) as ->; [|apply counter_dead; assumption]. clear - I'. unfold PATTERNS in I'. repeat (destruct I' as [I'|I']; [try discriminate I'; congruence|]). destruct I'. }
  2:{ instantiate (1 := [(1, (length ((lit word ++ gap) ++ lit "\"), length ((lit word ++ gap) ++ lit "\") + length name))]). instantiate (1 := length (((lit word ++ gap) ++ lit "\") ++ name)).
      assert (S' : sees (RSeq sp (RSeq (rstr (lit "\")) (RSeq (RGrp 1 (rplus no_name_end)) REps))) (lit word) (gap ++ lit "\" ++ name ++ rest) [] (length (((lit word ++ gap) ++ lit "\") ++ name)) [(1, (length ((lit word ++ gap) ++ lit "\"), length ((lit word ++ gap) ++ lit "\") + length name))]).
      { apply sees_blanks; [exact B|intros x r E; injection E as <- _; reflexivity|]. apply sees_lit. apply sees_run; [apply N|apply solid_all; exact N|apply stops_none; exact S|]. apply sees_done. }
      repeat (destruct I as [<-|I]; [(eapply fm_seq; [eexists; reflexivity|]; eapply fm_seq; [eexists; reflexivity|]; eapply fm_seq; [eexists; reflexivity|]; eapply fm_seq; [eexists; reflexivity|]; exact S')|]). destruct I. }
  cbn [finish m_end]. at_ 1 ((lit word ++ gap) ++ lit "\") name. rewrite (solid_strip _ _ N). ends.
Qed.
End Any.
