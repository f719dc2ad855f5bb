(** C103: one lemma for each way of writing a declaration. *)
From Coq Require Import List NArith ZArith PeanoNat Lia Bool String.
From Verif Require CommandModel FormatProofs3 FormatProofs5 CommandProofs CommandProofs2 CommandProofs4 CommandProofs6.
From Verif Require Import PyStr Regex RegexLemmas RegexHead RegexAbs DelimSpec DelimProofs DelimFinal TexUtilsModel StyleModel CommandSpec DefModel DefSpec DefProofs DefProofs3.
Import ListNotations. Notation length := List.length. Notation concat := List.concat. Open Scope list_scope.
Notation fm := RegexHead.first_match.
Notation first_match := DefModel.first_match.

Lemma next_lb : forall s x r, braced s = x :: r -> isspace x = false.
Proof. intros s x r E. unfold braced in E. injection E as <- _. reflexivity. Qed.
Lemma next_lb2 : forall s q x r, braced s ++ q = x :: r -> isspace x = false.
Proof. intros s q x r E. unfold braced in E. injection E as <- _. reflexivity. Qed.
Lemma next_bs : forall (s : str) x r, c_bs :: s = x :: r -> isspace x = false.
Proof. intros s x r E. injection E as <- _. reflexivity. Qed.
Lemma lb_not : forall x s q, x <> c_lb -> not_next x (braced s ++ q).
Proof. intros x s q N r E. unfold braced in E. injection E as E _. congruence. Qed.
Lemma some_given : forall s : str, match s with [] => None | a :: b => Some (a :: b) end = given (Some s).
Proof. intros [|x s]; reflexivity. Qed.
Ltac reads u k p P := let P' := eval unfold P in P in lazymatch P' with rseq ?l => erewrite handle_finish; [|apply (read_by u k p l); [vm_compute; reflexivity|cbn [rseqe]]] end.
Ltac at_ g a b := erewrite (grp_at _ a b _ g); [|unfold braced, bracketed, optional; rewrite <- ?app_assoc; reflexivity|reflexivity|reflexivity|reflexivity].
Ltac ends := cbn [List.app]; rewrite <- ?app_assoc, ?app_nil_r; reflexivity.
Section Any.
Variables u ualpha ualnum : ch -> bool.
Local Notation handle := (handle u ualpha ualnum).

Lemma floatname_ok : forall name title rest, ~ In c_rb name -> ~ In c_rb title ->
  handle ((lit "\floatname" ++ braced name ++ braced title) ++ rest) = Ok (Some (DFloat name title), Z.of_nat (length (lit "\floatname" ++ braced name ++ braced title))).
Proof.
  intros name title rest N1 N2. set (q := lit "\floatname"). rewrite <- !app_assoc.
  reads u KFloat (lit "\floatname") P_floatname.
  2:{ apply sees_lit. apply sees_star_arg; [exact N1|]. apply sees_star_arg; [exact N2|]. apply sees_done. }
  cbn [finish m_end]. at_ 1 (([] ++ q) ++ [c_lb]) name. at_ 2 ((([] ++ q) ++ braced name) ++ [c_lb]) title. ends.
Qed.

Lemma theorem_ok : forall star name counter title within rest, In star [[]; lit "*"] -> ~ In c_rb name -> ~ In c_rb title ->
    (forall s, counter = Some s \/ within = Some s -> ~ In c_rk s) -> (within = None -> not_next c_lk rest) ->
    let src := lit "\newtheorem" ++ star ++ braced name ++ optional counter ++ braced title ++ optional within in
  handle (src ++ rest) = Ok (Some (DTheorem name title (given counter) (given within)), Z.of_nat (length src)).
Proof.
  intros star name counter title within rest Is N1 N2 Nk F. cbv zeta. rewrite <- !app_assoc.
  assert (S1 : exists pre, pre = ([] ++ lit "\newtheorem") ++ star /\ forall K q c j c', sees K pre (braced name ++ q) c j c' -> sees (RSeq (rstr (lit "\newtheorem")) (RSeq (ropt (rstr (lit "*"))) K)) [] (lit "\newtheorem" ++ star ++ braced name ++ q) c j c').
  { exists (([] ++ lit "\newtheorem") ++ star). split; [reflexivity|]. intros K q c j c' H. apply sees_lit. destruct Is as [<-|[<-|[]]]; [apply sees_may_none; [reflexivity|exact H]|apply sees_may_some; exact H]. }
  destruct S1 as (pre & Ep & S1).
  assert (Lp : length pre = length (lit "\newtheorem" ++ star)) by (rewrite Ep; reflexivity).
  destruct counter as [counter|]; destruct within as [within|]; cbn [optional].
  - reads u KTheorem (lit "\newtheorem") P_theorem.
    2:{ apply S1. apply sees_star_arg; [exact N1|]. apply sees_opt_some; [apply Nk; auto|]. apply sees_star_arg; [exact N2|]. apply sees_opt_some; [apply Nk; auto|]. apply sees_done. }
    cbn [finish m_end]. unfold some_group. rewrite Ep. at_ 1 ((([] ++ lit "\newtheorem") ++ star) ++ [c_lb]) name. at_ 2 (((([] ++ lit "\newtheorem") ++ star) ++ braced name) ++ [c_lk]) counter.
    at_ 3 ((((([] ++ lit "\newtheorem") ++ star) ++ braced name) ++ bracketed counter) ++ [c_lb]) title. at_ 4 (((((([] ++ lit "\newtheorem") ++ star) ++ braced name) ++ bracketed counter) ++ braced title) ++ [c_lk]) within.
    rewrite !some_given. ends.
  - reads u KTheorem (lit "\newtheorem") P_theorem.
    2:{ apply S1. apply sees_star_arg; [exact N1|]. apply sees_opt_some; [apply Nk; auto|]. apply sees_star_arg; [exact N2|]. apply (sees_opt_none _ _ _ _ _ _ c_lk "["); [apply F; reflexivity|reflexivity|]. apply sees_done. }
    cbn [finish m_end]. unfold some_group. rewrite Ep. at_ 1 ((([] ++ lit "\newtheorem") ++ star) ++ [c_lb]) name. at_ 2 (((([] ++ lit "\newtheorem") ++ star) ++ braced name) ++ [c_lk]) counter.
    at_ 3 ((((([] ++ lit "\newtheorem") ++ star) ++ braced name) ++ bracketed counter) ++ [c_lb]) title. rewrite (grp_none _ 4) by reflexivity.
    rewrite !some_given. ends.
  - reads u KTheorem (lit "\newtheorem") P_theorem.
    2:{ apply S1. apply sees_star_arg; [exact N1|]. apply (sees_opt_none _ _ _ _ _ _ c_lk "["); [apply lb_not; discriminate|reflexivity|]. apply sees_star_arg; [exact N2|]. apply sees_opt_some; [apply Nk; auto|]. apply sees_done. }
    cbn [finish m_end]. unfold some_group. rewrite Ep. at_ 1 ((([] ++ lit "\newtheorem") ++ star) ++ [c_lb]) name. rewrite (grp_none _ 2) by reflexivity.
    at_ 3 (((([] ++ lit "\newtheorem") ++ star) ++ braced name) ++ [c_lb]) title. at_ 4 ((((([] ++ lit "\newtheorem") ++ star) ++ braced name) ++ braced title) ++ [c_lk]) within.
    rewrite !some_given. ends.
  - reads u KTheorem (lit "\newtheorem") P_theorem.
    2:{ apply S1. apply sees_star_arg; [exact N1|]. apply (sees_opt_none _ _ _ _ _ _ c_lk "["); [apply lb_not; discriminate|reflexivity|]. apply sees_star_arg; [exact N2|]. apply (sees_opt_none _ _ _ _ _ _ c_lk "["); [apply F; reflexivity|reflexivity|]. apply sees_done. }
    cbn [finish m_end]. unfold some_group. rewrite Ep. at_ 1 ((([] ++ lit "\newtheorem") ++ star) ++ [c_lb]) name. rewrite (grp_none _ 2) by reflexivity.
    at_ 3 (((([] ++ lit "\newtheorem") ++ star) ++ braced name) ++ [c_lb]) title. rewrite (grp_none _ 4) by reflexivity. ends.
Qed.

Lemma cref_head : forall word K q c j c', In word [lit "\crefname"; lit "\Crefname"] -> sees K word q c j c' ->
  sees (RSeq (rstr (lit "\")) (RSeq (rcls (lit "cC")) (RSeq (rstr (lit "refname")) K))) [] (word ++ q) c j c'.
Proof.
  intros word K q c j c' I H. destruct I as [<-|[<-|[]]].
  - change (lit "\crefname" ++ q) with (lit "\" ++ (lit "c" ++ lit "refname" ++ q)). apply sees_lit. eapply fm_seq; [apply (fm_chr _ _ _ _ 99%N (lit "refname" ++ q)); reflexivity|]. eapply fm_seq; [apply (fm_rstr _ _ _ _ q); reflexivity|exact H].
  - change (lit "\Crefname" ++ q) with (lit "\" ++ (lit "C" ++ lit "refname" ++ q)). apply sees_lit. eapply fm_seq; [apply (fm_chr _ _ _ _ 67%N (lit "refname" ++ q)); reflexivity|]. eapply fm_seq; [apply (fm_rstr _ _ _ _ q); reflexivity|exact H].
Qed.
Lemma cref_ok : forall word name singular plural rest, In word [lit "\crefname"; lit "\Crefname"] -> ~ In c_rb name -> ~ In c_rb singular ->
    (forall s, plural = Some s -> ~ In c_rb s) -> (plural = None -> not_next c_lb rest) ->
    let src := word ++ braced name ++ braced singular ++ match plural with Some s => braced s | None => [] end in
  handle (src ++ rest) = Ok (Some (DCref name singular (match plural with Some s => s | None => [] end)), Z.of_nat (length src)).
Proof.
  intros word name singular plural rest I N1 N2 N3 F. cbv zeta. rewrite <- !app_assoc.
  assert (D : clear_to word KCref (PATTERNS u) = Some P_crefname) by (destruct I as [<-|[<-|[]]]; vm_compute; reflexivity).
  destruct plural as [plural|].
  - erewrite handle_finish; [|apply (clear_first word KCref _ P_crefname); [exact D|apply fm_match; unfold P_crefname; apply rseqe_ok; cbn [rseqe]]].
    2:{ apply cref_head; [exact I|]. apply sees_star_arg; [exact N1|]. apply sees_star_arg; [exact N2|].
        eapply fm_seq; [|apply fm_eps]. unfold ropt. apply fm_alt_left. apply rseqe_ok. cbn [rseqe]. apply sees_star_arg; [exact (N3 _ eq_refl)|]. apply sees_done. }
    cbn [finish m_end]. at_ 1 (word ++ [c_lb]) name. at_ 2 ((word ++ braced name) ++ [c_lb]) singular. at_ 3 (((word ++ braced name) ++ braced singular) ++ [c_lb]) plural. ends.
  - erewrite handle_finish; [|apply (clear_first word KCref _ P_crefname); [exact D|apply fm_match; unfold P_crefname; apply rseqe_ok; cbn [rseqe]]].
    2:{ apply cref_head; [exact I|]. apply sees_star_arg; [exact N1|]. apply sees_star_arg; [exact N2|].
        apply (sees_opt_none _ _ _ _ _ _ c_lb "{"); [apply F; reflexivity|reflexivity|]. apply sees_done. }
    cbn [finish m_end]. at_ 1 (word ++ [c_lb]) name. at_ 2 ((word ++ braced name) ++ [c_lb]) singular. rewrite (grp_none _ 3) by reflexivity. ends.
Qed.
End Any.
