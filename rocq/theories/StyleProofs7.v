From Coq Require Import List NArith ZArith PeanoNat Lia Bool String.
From Verif Require Import PyStr Regex RegexLemmas RegexHead Json TexUtilsModel DelimSpec TextModel TextProofs EtoolProofs KeyvalProofs BuilderModel ContentModel ContentProofs5 CommandModel BoxModel StyleModel StyleSpec StyleSpec2 IfHandlerProofs2.
Import ListNotations. Notation length := List.length. Notation concat := List.concat. Open Scope list_scope.

Lemma runs_word : forall s r, runs (rstr s) s r keep.
Proof. intros s r t i c E. exact (fm_rstr s t i c r E). Qed.
Lemma runs_full : forall a r, a <> [] -> ~ In c_rb a -> runs (rplus (not_ch c_rb)) a (c_rb :: r) keep.
Proof.
  intros a r H1 H2 t i c E. unfold not_ch. eapply fm_plus; [exact E|exact H1| |].
  - apply forallb_forall. intros x I. apply negb_true_iff, N.eqb_neq. intros ->. exact (H2 I).
  - reflexivity.
Qed.
Lemma runs_arg : forall p r, plain_ok p -> runs sp_brace (plain_arg p) r keep.
Proof.
  intros [ws a] r (B & N0 & N1). unfold plain_arg, sp_brace. cbn [fst snd] in *.
  apply (runs_seq (rstar rspace) BRACE_CONTENT ws ([c_lb] ++ a ++ [c_rb]) r keep keep); [apply runs_ws; [exact B|reflexivity]|].
  apply (runs_seq (is_ch c_lb) (RSeq (rplus (not_ch c_rb)) (is_ch c_rb)) [c_lb] (a ++ [c_rb]) r keep keep); [apply runs_ch|].
  apply (runs_seq (rplus (not_ch c_rb)) (is_ch c_rb) a [c_rb] r keep keep); [apply runs_full; assumption|apply runs_ch].
Qed.

Section Fonts.
Variables (w : ch -> bool) (process : str -> res (list val)).
Lemma fonts_at : forall t e, re_match_at TEXT_PATTERN t 0 = None -> re_match_at CITETEXT_PATTERN t 0 = None ->
  first_match (FONTS_PATTERN w) t 0 [] e [] -> handle w process t = Ok (VNone, e).
Proof.
  intros t e H1 H2 H3. unfold handle, PATTERNS. cbn [try_patterns]. rewrite H1, H2, (fm_match _ _ _ _ _ H3). reflexivity.
Qed.
Lemma fontsize_ok : forall p q rest, plain_ok p -> plain_ok q ->
  handle w process ((lit "\fontsize" ++ plain_arg p ++ plain_arg q) ++ rest) = Ok (VNone, length (lit "\fontsize" ++ plain_arg p ++ plain_arg q)).
Proof.
  intros p q rest Hp Hq. set (cmd := lit "\fontsize" ++ plain_arg p ++ plain_arg q).
  apply fonts_at; [vm_compute; reflexivity|vm_compute; reflexivity|].
  apply fm_alt_left.
  assert (R : runs (RSeq (nm "\fontsize") (RSeq sp_brace sp_brace)) cmd rest keep).
  { apply (runs_seq (nm "\fontsize") (RSeq sp_brace sp_brace) (lit "\fontsize") (plain_arg p ++ plain_arg q) rest keep keep); [apply runs_word|].
    apply (runs_seq sp_brace sp_brace (plain_arg p) (plain_arg q) rest keep keep); apply runs_arg; assumption. }
  exact (R (cmd ++ rest) 0 [] eq_refl).
Qed.
Lemma usefont_ok : forall p q r s rest, plain_ok p -> plain_ok q -> plain_ok r -> plain_ok s ->
  handle w process ((lit "\usefont" ++ plain_arg p ++ plain_arg q ++ plain_arg r ++ plain_arg s) ++ rest) =
  Ok (VNone, length (lit "\usefont" ++ plain_arg p ++ plain_arg q ++ plain_arg r ++ plain_arg s)).
Proof.
  intros p q r s rest Hp Hq Hr Hs. set (cmd := lit "\usefont" ++ plain_arg p ++ plain_arg q ++ plain_arg r ++ plain_arg s).
  apply fonts_at; [vm_compute; reflexivity|vm_compute; reflexivity|].
  apply fm_alt_right; [vm_compute; reflexivity|]. apply fm_alt_right; [vm_compute; reflexivity|].
  assert (R : runs (RSeq (nm "\usefont") (RSeq sp_brace (RSeq sp_brace (RSeq sp_brace sp_brace)))) cmd rest keep).
  { apply (runs_seq _ _ (lit "\usefont") (plain_arg p ++ plain_arg q ++ plain_arg r ++ plain_arg s) rest keep keep); [apply runs_word|].
    apply (runs_seq _ _ (plain_arg p) (plain_arg q ++ plain_arg r ++ plain_arg s) rest keep keep); [apply runs_arg; assumption|].
    apply (runs_seq _ _ (plain_arg q) (plain_arg r ++ plain_arg s) rest keep keep); [apply runs_arg; assumption|].
    apply (runs_seq _ _ (plain_arg r) (plain_arg s) rest keep keep); apply runs_arg; assumption. }
  exact (R (cmd ++ rest) 0 [] eq_refl).
Qed.
Lemma selectfont_ok : forall rest, w 116%N = true -> first w rest = false ->
  handle w process (lit "\selectfont" ++ rest) = Ok (VNone, 11).
Proof.
  intros rest Wt Hr. apply fonts_at; [vm_compute; reflexivity|vm_compute; reflexivity|].
  apply fm_alt_right; [vm_compute; reflexivity|]. apply fm_alt_left.
  eapply fm_seq; [apply (fm_rstr (lit "\selectfont") _ 0 [] rest); reflexivity|]. unfold first_match.
  change (lit "\selectfont") with (lit "\selectfon" ++ [116%N]).
  rewrite (bound_one w _ 0 [] (lit "\selectfon") 116%N rest); [eexists; reflexivity| |exact Wt|].
  - cbn [skipn]. rewrite <- app_assoc. reflexivity.
  - destruct rest; [reflexivity|exact Hr].
Qed.
Lemma selectfont_alone : forall rest, w 116%N = true -> (forall x r, rest = x :: r -> w x = false) ->
  handle w process (lit "\selectfont" ++ rest) = Ok (VNone, 11).
Proof. intros rest H1 H2. apply selectfont_ok; [exact H1|]. destruct rest as [|x r]; [reflexivity|exact (H2 x r eq_refl)]. Qed.
End Fonts.
