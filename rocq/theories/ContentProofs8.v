From Coq Require Import List NArith ZArith PeanoNat Lia Bool String.
From Verif Require Import PyStr Regex RegexLemmas RegexHead Json TexUtilsModel DelimSpec DelimProofs DelimFinal TextProofs TableProofs2 TableCases EtoolProofs KeyvalProofs ContentModel ContentSpec ContentProofs ContentProofs2 ContentProofs3 ContentSpec2 ContentProofs5 ContentProofs6.
Import ListNotations. Notation length := List.length. Notation concat := List.concat. Open Scope list_scope.

Lemma bound_one : forall w (t : str) i c (a : str) x r, skipn i t = a ++ x :: r -> w x = true -> (match r with y :: _ => w y | [] => false end) = false ->
  rm (RBound w) t (i + length (a ++ [x])) c = [(i + length (a ++ [x]), c)].
Proof.
  intros w t i c a x r E Hx Hr. cbn [rm]. rewrite app_length. cbn [List.length]. replace (i + (length a + 1)) with (S (i + length a)) by lia.
  pose proof (skipn_more t i _ _ E) as E1. pose proof (skipn_more1 t _ _ _ E1) as E2.
  cbn [prev_is]. unfold next_is. rewrite !nth_error_skipn, E1, E2, Hx. destruct r as [|y r]; [reflexivity|]. rewrite Hr. reflexivity.
Qed.
Lemma fm_seq_assoc : forall p q r t i c j c', first_match (RSeq (RSeq p q) r) t i c j c' -> first_match (RSeq p (RSeq q r)) t i c j c'.
Proof.
  intros p q r t i c j c' [l E]. exists l. rewrite <- E. cbn [rm].
  induction (rm p t i c) as [|y l' IH]; [reflexivity|]. cbn [flat_map]. rewrite IH, flat_map_app. reflexivity.
Qed.
Section One.
Variables (word : ch -> bool) (expand : str -> str) (d : aliases).
Notation H := (content_handle word expand d).

Definition belows : list string := ["below"; "current"; ""]%string.
Lemma runs_below : forall q s r, In q belows -> runs (ropt (ralt [#"below"; #"current"])) (lit q) (lit "pdfbookmark" ++ s ++ r) keep.
Proof.
  intros q s r [<-|[<-|[<-|[]]]].
  - apply runs_left. cbn [ralt]. apply runs_left. apply runs_lit.
  - apply runs_left. cbn [ralt]. apply runs_right; [reflexivity|apply runs_lit].
  - apply runs_skip. intros t i c E. cbn [ralt]. change (rm (RAlt (rci (lit "below")) (rci (lit "current"))) t i c) with (rm (rci (lit "below")) t i c ++ rm (rci (lit "current")) t i c).
    rewrite !rm_rci, E. reflexivity.
Qed.
Definition two_args : re := RSeq sp (RSeq lbrace (RSeq (RGrp 2 (rstar (not_ch c_rb))) (RSeq (is_ch c_rb) (RSeq sp lbrace)))).
Lemma runs_opt_arg : forall ws1 o ws2 a ws3 r, blank ws1 -> blank ws2 -> blank ws3 -> good_note o -> flat a -> exists out,
  runs (RSeq sp (RSeq (opt_brace 1) two_args)) (ws1 ++ bracketed o ++ ws2 ++ group a ++ ws3 ++ [c_lb]) r out.
Proof.
  intros ws1 o ws2 a ws3 r H1 H2 H3 G Ha. destruct o as [b|].
  - eexists. apply (runs_seq sp _ ws1 (bracketed (Some b) ++ ws2 ++ group a ++ ws3 ++ [c_lb]) r keep); [apply runs_ws; [exact H1|reflexivity]|].
    apply (runs_seq (opt_brace 1) two_args (bracketed (Some b)) (ws2 ++ group a ++ ws3 ++ [c_lb]) r (opt_caps 1 (Some b))); [apply runs_opt; [exact G|discriminate]|].
    exact (runs_arg_end 2 ws2 a ws3 r H2 H3 Ha).
  - eexists. cbn [bracketed List.app]. rewrite app_assoc. apply (runs_seq sp _ (ws1 ++ ws2) (group a ++ ws3 ++ [c_lb]) r keep).
    + apply runs_ws; [unfold blank in *; rewrite forallb_app, H1, H2; reflexivity|reflexivity].
    + apply (runs_seq (opt_brace 1) two_args [] (group a ++ ws3 ++ [c_lb]) r keep); [apply (runs_opt 1 None); [exact I|reflexivity]|].
      exact (runs_arg_end 2 [] a ws3 r eq_refl H3 Ha).
Qed.
Lemma pdfbookmark_command : forall q ws1 o ws2 a ws3 body rest, In q belows -> blank ws1 -> blank ws2 -> blank ws3 -> good_note o -> flat a -> closed body ->
  takes H (lit "\" ++ lit q ++ lit "pdfbookmark" ++ ws1 ++ bracketed o ++ ws2 ++ group a ++ ws3 ++ group body) rest d VNone.
Proof.
  intros q ws1 o ws2 a ws3 body rest Hq H1 H2 H3 G Ha Hb. unfold takes. set (nm := lit "pdfbookmark").
  replace (lit "\" ++ lit q ++ nm ++ ws1 ++ bracketed o ++ ws2 ++ group a ++ ws3 ++ group body)
    with ((lit "\" ++ lit q ++ nm ++ ws1 ++ bracketed o ++ ws2 ++ group a ++ ws3) ++ group body) by (rewrite <- !app_assoc; reflexivity).
  assert (F : forall r, first_pattern (firstn 14 (PATTERNS word)) (lit "\" ++ lit q ++ nm ++ r) = None).
  { intros r. destruct Hq as [<-|[<-|[<-|[]]]]; reflexivity. }
  destruct (runs_opt_arg ws1 o ws2 a ws3 (body ++ [c_rb] ++ rest) H1 H2 H3 G Ha) as [out R].
  refine (group_command word expand d d VNone 14 Kpdfbookmark P_pdfbookmark (lit "\" ++ lit q ++ nm ++ ws1 ++ bracketed o ++ ws2 ++ group a ++ ws3) body rest
    (fun i c => out (i + length [c_bs] + length (lit q) + length nm) c) _ eq_refl _ _ _ Hb eq_refl); try discriminate.
  - rewrite <- !app_assoc. apply F.
  - rewrite <- !app_assoc. unfold P_pdfbookmark. cbn [rseq].
    apply (runs_seq bs _ [c_bs] (lit q ++ nm ++ ws1 ++ bracketed o ++ ws2 ++ group a ++ ws3 ++ [c_lb]) (body ++ [c_rb] ++ rest) keep (fun i c => out (i + length (lit q) + length nm) c)); [apply runs_ch|].
    apply (runs_seq _ _ (lit q) (nm ++ ws1 ++ bracketed o ++ ws2 ++ group a ++ ws3 ++ [c_lb]) (body ++ [c_rb] ++ rest) keep (fun i c => out (i + length nm) c)); [rewrite <- app_assoc; apply runs_below; exact Hq|].
    apply (runs_seq _ _ nm (ws1 ++ bracketed o ++ ws2 ++ group a ++ ws3 ++ [c_lb]) (body ++ [c_rb] ++ rest) keep out); [apply runs_lit|exact R].
Qed.
Lemma runs_app_name : forall name r, In name ["appendix"; "appendices"]%string -> runs (RSeq bs (ralt [#"appendix"; #"appendices"])) ([c_bs] ++ lit name) r keep.
Proof.
  intros name r Hn. apply (runs_seq bs _ [c_bs] (lit name) r keep keep); [apply runs_ch|]. cbn [ralt]. destruct Hn as [<-|[<-|[]]].
  - apply runs_left, runs_lit.
  - apply runs_right; [reflexivity|apply runs_lit].
Qed.
Lemma appendix_command : forall name rest, In name ["appendix"; "appendices"]%string -> word 120%N = true -> word 115%N = true -> (forall x r, rest = x :: r -> word x = false) ->
  takes H (lit "\" ++ lit name) rest d (token "appendix" []).
Proof.
  intros name rest Hn W1 W2 Hr. assert (B : (match rest with y :: _ => word y | [] => false end) = false) by (destruct rest as [|y r]; [reflexivity|exact (Hr y r eq_refl)]).
  assert (F : first_pattern (firstn 26 (PATTERNS word)) ((lit "\" ++ lit name) ++ rest) = None) by (destruct Hn as [<-|[<-|[]]]; reflexivity).
  assert (L : exists a x, lit "\" ++ lit name = a ++ [x] /\ word x = true).
  { destruct Hn as [<-|[<-|[]]]; [exists (lit "\appendi"), 120%N|exists (lit "\appendice"), 115%N]; split; auto. }
  destruct L as (a & x & Ea & Wx).
  assert (M : first_match (P_appendix word) ((lit "\" ++ lit name) ++ rest) 0 [] (length (lit "\" ++ lit name)) []).
  { unfold P_appendix. cbn [rseq]. apply fm_seq_assoc. eapply fm_seq; [apply (runs_app_name name rest Hn ((lit "\" ++ lit name) ++ rest) 0 []); reflexivity|].
    pose proof (bound_one word ((lit "\" ++ lit name) ++ rest) 0 (keep 0 []) a x rest) as Q. specialize (Q ltac:(cbn [skipn]; rewrite Ea, <- app_assoc; reflexivity) Wx B).
    rewrite <- Ea in Q. unfold first_match. exists []. exact Q. }
  unfold takes, content_handle. rewrite <- (firstn_skipn 26 (PATTERNS word)), first_pattern_app by exact F. cbn [PATTERNS skipn first_pattern].
  rewrite (fm_match _ _ _ _ _ M). reflexivity.
Qed.
End One.
