From Coq Require Import List NArith ZArith PeanoNat Lia Bool String.
From Verif Require Import PyStr Regex RegexLemmas RegexHead Json TexUtilsModel DelimSpec DelimProofs DelimFinal TextProofs TableProofs2 TableCases EtoolProofs KeyvalProofs ContentModel ContentSpec ContentProofs ContentProofs2 ContentProofs3 ContentSpec2 ContentProofs5.
Import ListNotations. Notation length := List.length. Notation concat := List.concat. Open Scope list_scope.

Lemma ws_lb : forall p ws r, blank ws -> (forall x, isspace x = true -> p x = false) -> p c_lb = false -> first p (ws ++ [c_lb] ++ r) = false.
Proof. intros. apply first_ws; assumption. Qed.
Lemma runs_end : forall ws r, blank ws -> runs (RSeq sp lbrace) (ws ++ [c_lb]) r keep.
Proof. intros ws r H. change keep with (fun (i : nat) (c : caps) => keep (i + length ws) (keep i c)). apply runs_seq; [apply runs_ws; [exact H|reflexivity]|apply runs_ch]. Qed.
Lemma runs_star_end : forall b ws r, blank ws -> runs (RSeq ostar (RSeq sp lbrace)) (starred b ++ ws ++ [c_lb]) r keep.
Proof.
  intros b ws r H. apply (runs_seq ostar _ (starred b) (ws ++ [c_lb]) r keep keep); [|apply runs_end; exact H].
  apply runs_star. rewrite <- app_assoc. apply ws_lb; [exact H| |reflexivity]. intros x. apply space_not. reflexivity.
Qed.
Lemma runs_name : forall n p s r o, runs p s r o -> runs (RSeq bs (RSeq (rci n) p)) ([c_bs] ++ n ++ s) r (fun i c => o (i + 1 + length n) c).
Proof. intros n p s r o H. apply (runs_seq bs _ [c_bs] (n ++ s) r keep (fun i c => o (i + length n) c)); [apply runs_ch|]. apply (runs_seq (rci n) p n s r keep o); [apply runs_lit|exact H]. Qed.
(** [optional][group] *)
Lemma runs_opt_end : forall n ws1 o ws2 r, blank ws1 -> blank ws2 -> good_note o ->
  runs (RSeq sp (RSeq (opt_brace n) (RSeq sp lbrace))) (ws1 ++ bracketed o ++ ws2 ++ [c_lb]) r (fun i c => opt_caps n o (i + match o with Some _ => length ws1 | None => length ws1 + length ws2 end) c).
Proof.
  intros n ws1 o ws2 r H1 H2 G. destruct o as [a|].
  - apply (runs_seq sp _ ws1 (bracketed (Some a) ++ ws2 ++ [c_lb]) r keep (fun i c => opt_caps n (Some a) i c)); [apply runs_ws; [exact H1|reflexivity]|].
    apply (runs_seq _ (RSeq sp lbrace) (bracketed (Some a)) (ws2 ++ [c_lb]) r (opt_caps n (Some a)) keep); [apply runs_opt; [exact G|discriminate]|apply runs_end; exact H2].
  - cbn [bracketed List.app opt_caps]. rewrite app_assoc. apply (runs_seq sp _ (ws1 ++ ws2) [c_lb] r keep keep).
    + apply runs_ws; [unfold blank in *; rewrite forallb_app, H1, H2; reflexivity|reflexivity].
    + apply (runs_seq (opt_brace n) _ [] [c_lb] r keep keep); [apply (runs_opt n None); [exact I|reflexivity]|]. apply (runs_end [] r). reflexivity.
Qed.
(** {argument}{group} *)
Lemma runs_arg_end : forall n ws1 a ws2 r, blank ws1 -> blank ws2 -> flat a ->
  runs (RSeq sp (RSeq lbrace (RSeq (RGrp n (rstar (not_ch c_rb))) (RSeq (is_ch c_rb) (RSeq sp lbrace))))) (ws1 ++ group a ++ ws2 ++ [c_lb]) r
    (fun i c => (n, (i + length ws1 + 1, i + length ws1 + 1 + length a)) :: c).
Proof.
  intros n ws1 a ws2 r H1 H2 G. unfold group. rewrite <- !app_assoc.
  apply (runs_seq sp _ ws1 _ r keep (fun i c => (n, (i + 1, i + 1 + length a)) :: c)); [apply runs_ws; [exact H1|reflexivity]|].
  apply (runs_seq lbrace _ [c_lb] _ r keep (fun i c => (n, (i, i + length a)) :: c)); [apply runs_ch|].
  apply (runs_seq _ _ a ([c_rb] ++ ws2 ++ [c_lb]) r (fun i c => (n, (i, i + length a)) :: c) keep); [apply runs_cap; [exact G|reflexivity]|].
  apply (runs_seq (is_ch c_rb) _ [c_rb] (ws2 ++ [c_lb]) r keep keep); [apply runs_ch|apply runs_end; exact H2].
Qed.


(** * Graphics *)
Lemma digit_iff : forall x, isdigit x = true <-> (48 <= x <= 57)%N.
Proof. intros x. unfold isdigit, in_range. rewrite andb_true_iff, !N.leb_le. tauto. Qed.
Lemma digits_value : forall ds acc, (forall x, In x ds -> (48 <= x <= 57)%N) -> nat_of_digits acc ds = Some (fold_left (fun n x => 10 * n + (N.to_nat x - 48)) ds acc).
Proof.
  induction ds as [|x ds IH]; intros acc D; [reflexivity|]. cbn [nat_of_digits fold_left]. rewrite (proj2 (digit_iff x) (D x (or_introl eq_refl))).
  rewrite IH by (intros; apply D; right; assumption). f_equal. f_equal. specialize (D x (or_introl eq_refl)). lia.
Qed.
Lemma int_value : forall ds, digits ds -> int_of_str ds = Some (value ds).
Proof. intros ds [N D]. unfold int_of_str, value. rewrite <- digits_value by exact D. destruct ds; [congruence|reflexivity]. Qed.
(** * References and links *)
Section One.
Variables (word : ch -> bool) (expand : str -> str) (d : aliases).
Notation H := (content_handle word expand d).

Definition ref_prefix (q : string) : Prop := q = "auto"%string \/ q = "eq"%string \/ q = "page"%string \/ q = ""%string.
Lemma runs_ref : forall q s r, ref_prefix q -> runs (ropt (ralt [#"auto"; #"eq"; #"page"])) (lit q) (lit "ref" ++ s ++ r) keep.
Proof.
  intros q s r [->|[->|[->| ->]]].
  - apply runs_left. cbn [ralt]. apply runs_left. apply runs_lit.
  - apply runs_left. apply runs_right; [reflexivity|]. apply runs_left. apply runs_lit.
  - apply runs_left. apply runs_right; [reflexivity|]. apply runs_right; [reflexivity|]. apply runs_lit.
  - apply runs_skip. intros t i c E. cbn [ralt]. change (rm (RAlt ?a (RAlt ?b ?e)) t i c) with (rm a t i c ++ rm b t i c ++ rm e t i c). rewrite !rm_rci, E. reflexivity.
Qed.
Definition ref_commands : list string := ["\autoref"; "\eqref"; "\pageref"; "\ref"]%string.
Lemma ref_command : forall name star ws body rest, In name ref_commands -> blank ws -> closed body ->
  takes H (lit name ++ starred star ++ ws ++ group body) rest d (token "ref" [field "content" (VList [VStr (strip (expand body))])]).
Proof.
  intros name star ws body rest Hn Hw Hb. assert (Q : exists q, ref_prefix q /\ lit name = [c_bs] ++ lit q ++ lit "ref" /\
    forall r, first_pattern (firstn 9 (PATTERNS word)) (lit name ++ r) = None).
  { destruct Hn as [<-|[<-|[<-|[<-|[]]]]]; [exists "auto"%string|exists "eq"%string|exists "page"%string|exists ""%string]; (split; [unfold ref_prefix; auto|split; [reflexivity|intros r; reflexivity]]). }
  destruct Q as (q & Q & E & F). unfold takes. replace (lit name ++ starred star ++ ws ++ group body) with ((lit name ++ starred star ++ ws) ++ group body) by (rewrite <- !app_assoc; reflexivity).
  eapply (group_command word expand d d _ 9 Kref P_ref); [rewrite <- !app_assoc; apply F|reflexivity|discriminate|discriminate| |exact Hb|].
  - rewrite E, <- !app_assoc. unfold P_ref. cbn [rseq]. apply (runs_seq bs _ [c_bs] _ _ keep keep); [apply runs_ch|].
    apply (runs_seq _ _ (lit q) _ _ keep keep); [rewrite <- !app_assoc; apply (runs_ref q _ _ Q)|]. apply (runs_seq _ _ (lit "ref") _ _ keep keep); [apply runs_lit|]. apply runs_star_end. exact Hw.
  - unfold create_token. rewrite strip_idem. reflexivity.
Qed.
(** [\name *{body}], [\name [opt]{body}], [\name {arg}{body}], for a name whose first pattern is the [n]th *)
Lemma star_command : forall n k p d' v nm star ws body rest,
  (forall r, first_pattern (firstn n (PATTERNS word)) ([c_bs] ++ nm ++ r) = None) -> nth_error (PATTERNS word) n = Some (k, p) -> k <> Kfootnotemark -> k <> Kappendix ->
  p = RSeq bs (RSeq (rci nm) (RSeq ostar (RSeq sp lbrace))) -> blank ws -> closed body ->
  (forall t, t = ([c_bs] ++ nm ++ starred star ++ ws ++ group body) ++ rest ->
    create_token d k t {| m_start := 0; m_end := S (length ([c_bs] ++ nm ++ starred star ++ ws)); m_caps := [] |} (expand body) = Ok (d', v)) ->
  takes H ([c_bs] ++ nm ++ starred star ++ ws ++ group body) rest d' v.
Proof.
  intros n k p d' v nm star ws body rest F N K1 K2 -> Hw Hb C. unfold takes. specialize (C _ eq_refl).
  replace ([c_bs] ++ nm ++ starred star ++ ws ++ group body) with (([c_bs] ++ nm ++ starred star ++ ws) ++ group body) in * by (rewrite <- !app_assoc; reflexivity).
  eapply (group_command word expand d d' v n k _ ([c_bs] ++ nm ++ starred star ++ ws) body rest (fun i c => keep (i + 1 + length nm) c));
    [rewrite <- !app_assoc; apply F|exact N|exact K1|exact K2| |exact Hb|exact C].
  rewrite <- !app_assoc. apply (runs_name nm _ (starred star ++ ws ++ [c_lb]) _ keep). apply runs_star_end. exact Hw.
Qed.
Lemma plain_command : forall n k p d' v nm ws body rest,
  (forall r, first_pattern (firstn n (PATTERNS word)) ([c_bs] ++ nm ++ r) = None) -> nth_error (PATTERNS word) n = Some (k, p) -> k <> Kfootnotemark -> k <> Kappendix ->
  (forall s r, runs (RSeq sp lbrace) s r keep -> runs p ([c_bs] ++ nm ++ s) r keep) -> blank ws -> closed body ->
  (forall t, t = ([c_bs] ++ nm ++ ws ++ group body) ++ rest ->
    create_token d k t {| m_start := 0; m_end := S (length ([c_bs] ++ nm ++ ws)); m_caps := [] |} (expand body) = Ok (d', v)) ->
  takes H ([c_bs] ++ nm ++ ws ++ group body) rest d' v.
Proof.
  intros n k p d' v nm ws body rest F N K1 K2 R Hw Hb C. unfold takes. specialize (C _ eq_refl).
  replace ([c_bs] ++ nm ++ ws ++ group body) with (([c_bs] ++ nm ++ ws) ++ group body) in * by (rewrite <- !app_assoc; reflexivity).
  eapply (group_command word expand d d' v n k p ([c_bs] ++ nm ++ ws) body rest keep); [rewrite <- !app_assoc; apply F|exact N|exact K1|exact K2| |exact Hb|exact C].
  rewrite <- !app_assoc. apply R. apply runs_end. exact Hw.
Qed.
Lemma option_command : forall n k p d' v nm ws1 o ws2 body rest,
  (forall r, first_pattern (firstn n (PATTERNS word)) ([c_bs] ++ nm ++ r) = None) -> nth_error (PATTERNS word) n = Some (k, p) -> k <> Kfootnotemark -> k <> Kappendix ->
  p = RSeq bs (RSeq (rci nm) (RSeq sp (RSeq (opt_brace 1) (RSeq sp lbrace)))) -> blank ws1 -> blank ws2 -> good_note o -> closed body ->
  (forall t m, m_group t 1 m = o -> create_token d k t m (expand body) = Ok (d', v)) ->
  takes H ([c_bs] ++ nm ++ ws1 ++ bracketed o ++ ws2 ++ group body) rest d' v.
Proof.
  intros n k p d' v nm ws1 o ws2 body rest F N K1 K2 -> H1 H2 G Hb C. unfold takes.
  replace ([c_bs] ++ nm ++ ws1 ++ bracketed o ++ ws2 ++ group body) with (([c_bs] ++ nm ++ ws1 ++ bracketed o ++ ws2) ++ group body) by (rewrite <- !app_assoc; reflexivity).
  eapply (group_command word expand d d' v n k _ ([c_bs] ++ nm ++ ws1 ++ bracketed o ++ ws2) body rest);
    [rewrite <- !app_assoc; apply F|exact N|exact K1|exact K2| |exact Hb|].
  - rewrite <- !app_assoc. apply runs_name. apply (runs_opt_end 1 ws1 o ws2); assumption.
  - cbv beta. apply C. destruct o as [a|]; cbn [opt_caps]; [|reflexivity].
    match goal with |- m_group ?t 1 ?m = _ => change m with {| m_start := 0; m_end := m_end m; m_caps := (1, (S (0 + 1 + length nm + length ws1), S (0 + 1 + length nm + length ws1) + length a)) :: [] |}; cbn [m_end] end.
    eapply (group_of _ ([c_bs] ++ nm ++ ws1 ++ [c_lk])); [cbn [bracketed]; unfold group; rewrite <- !app_assoc; reflexivity|rewrite !app_length; cbn [length]; lia].
Qed.
Lemma two_command : forall n k p d' v nm pre ws1 a ws2 body rest,
  (forall r, first_pattern (firstn n (PATTERNS word)) ([c_bs] ++ nm ++ r) = None) -> nth_error (PATTERNS word) n = Some (k, p) -> k <> Kfootnotemark -> k <> Kappendix ->
  (forall s r o, runs (RSeq sp (RSeq lbrace (RSeq (RGrp 1 (rstar (not_ch c_rb))) (RSeq (is_ch c_rb) (RSeq sp lbrace))))) s r o -> first (N.eqb c_star) (s ++ r) = false ->
     runs p ([c_bs] ++ nm ++ pre ++ s) r (fun i c => o (i + 1 + length nm + length pre) c)) ->
  blank ws1 -> blank ws2 -> flat a -> closed body ->
  (forall t m, m_group t 1 m = Some a -> create_token d k t m (expand body) = Ok (d', v)) ->
  takes H ([c_bs] ++ nm ++ pre ++ ws1 ++ group a ++ ws2 ++ group body) rest d' v.
Proof.
  intros n k p d' v nm pre ws1 a ws2 body rest F N K1 K2 R H1 H2 G Hb C. unfold takes.
  replace ([c_bs] ++ nm ++ pre ++ ws1 ++ group a ++ ws2 ++ group body) with (([c_bs] ++ nm ++ pre ++ ws1 ++ group a ++ ws2) ++ group body) by (rewrite <- !app_assoc; reflexivity).
  eapply (group_command word expand d d' v n k _ ([c_bs] ++ nm ++ pre ++ ws1 ++ group a ++ ws2) body rest);
    [rewrite <- !app_assoc; apply F|exact N|exact K1|exact K2| |exact Hb|].
  - rewrite <- !app_assoc. apply R; [apply runs_arg_end; assumption|]. unfold group. rewrite <- !app_assoc. apply ws_lb; [exact H1| |reflexivity]. intros x. apply space_not. reflexivity.
  - cbv beta. apply C. eapply (group_of _ ([c_bs] ++ nm ++ pre ++ ws1 ++ [c_lb])); [unfold group; rewrite <- !app_assoc; reflexivity|rewrite !app_length; cbn [length]; lia].
Qed.
Ltac bslash := intros r; reflexivity.
Lemma hyperref_command : forall ws1 lab ws2 body rest, blank ws1 -> blank ws2 -> ~ In c_rk lab -> closed body ->
  takes H (lit "\hyperref" ++ ws1 ++ bracketed (Some lab) ++ ws2 ++ group body) rest d
    (token "ref" [field "title" (VStr (strip (expand body))); field "content" (VList [VStr (strip lab)])]).
Proof.
  intros ws1 lab ws2 body rest H1 H2 G Hb. apply (option_command 11 Khyperref P_hyperref d _ (lit "hyperref")); try assumption; try discriminate; try reflexivity.
  intros t m E. unfold create_token, group_strip1. rewrite E. reflexivity.
Qed.
Lemma href_command : forall ws1 u ws2 body rest, blank ws1 -> blank ws2 -> flat u -> closed body ->
  takes H (lit "\href" ++ ws1 ++ group u ++ ws2 ++ group body) rest d
    (token "url" [field "title" (VStr (strip (expand body))); field "content" (VStr (strip u))]).
Proof.
  intros ws1 u ws2 body rest H1 H2 G Hb. apply (two_command 12 Khref P_href d _ (lit "href") []); try assumption; try discriminate; try reflexivity.
  - intros s r o R _. unfold P_href. cbn [rseq List.app length]. intros t i c. specialize (runs_name (lit "href") _ s r o R t i c). rewrite Nat.add_0_r. exact (fun X => X).
  - intros t m E. unfold create_token, group_strip1. rewrite E. reflexivity.
Qed.
Lemma url_command : forall name ws body rest, In name ["\url"; "\path"]%string -> blank ws -> closed body ->
  takes H (lit name ++ ws ++ group body) rest d (token "url" [field "content" (VStr (strip (expand body)))]).
Proof.
  intros name ws body rest [<-|[<-|[]]] Hw Hb; [apply (plain_command 17 Kurl P_url d _ (lit "url"))|apply (plain_command 17 Kurl P_url d _ (lit "path"))]; try assumption; try discriminate; try reflexivity; intros s r R; unfold P_url; cbn [rseq ralt].
  - apply (runs_seq bs _ [c_bs] _ _ keep keep); [apply runs_ch|]. apply (runs_seq _ _ (lit "url") _ _ keep keep); [apply runs_left; apply runs_lit|exact R].
  - apply (runs_seq bs _ [c_bs] _ _ keep keep); [apply runs_ch|]. apply (runs_seq _ _ (lit "path") _ _ keep keep); [apply runs_right; [reflexivity|apply runs_lit]|exact R].
Qed.
Lemma named : forall nm s r, runs (RSeq sp lbrace) s r keep -> runs (RSeq bs (RSeq (rci nm) (RSeq sp lbrace))) ([c_bs] ++ nm ++ s) r keep.
Proof. intros nm s r R. apply (runs_name nm _ s r keep R). Qed.
Lemma doi_command : forall ws body rest, blank ws -> closed body ->
  takes H (lit "\doi" ++ ws ++ group body) rest d (token "url" [field "content" (VStr (lit "https://doi.org/" ++ strip (expand body)))]).
Proof. intros ws body rest Hw Hb. apply (plain_command 18 Kdoi P_doi d _ (lit "doi")); try assumption; try discriminate; try reflexivity. intros s r. apply named. Qed.
(** * Footnotes and captions *)
Lemma footnote_command : forall star o ws body rest, good_note o -> blank ws -> closed body ->
  takes H (lit "\footnote" ++ starred star ++ bracketed o ++ ws ++ group body) rest d (token "footnote" [field "content" (VStr (strip (expand body)))]).
Proof.
  intros star o ws body rest G Hw Hb. unfold takes.
  replace (lit "\footnote" ++ starred star ++ bracketed o ++ ws ++ group body) with ((lit "\footnote" ++ starred star ++ bracketed o ++ ws) ++ group body) by (rewrite <- !app_assoc; reflexivity).
  eapply (group_command word expand d d _ 5 Kfootnote P_footnote); [rewrite <- !app_assoc; reflexivity|reflexivity|discriminate|discriminate| |exact Hb|reflexivity].
  rewrite <- !app_assoc. unfold P_footnote. cbn [rseq]. apply (runs_name (lit "footnote") _ (starred star ++ bracketed o ++ ws ++ [c_lb]) _ (fun i c => opt_caps 1 o (i + length (starred star)) c)).
  apply (runs_seq ostar _ (starred star) _ _ keep (opt_caps 1 o)); [apply runs_star; rewrite <- !app_assoc; destruct o; [reflexivity|apply ws_lb; [exact Hw|intros x; apply space_not; reflexivity|reflexivity]]|].
  apply (runs_seq _ _ (bracketed o) _ _ (opt_caps 1 o) keep); [|apply runs_end; exact Hw].
  apply runs_opt; [exact G|]. intros _. rewrite <- !app_assoc. apply ws_lb; [exact Hw|intros x; apply space_not; reflexivity|reflexivity].
Qed.
Lemma footnotetext_command : forall o ws body rest, good_note o -> blank ws -> closed body ->
  takes H (lit "\footnotetext" ++ bracketed o ++ ws ++ group body) rest d (token "footnote" [field "content" (VStr (strip (expand body)))]).
Proof.
  intros o ws body rest G Hw Hb. unfold takes.
  replace (lit "\footnotetext" ++ bracketed o ++ ws ++ group body) with ((lit "\footnotetext" ++ bracketed o ++ ws) ++ group body) by (rewrite <- !app_assoc; reflexivity).
  eapply (group_command word expand d d _ 16 Kfootnotetext P_footnotetext); [rewrite <- !app_assoc; reflexivity|reflexivity|discriminate|discriminate| |exact Hb|reflexivity].
  rewrite <- !app_assoc. unfold P_footnotetext. cbn [rseq]. apply (runs_name (lit "footnotetext") _ (bracketed o ++ ws ++ [c_lb]) _ (opt_caps 1 o)).
  apply (runs_seq _ _ (bracketed o) _ _ (opt_caps 1 o) keep); [|apply runs_end; exact Hw].
  apply runs_opt; [exact G|]. intros _. rewrite <- !app_assoc. apply ws_lb; [exact Hw|intros x; apply space_not; reflexivity|reflexivity].
Qed.
Lemma footnotemark_command : forall o rest, good_note o -> (o = None -> first (N.eqb c_lk) rest = false) ->
  takes H (lit "\footnotemark" ++ bracketed o) rest d
    (token "footnote" [field "content" (VStr (match o with Some (x :: a) => strip (x :: a) | _ => lit "*" end))]).
Proof.
  intros o rest G Hr. unfold takes. set (t := (lit "\footnotemark" ++ bracketed o) ++ rest).
  assert (M : re_match_at P_footnotemark t 0 = Some {| m_start := 0; m_end := length (lit "\footnotemark" ++ bracketed o); m_caps := opt_caps 1 o 13 [] |}).
  { apply fm_match. apply (runs_seq bs _ [c_bs] (lit "footnotemark" ++ bracketed o) rest keep (fun i c => opt_caps 1 o (i + 12) c)); [apply runs_ch| |reflexivity].
    apply (runs_seq _ _ (lit "footnotemark") (bracketed o) rest keep (opt_caps 1 o)); [apply runs_lit|]. apply runs_opt; [exact G|exact Hr]. }
  assert (P : first_pattern (PATTERNS word) t = Some (Kfootnotemark, {| m_start := 0; m_end := length (lit "\footnotemark" ++ bracketed o); m_caps := opt_caps 1 o 13 [] |})).
  { rewrite <- (firstn_skipn 15 (PATTERNS word)), first_pattern_app by (unfold t; rewrite <- app_assoc; reflexivity). cbn [PATTERNS skipn first_pattern]. rewrite M. reflexivity. }
  unfold content_handle. rewrite P. cbn [m_end]. do 3 f_equal. unfold token, tok, contentf, field. do 4 f_equal.
  assert (Q : m_group t 1 {| m_start := 0; m_end := length (lit "\footnotemark" ++ bracketed o); m_caps := opt_caps 1 o 13 [] |} = o).
  { destruct o as [a|]; [|reflexivity]. cbn [opt_caps]. eapply (group_of t (lit "\footnotemark" ++ [c_lk])); [unfold t; cbn [bracketed]; rewrite <- !app_assoc; reflexivity|reflexivity]. }
  rewrite Q. reflexivity.
Qed.
Lemma caption_command : forall name star ws1 o ws2 body rest, In name ["\caption"; "\subcaption"]%string -> blank ws1 -> blank ws2 -> good_note o -> closed body ->
  takes H (lit name ++ starred star ++ ws1 ++ bracketed o ++ ws2 ++ group body) rest d (token "caption" [field "content" (VStr (strip (expand body)))]).
Proof.
  intros name star ws1 o ws2 body rest Hn H1 H2 G Hb.
  assert (Q : exists q, lit name = [c_bs] ++ q /\ (forall r, first_pattern (firstn 6 (PATTERNS word)) (lit name ++ r) = None) /\ (forall r, runs (ralt [#"caption"; #"subcaption"]) q r keep)).
  { destruct Hn as [<-|[<-|[]]]; [exists (lit "caption")|exists (lit "subcaption")]; (split; [reflexivity|split; [intros r; reflexivity|]]); intros r; cbn [ralt].
    - apply runs_left. apply runs_lit.
    - apply runs_right; [reflexivity|]. apply runs_lit. }
  destruct Q as (q & E & F & Rq). unfold takes.
  replace (lit name ++ starred star ++ ws1 ++ bracketed o ++ ws2 ++ group body) with ((lit name ++ starred star ++ ws1 ++ bracketed o ++ ws2) ++ group body) by (rewrite <- !app_assoc; reflexivity).
  eapply (group_command word expand d d _ 6 Kcaption P_caption); [rewrite <- !app_assoc; apply F|reflexivity|discriminate|discriminate| |exact Hb|reflexivity].
  rewrite E, <- !app_assoc. unfold P_caption. cbn [rseq]. eapply (runs_seq bs _ [c_bs]); [apply runs_ch|]. eapply (runs_seq _ _ q); [apply runs_cat; apply Rq|].
  eapply (runs_seq ostar _ (starred star)); [|apply (runs_opt_end 2 ws1 o ws2); assumption].
  apply runs_star. rewrite <- !app_assoc. apply first_ws; [exact H1|intros x; apply space_not; reflexivity|]. destruct o; [reflexivity|]. apply ws_lb; [exact H2|intros x; apply space_not; reflexivity|reflexivity].
Qed.
Lemma captionof_command : forall star ws1 a ws2 body rest, blank ws1 -> blank ws2 -> flat a -> closed body ->
  takes H (lit "\captionof" ++ starred star ++ ws1 ++ group a ++ ws2 ++ group body) rest d
    (token "caption" [field "title" (VStr (strip a)); field "content" (VStr (strip (expand body)))]).
Proof.
  intros star ws1 a ws2 body rest H1 H2 G Hb. apply (two_command 7 Kcaptionof P_captionof d _ (lit "captionof") (starred star)); try assumption; try discriminate; try reflexivity.
  - intros s r o R S. unfold P_captionof. cbn [rseq]. intros t i c Es. 
    replace (i + 1 + length (lit "captionof") + length (starred star)) with (i + 1 + length (lit "captionof") + length (starred star)) by reflexivity.
    apply (runs_name (lit "captionof") _ (starred star ++ s) r (fun i c => o (i + length (starred star)) c)); [|exact Es].
    apply (runs_seq ostar _ (starred star) s r keep o); [apply runs_star; exact S|exact R].
  - intros t m E. unfold create_token, group_strip1. rewrite E. reflexivity.
Qed.
(** * Headings, files and what is dropped *)
Lemma count_sub_none : forall s, ~ In 115%N s -> str_count (lit "sub") s = 0.
Proof. intros s N. apply count_clean. exact N. Qed.
Lemma no_star : forall nm ws, blank ws -> ~ In c_star nm -> contains (nm ++ [c_star]) ([c_bs] ++ nm ++ ws ++ [c_lb]) = false.
Proof.
  intros nm ws Hw N. apply not_true_iff_false. intros C. apply occurs_dec in C as (p & q & E).
  assert (X : In c_star ([c_bs] ++ nm ++ ws ++ [c_lb])) by (rewrite E; rewrite !in_app_iff; right; left; right; left; reflexivity).
  apply in_app_iff in X as [[X|[]]|X]; [discriminate X|]. apply in_app_iff in X as [X|X]; [exact (N X)|]. apply in_app_iff in X as [X|[X|[]]]; [exact (blank_notin ws _ Hw (eq_refl : isspace c_star = false) X)|discriminate X].
Qed.
Lemma has_star : forall nm ws, contains (nm ++ [c_star]) ([c_bs] ++ nm ++ starred true ++ ws ++ [c_lb]) = true.
Proof. intros nm ws. apply occurs_dec. exists [c_bs], (ws ++ [c_lb]). rewrite <- !app_assoc. reflexivity. Qed.
Lemma part_command : forall name lvl star ws body rest, (name, lvl) = ("\part"%string, 0%Z) \/ (name, lvl) = ("\chapter"%string, 1%Z) -> blank ws -> closed body ->
  takes H (lit name ++ starred star ++ ws ++ group body) rest d
    (token "section" [field "title" (VStr (strip (expand body))); field "level" (VInt lvl); field "numbered" (VBool (negb star))]).
Proof.
  intros name lvl star ws body rest Hn Hw Hb.
  assert (G : forall nm t, nm = lit "part" \/ nm = lit "chapter" -> t = ([c_bs] ++ nm ++ starred star ++ ws ++ group body) ++ rest ->
    m_group0 t {| m_start := 0; m_end := S (length ([c_bs] ++ nm ++ starred star ++ ws)); m_caps := [] |} = [c_bs] ++ nm ++ starred star ++ ws ++ [c_lb]).
  { intros nm t _ ->. replace (S (length ([c_bs] ++ nm ++ starred star ++ ws))) with (length ([c_bs] ++ nm ++ starred star ++ ws ++ [c_lb])) by (rewrite !app_length; cbn [length]; lia).
    apply (group0_at _ _ (body ++ [c_rb] ++ rest)). unfold group. rewrite <- !app_assoc. reflexivity. }
  assert (Cs : forall nm, nm = lit "part" \/ nm = lit "chapter" -> contains (nm ++ [c_star]) ([c_bs] ++ nm ++ starred star ++ ws ++ [c_lb]) = star).
  { intros nm Hm. destruct star; [apply has_star|]. apply no_star; [exact Hw|]. destruct Hm as [->| ->]; cbn; intros X; repeat (destruct X as [X|X]; [discriminate X|]); destruct X. }
  assert (Ct : forall nm, nm = lit "part" \/ nm = lit "chapter" -> str_count (lit "sub") ([c_bs] ++ nm ++ starred star ++ ws ++ [c_lb]) = 0).
  { intros nm Hm. apply count_sub_none. intros X. apply in_app_iff in X as [[X|[]]|X]; [discriminate X|]. apply in_app_iff in X as [X|X].
    - destruct Hm as [->| ->]; cbn in X; repeat (destruct X as [X|X]; [discriminate X|]); destruct X.
    - revert X. apply tail_clean; [exact Hw|reflexivity|discriminate|discriminate]. }
  destruct Hn as [E|E]; injection E as -> ->.
  - apply (star_command 2 Kpart P_part d _ (lit "part")); try assumption; try discriminate; try reflexivity. intros t Et. unfold create_token. rewrite (G (lit "part") t (or_introl eq_refl) Et), (Ct _ (or_introl eq_refl)).
    change (kind_name Kpart) with (lit "part"). rewrite (Cs _ (or_introl eq_refl)). reflexivity.
  - apply (star_command 3 Kchapter P_chapter d _ (lit "chapter")); try assumption; try discriminate; try reflexivity. intros t Et. unfold create_token. rewrite (G (lit "chapter") t (or_intror eq_refl) Et), (Ct _ (or_intror eq_refl)).
    change (kind_name Kchapter) with (lit "chapter"). rewrite (Cs _ (or_intror eq_refl)). reflexivity.
Qed.
Lemma title_command : forall ws1 o ws2 body rest, blank ws1 -> blank ws2 -> good_note o -> closed body ->
  takes H (lit "\title" ++ ws1 ++ bracketed o ++ ws2 ++ group body) rest d (token "title" [field "content" (VStr (strip (expand body)))]).
Proof. intros ws1 o ws2 body rest H1 H2 G Hb. apply (option_command 25 Ktitle P_title d _ (lit "title")); try assumption; try discriminate; try reflexivity. Qed.
(** commands with one group whose token has the type [ty] *)
Definition file_commands : list (string * string) :=
  [("\abstract", "abstract"); ("\keywords", "keywords"); ("\input", "input_file"); ("\include", "input_file"); ("\bibliography", "bibliography_file"); ("\addbibresource", "bibliography_file")]%string.
Lemma file_command : forall name ty ws body rest, In (name, ty) file_commands -> blank ws -> closed body ->
  takes H (lit name ++ ws ++ group body) rest d (token ty [field "content" (VStr (strip (expand body)))]).
Proof.
  intros name ty ws body rest Hn Hw Hb. destruct Hn as [E|[E|[E|[E|[E|[E|[]]]]]]]; injection E as <- <-.
  - apply (plain_command 0 Kabstract P_abstract d _ (lit "abstract")); try assumption; try discriminate; try reflexivity. intros s r. apply named.
  - apply (plain_command 27 Kkeywords P_keywords d _ (lit "keywords")); try assumption; try discriminate; try reflexivity. intros s r. apply named.
  - apply (plain_command 8 Kinput P_input d _ (lit "input")); try assumption; try discriminate; try reflexivity. intros s r R. unfold P_input. cbn [rseq ralt].
    apply (runs_seq bs _ [c_bs] _ _ keep keep); [apply runs_ch|]. apply (runs_seq _ _ (lit "input") _ _ keep keep); [apply runs_left; apply runs_lit|exact R].
  - apply (plain_command 8 Kinput P_input d _ (lit "include")); try assumption; try discriminate; try reflexivity. intros s r R. unfold P_input. cbn [rseq ralt].
    apply (runs_seq bs _ [c_bs] _ _ keep keep); [apply runs_ch|]. apply (runs_seq _ _ (lit "include") _ _ keep keep); [apply runs_right; [reflexivity|apply runs_lit]|exact R].
  - apply (plain_command 28 Kbibliography P_bibliography d _ (lit "bibliography")); try assumption; try discriminate; try reflexivity. intros s r R. unfold P_bibliography. cbn [rseq ralt].
    apply (runs_seq bs _ [c_bs] _ _ keep keep); [apply runs_ch|]. apply (runs_seq _ _ (lit "bibliography") _ _ keep keep); [apply runs_left; apply runs_lit|exact R].
  - apply (plain_command 28 Kbibliography P_bibliography d _ (lit "addbibresource")); try assumption; try discriminate; try reflexivity. intros s r R. unfold P_bibliography. cbn [rseq ralt].
    apply (runs_seq bs _ [c_bs] _ _ keep keep); [apply runs_ch|]. apply (runs_seq _ _ (lit "addbibresource") _ _ keep keep); [apply runs_right; [reflexivity|apply runs_lit]|exact R].
Qed.
Lemma graphicspath_command : forall ws body rest, blank ws -> closed body -> takes H (lit "\graphicspath" ++ ws ++ group body) rest d VNone.
Proof. intros ws body rest Hw Hb. apply (plain_command 21 Kgraphicspath P_graphicspath d _ (lit "graphicspath")); try assumption; try discriminate; try reflexivity. intros s r. apply named. Qed.
Lemma bookmark_command : forall ws1 o ws2 body rest, blank ws1 -> blank ws2 -> good_note o -> closed body ->
  takes H (lit "\bookmark" ++ ws1 ++ bracketed o ++ ws2 ++ group body) rest d VNone.
Proof. intros ws1 o ws2 body rest H1 H2 G Hb. apply (option_command 13 Kbookmark P_bookmark d _ (lit "bookmark")); try assumption; try discriminate; try reflexivity. Qed.

End One.
