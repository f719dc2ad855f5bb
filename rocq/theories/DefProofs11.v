(** C104, C105: \def with its name written directly, with \csname, or in \@namedef. *)
From Coq Require Import List NArith ZArith PeanoNat Lia Bool String.
From Verif Require CommandModel ContentProofs2 FormatProofs3 FormatProofs5 CommandProofs CommandProofs2 CommandProofs3 CommandProofs4 CommandProofs6 CommandProofs7 CommandProofs8.
From Verif Require Import PyStr Regex RegexLemmas RegexHead RegexAbs DelimSpec DelimProofs DelimFinal TexUtilsModel EnvModel EnvSpec EnvProofs StyleModel CommandSpec DefModel DefSpec DefProofs DefProofs3 DefProofs4 DefProofs8 DefProofs9 DefProofs10.
Import ListNotations. Notation length := List.length. Notation concat := List.concat. Open Scope list_scope.

(** the parameters and the body, behind the name *)
Definition def_tail (gap2 : str) (k : nat) (body : str) : str := gap2 ++ param_text k ++ braced body.
Lemma tail_head : forall gap2 k body rest, blank gap2 -> exists x r, def_tail gap2 k body ++ rest = x :: r /\ (isspace x = true \/ x = c_hash \/ x = c_lb).
Proof.
  intros gap2 k body rest B. unfold def_tail. destruct gap2 as [|x g].
  - destruct k as [|k]; cbn; eexists; eexists; (split; [reflexivity|]); auto.
  - unfold blank in B. cbn [forallb] in B. apply andb_prop in B as [Bx _]. cbn [List.app]. eexists. eexists. split; [reflexivity|]. auto.
Qed.
Lemma tail_char : forall x, (isspace x = true \/ x = c_hash \/ x = c_lb) -> x <> c_bs /\ CommandModel.name_ch x = false /\ StyleModel.is_letter x = false.
Proof.
  intros x [H|[->| ->]]; [|repeat split; discriminate|repeat split; discriminate]. split; [intros ->; discriminate H|]. assert (A : CommandModel.name_ch x = false).
  { destruct (CommandModel.name_ch x) eqn:E; [|reflexivity]. apply CommandProofs6.name_ch_nospace in E as (E & _). congruence. }
  split; [exact A|]. destruct (StyleModel.is_letter x) eqn:E; [|reflexivity]. exfalso. assert (Hn : CommandModel.name_ch x = true); [|congruence]. apply CommandProofs.name_ch_spec. left. unfold StyleModel.is_letter in E. apply Bool.orb_true_iff in E. rewrite !Bool.andb_true_iff, !N.leb_le in E. unfold CommandSpec.is_letter. lia.
Qed.
(** a word of letters at the beginning of name ++ X is a word at the beginning of the name *)
Lemma prefix_name : forall s name r x, forallb StyleModel.is_letter s = true -> StyleModel.is_letter x = false -> startswith (name ++ x :: r) s = true -> exists q, name = s ++ q.
Proof.
  induction s as [|y s IH]; intros name r x A Nx H; [exists name; reflexivity|]. cbn [forallb] in A. apply andb_prop in A as [Ay A]. destruct name as [|z name].
  - cbn [List.app] in H. apply startswith_spec in H as (q & H). injection H as H _. congruence.
  - cbn [List.app] in H. apply startswith_spec in H as (q & H). cbn [List.app] in H. injection H as -> H. destruct (IH name r x A Nx) as (q' & ->); [rewrite H; apply startswith_app|]. exists q'. reflexivity.
Qed.
Section Any.
Variables u ualpha ualnum : ch -> bool.
Local Notation handle := (handle u ualpha ualnum).
Lemma plain_nothing : forall name x r, (forall s q, In s ["expandafter"; "noexpand"; "csname"]%string -> name <> lit s ++ q) -> StyleModel.is_letter x = false ->
  re_match_at (RSeq sp (EXPAND_PATTERN u)) (c_bs :: name ++ x :: r) 0 = None /\ concat_csname u (c_bs :: name ++ x :: r) = None.
Proof.
  intros name x r N Nx.
  assert (S : forall s, In s ["expandafter"; "noexpand"; "csname"]%string -> startswith (name ++ x :: r) (lit s) = false).
  { intros s I. destruct (startswith (name ++ x :: r) (lit s)) eqn:E; [|reflexivity]. exfalso. apply prefix_name in E as (q & E); [|destruct I as [<-|[<-|[<-|[]]]]; reflexivity|exact Nx]. exact (N s q I E). }
  split.
  - apply re_match_at_none; [lia|]. intros j R. apply rel_rseq2 in R as (i & R1 & R). apply rel_star_chr in R1 as (ws & r1 & E1 & B & ->). cbn [skipn] in E1. assert (Ew : ws = []) by (destruct ws as [|y ws]; [reflexivity|]; cbn [forallb List.app] in *; injection E1 as <- _; discriminate B). subst ws. cbn [List.length Nat.add] in R.
    unfold EXPAND_PATTERN in R. cbn [rseq] in R. apply rel_rseq2 in R as (k & R2 & R). apply rel_rstr in R2 as (-> & _). change (0 + length (lit "\")) with 1 in R. apply rel_rseq2 in R as (k & R3 & _). unfold words in R3. cbn [map ralt] in R3.
    apply rel_alt2 in R3 as [R3|R3]; apply rel_rstr in R3 as (_ & q & R3); cbn [skipn] in R3.
    + assert (F := S "expandafter"%string (or_introl eq_refl)). rewrite R3, startswith_app in F. discriminate F.
    + assert (F := S "noexpand"%string (or_intror (or_introl eq_refl))). rewrite R3, startswith_app in F. discriminate F.
  - unfold concat_csname. replace (re_match_at START_CSNAME (c_bs :: name ++ x :: r) 0) with (@None mobj); [reflexivity|]. symmetry. unfold re_match_at, START_CSNAME. rewrite rm_seq_none; [reflexivity|]. rewrite rm_rstr. cbn [skipn].
    change (startswith (c_bs :: name ++ x :: r) (lit "\csname")) with (startswith (name ++ x :: r) (lit "csname")). rewrite (S "csname"%string) by (cbn; auto). reflexivity.
Qed.

Lemma plain_ok : forall keyword gap name gap2 k body rest, In keyword def_words -> blank gap -> blank gap2 -> def_name name -> good_body body ->
  let src := lit keyword ++ gap ++ [c_bs] ++ name ++ gap2 ++ param_text k ++ braced body in
  handle (src ++ rest) = Ok (Some (DDef name body k (use_text name k) (expanding keyword)), Z.of_nat (length src)).
Proof.
  intros keyword gap name gap2 k body rest I B B2 P G src. set (tl := def_tail gap2 k body ++ rest).
  assert (Es : src ++ rest = lit keyword ++ gap ++ c_bs :: name ++ tl) by (unfold src, tl, def_tail; rewrite <- !app_assoc; cbn [List.app]; rewrite <- ?app_assoc; reflexivity).
  rewrite Es, (def_enter u ualpha ualnum keyword gap (name ++ tl) I B). set (t := lit keyword ++ gap ++ c_bs :: name ++ tl).
  destruct (tail_head gap2 k body rest B2) as (x & r & Ht & Hx). fold tl in Ht. destruct (tail_char x Hx) as (_ & _ & Nl). destruct (plain_nothing name x r (proj2 P) Nl) as (N1 & N2).
  assert (Sk : skipn (length (lit keyword ++ gap)) t = c_bs :: name ++ x :: r) by (unfold t; rewrite app_assoc, <- Ht; apply sk_pre).
  assert (L : length (lit keyword ++ gap) < length t) by (unfold t; rewrite !app_length; cbn; lia).
  rewrite (loop_stop u t _ _ _ _ _ _ _ [] _ L Sk (fun _ => conj N1 N2)). cbn [named_by]. cbv zeta. change (N.eqb c_bs c_bs) with true. cbv iota.
  assert (Ss : skipn (S (length (lit keyword ++ gap))) t = name ++ tl) by (rewrite Ht; apply (skipn_more1 _ _ _ _ Sk)). rewrite Ss.
  destruct (def_token ualpha keyword gap name gap2 k body rest I B B2 (proj1 P) G) as (m & M & Hd). cbv zeta in M, Hd.
  assert (Et : ((lit keyword ++ gap) ++ [c_bs]) ++ name ++ tl = def_head keyword gap name gap2 k ++ braced body ++ rest) by (unfold tl, def_tail, def_head; rewrite <- !app_assoc; reflexivity).
  rewrite Et, M, Hd. cbn [option_map with_csname]. f_equal. f_equal.
  replace (def_head keyword gap name gap2 k ++ braced body) with src by (unfold src, def_head; rewrite <- !app_assoc; reflexivity). rewrite (app_length (lit keyword ++ gap)). cbn [List.length]. lia.
Qed.
(** ** \csname *)
Lemma only_blank : forall s, blanks_only s -> no_blanks s = [] /\ blank s /\ ~ In c_bs s.
Proof.
  intros s H. repeat split.
  - induction s as [|x s IH]; [reflexivity|]. rewrite (H x (or_introl eq_refl)). apply IH. intros y Hy. apply H. right. exact Hy.
  - unfold blank. apply forallb_forall. intros x Hx. rewrite (H x Hx). reflexivity.
  - intros Hx. specialize (H _ Hx). discriminate H.
Qed.
Lemma no_blanks_app : forall a b, no_blanks (a ++ b) = no_blanks a ++ no_blanks b. Proof. intros. apply filter_app. Qed.
Lemma no_blanks_word : forall name, word name -> no_blanks name = name /\ ~ In c_bs name.
Proof.
  intros name W. apply CommandProofs.word_forallb in W. split.
  - induction name as [|x name IH]; [reflexivity|]. cbn [forallb] in W. apply andb_prop in W as [Wx W]. unfold no_blanks. cbn [filter]. apply CommandProofs6.name_ch_nospace in Wx as (Wx & _). destruct (N.eqb_spec x 32) as [->|_]; [discriminate Wx|]. cbn [negb]. f_equal. apply IH. exact W.
  - intros H. rewrite forallb_forall in W. specialize (W _ H). discriminate W.
Qed.
Lemma after_name : forall name X, word name -> after_sep (c_bs :: name) (lit "\\" ++ name ++ X) = X.
Proof.
  intros name X W. pose proof (CommandProofs.word_nonempty _ W) as Ne. destruct (no_blanks_word _ W) as (_ & Nb). destruct name as [|y name]; [congruence|]. assert (Hy : y <> c_bs) by (intros ->; apply Nb; left; reflexivity).
  change (lit "\\" ++ (y :: name) ++ X) with (c_bs :: (c_bs :: (y :: name) ++ X)). cbn [after_sep].
  replace (startswith (c_bs :: c_bs :: (y :: name) ++ X) (c_bs :: y :: name)) with false.
  2:{ symmetry. destruct (startswith (c_bs :: c_bs :: (y :: name) ++ X) (c_bs :: y :: name)) eqn:E; [|reflexivity]. apply startswith_spec in E as (q & E). injection E as E _. congruence. }
  change (c_bs :: (y :: name) ++ X) with ((c_bs :: y :: name) ++ X). change (after_sep (c_bs :: y :: name) ((c_bs :: y :: name) ++ X)) with (if startswith ((c_bs :: y :: name) ++ X) (c_bs :: y :: name) then skipn (length (c_bs :: y :: name)) ((c_bs :: y :: name) ++ X) else after_sep (c_bs :: y :: name) ((y :: name) ++ X)).
  rewrite startswith_app. apply skipn_app_exact. reflexivity.
Qed.
(** what is recorded *)
Definition csname_token (keyword : string) (name raw : str) (k : nat) (body : str) : dtok :=
  DDef name body k (use_text name k ++ lit "|" ++ use_csname_text raw k) (expanding keyword).
Lemma csname_loop : forall keyword gap g1 name g2 gap2 k body rest fuel, In keyword def_words -> blank gap -> blank gap2 -> word name -> blanks_only g1 -> g1 <> [] -> blanks_only g2 -> good_body body ->
  let src := lit keyword ++ gap ++ lit "\csname" ++ g1 ++ name ++ g2 ++ lit "\endcsname" ++ gap2 ++ param_text k ++ braced body in
  def_prefix_loop u (S (S fuel)) (src ++ rest) (lit keyword ++ gap) P_def (handle_def ualpha) true 1 (length (lit keyword ++ gap)) [] =
  Ok (Some (csname_token keyword name (g1 ++ name ++ g2) k body), Z.of_nat (length src)).
Proof.
  intros keyword gap g1 name g2 gap2 k body rest fuel I B B2 W B1 N1 B3 G src. set (tl := def_tail gap2 k body ++ rest). set (raw := g1 ++ name ++ g2).
  destruct (only_blank _ B1) as (Q1 & _ & Q1b). destruct (only_blank _ B3) as (Q3 & _ & Q3b). destruct (no_blanks_word _ W) as (Qn & Qnb).
  assert (Es : src ++ rest = (lit keyword ++ gap) ++ lit "\csname" ++ raw ++ lit "\endcsname" ++ tl) by (unfold src, raw, tl, def_tail; rewrite <- !app_assoc; reflexivity).
  destruct (tail_head gap2 k body rest B2) as (x & r & Ht & Hx). fold tl in Ht. destruct (tail_char x Hx) as (Nb & _ & Nl). set (t := src ++ rest) in *.
  assert (Sk : skipn (length (lit keyword ++ gap)) t = lit "\csname" ++ raw ++ lit "\endcsname" ++ tl) by (rewrite Es; apply sk_pre).
  assert (C : concat_csname u (lit "\csname" ++ raw ++ lit "\endcsname" ++ tl) = Some (raw, 17 + length raw)).
  { apply csname_read.
    - unfold raw. intros H. apply in_app_or in H as [H|H]; [contradiction|]. apply in_app_or in H as [H|H]; contradiction.
    - unfold raw. destruct g1 as [|y g1]; [congruence|]. cbn [List.app]. rewrite (B1 y (or_introl eq_refl)). reflexivity.
    - rewrite Ht. exact Nl. }
  assert (Lt : length t = length (lit keyword ++ gap) + (17 + length raw) + length tl).
  { rewrite Es, app_length, (app_length (lit "\csname")), (app_length raw), (app_length (lit "\endcsname")). change (length (lit "\csname")) with 7. change (length (lit "\endcsname")) with 10. lia. }
  assert (Lx : 0 < length tl) by (rewrite Ht; cbn; lia).
  assert (L1 : length (lit keyword ++ gap) < length t) by lia. assert (L2 : length (lit keyword ++ gap) + (17 + length raw) < length t) by lia.
  rewrite (loop_csname u t _ _ _ _ _ _ _ [] _ raw (17 + length raw) L1 Sk Nat.lt_0_1); [|vm_compute; reflexivity|exact C]. cbn [List.app].
  assert (Sk2 : skipn (length (lit keyword ++ gap) + (17 + length raw)) t = tl).
  { rewrite Es. replace ((lit keyword ++ gap) ++ lit "\csname" ++ raw ++ lit "\endcsname" ++ tl) with (((lit keyword ++ gap) ++ lit "\csname" ++ raw ++ lit "\endcsname") ++ tl) by (rewrite <- !app_assoc; reflexivity).
    apply skipn_app_exact. rewrite (app_length (lit keyword ++ gap)), (app_length (lit "\csname")), (app_length raw). change (length (lit "\csname")) with 7. change (length (lit "\endcsname")) with 10. lia. }
  rewrite (loop_stop u t _ _ _ _ _ _ _ [raw] tl L2 Sk2) by (cbn; lia). assert (Ex : forall s0 : nat, (match tl with y :: _ => if N.eqb y c_bs then S s0 else s0 | [] => s0 end) = s0) by (intros s0; rewrite Ht; destruct (N.eqb_spec x c_bs) as [E|_]; [congruence|reflexivity]). cbv zeta. rewrite Ex, Sk2.
  assert (Ec : named_by [raw] = c_bs :: name) by (cbn [named_by map concat]; unfold raw; rewrite !no_blanks_app, Q1, Qn, Q3, !app_nil_r; reflexivity). rewrite Ec.
  destruct (def_token ualpha keyword gap name gap2 k body rest I B B2 (word_command _ W) G) as (m & M & Hd). cbv zeta in M, Hd.
  assert (Et : ((lit keyword ++ gap) ++ c_bs :: name) ++ tl = def_head keyword gap name gap2 k ++ braced body ++ rest) by (unfold tl, def_tail, def_head; rewrite <- !app_assoc; reflexivity).
  rewrite Et, M, Hd. cbn [option_map]. f_equal. f_equal.
  - f_equal. unfold with_csname, csname_token. f_equal. f_equal. f_equal. unfold use_csname_text. do 3 f_equal. unfold raw at 1. rewrite !no_blanks_app, Q1, Qn, Q3, app_nil_r. cbn [List.app]. unfold use_text. apply after_name. exact W.
  - unfold def_head, src. rewrite !app_length. unfold raw. rewrite !app_length. change (length (lit "\csname")) with 7. change (length (lit "\endcsname")) with 10. cbn [List.length]. lia.
Qed.
End Any.
