(** C85: the whole run. *)
From Coq Require Import List NArith ZArith PeanoNat Lia Bool String.
From Verif Require Import PyStr Regex RegexLemmas RegexHead TexUtilsModel DelimSpec DelimProofs Json BuilderModel TokensModel CommandModel CommandSpec CommandProofs ParseModel ParseProofs ParseCases ParseRead ParseReadProofs ParseReadProofs2.
Import ListNotations. Notation length := List.length. Notation concat := List.concat. Open Scope list_scope.

Lemma lstrip_blank : forall ws t : str, blank ws -> lstrip (ws ++ t) = lstrip t.
Proof. induction ws as [|x ws IH]; intros t H; [reflexivity|]. unfold blank in H. cbn in H. apply andb_prop in H as [H1 H2]. cbn [app lstrip]. rewrite H1. apply IH. exact H2. Qed.
Lemma lstrip_keep : forall x (t : str), isspace x = false -> lstrip (x :: t) = x :: t.
Proof. intros x t H. cbn [lstrip]. rewrite H. reflexivity. Qed.
Lemma lstrip_all : forall ws : str, blank ws -> lstrip ws = [].
Proof. intros ws H. rewrite <- (app_nil_r ws). rewrite lstrip_blank by exact H. reflexivity. Qed.

(** the position after the blanks *)
Lemma skip_to : forall (pre ws t : str), blank ws -> (forall x r, t = x :: r -> isspace x = false) ->
  let c := pre ++ ws ++ t in
  skip_spaces (Z.to_nat (Z.of_nat (length c) - Z.of_nat (length pre))) c (Z.of_nat (length pre)) = Z.of_nat (length (pre ++ ws)).
Proof.
  intros pre ws t B H c. set (q := skip_spaces _ c _).
  assert (L : skipn (Z.to_nat q) c = t).
  { unfold q. rewrite skip_spaces_lstrip by (unfold c; rewrite !app_length; lia). rewrite Nat2Z.id. unfold c. rewrite skip_pre. rewrite lstrip_blank by exact B.
    destruct t as [|x r]; [reflexivity|]. apply lstrip_keep. eapply H. reflexivity. }
  assert (G : (Z.of_nat (length pre) <= q)%Z) by (apply skip_spaces_ge; lia).
  assert (G2 : (q <= Z.of_nat (length c))%Z) by (apply skip_spaces_le; unfold c; rewrite !app_length; lia).
  apply (f_equal (@length ch)) in L. rewrite skipn_length in L. assert (Lc : length c = length pre + length ws + length t) by (unfold c; rewrite !app_length; lia).
  rewrite app_length. lia.
Qed.
Lemma from_pre : forall (pre t : str), from (pre ++ t) (Z.of_nat (length pre)) = t.
Proof. intros pre t. rewrite from_nat by lia. rewrite Nat2Z.id. apply skip_pre. Qed.
Lemma at_pre : forall (pre : str) x t, at_pos (pre ++ x :: t) (Z.of_nat (length pre)) = Ok x.
Proof. intros pre x t. rewrite at_pos_nat by lia. rewrite Nat2Z.id. rewrite nth_error_app2 by lia. rewrite Nat.sub_diag. reflexivity. Qed.
Lemma last_app : forall pre s : str, last_char (last_char None pre) s = last_char None (pre ++ s).
Proof. intros pre s. unfold last_char at 1 3. rewrite rev_app_distr. destruct (rev s) as [|x r]; [reflexivity|reflexivity]. Qed.
Lemma last_snoc : forall p (s : str) x, last_char p (s ++ [x]) = Some x.
Proof. intros p s x. unfold last_char. rewrite rev_app_distr. reflexivity. Qed.
(** the space flag *)
Lemma flag : forall (pre t : str), (0 <? Z.of_nat (length pre))%Z && match at_pos (pre ++ t) (Z.of_nat (length pre) - 1) with Ok x => isspace x | Raise _ => false end = after_space None pre.
Proof.
  intros pre t. unfold after_space, last_char. destruct (rev pre) as [|x r] eqn:R; apply (f_equal (@rev ch)) in R; rewrite rev_involutive in R; subst pre; [reflexivity|].
  cbn [rev]. rewrite app_length. cbn [List.length]. replace (0 <? Z.of_nat (length (rev r) + 1))%Z with true by (symmetry; apply Z.ltb_lt; lia). cbn [andb].
  replace (Z.of_nat (length (rev r) + 1) - 1)%Z with (Z.of_nat (length (rev r))) by lia. rewrite <- app_assoc. cbn [app]. rewrite at_pre. reflexivity.
Qed.

Section Run.
Variable St : Type.
Variable expand : St -> str -> res str.
Variable user_command : St -> str -> res (option (str * Z)).
Variable define : St -> str -> res (St * Z).
Variable if_else : St -> str -> res (option (str * Z)).
Variable legacy : St -> str -> res (option (str * Z)).
Variable handlers : list (handler St).
Variable process : parser St -> bool -> tok_in -> St -> list dict -> run (St * list dict).
Variable on_label : St -> str -> list dict -> res (St * list dict).
Let actsf := acts St expand user_command define if_else legacy handlers process on_label.
Let afterf := after_group St expand user_command define if_else legacy handlers process on_label.
Let stepf := step St expand user_command define if_else legacy handlers process on_label.
Let loopf := loop St expand user_command define if_else legacy handlers process on_label.
Let readingf := reading St expand user_command define if_else legacy handlers process on_label.

Lemma step_blank : forall ps o s (pre ws : str) tk, blank ws -> stepf ps o s (pre ++ ws) (Z.of_nat (length pre)) tk = ret (Halt s tk).
Proof.
  intros ps o s pre ws tk B. unfold stepf, step. cbv zeta. destruct (_ <? _)%Z; [|reflexivity].
  pose proof (skip_to pre ws [] B) as K. cbv zeta in K. rewrite app_nil_r in K. rewrite K by discriminate. rewrite Z.leb_refl. reflexivity.
Qed.
(** a round that starts at [t], after the blanks *)
Lemma step_at : forall ps o s (pre ws : str) x t tk, blank ws -> isspace x = false -> (x = c_lb -> forall b n, ~ group_at c_lb c_rb (x :: t) b n) ->
  stepf ps o s (pre ++ ws ++ x :: t) (Z.of_nat (length pre)) tk = afterf ps o s ((pre ++ ws) ++ x :: t) (Z.of_nat (length (pre ++ ws))) tk.
Proof.
  intros ps o s pre ws x t tk B Sx G. unfold stepf, step. cbv zeta.
  replace (_ <? _)%Z with true by (symmetry; apply Z.ltb_lt; rewrite !app_length; cbn [List.length]; lia).
  pose proof (skip_to pre ws (x :: t) B) as K. cbv zeta in K. rewrite K by (intros y r E; injection E as <- _; exact Sx).
  replace (_ <=? _)%Z with false by (symmetry; apply Z.leb_gt; rewrite !app_length; cbn [List.length]; lia).
  rewrite app_assoc. rewrite at_pre. cbn [rbind]. destruct (N.eqb x c_lb) eqn:E; [|reflexivity]. apply N.eqb_eq in E. rewrite from_pre.
  destruct (extract_nested_content (x :: t) c_lb c_rb) as [[b|] n] eqn:En; [|reflexivity]. exfalso.
  apply (extract_nested_content_iff c_lb c_rb _ _ _ delims_curly) in En. exact (G E b n En).
Qed.
Lemma step_group : forall ps o s (pre ws inner rest : str) tk s1 nested tk1, blank ws -> good_body inner ->
  ps default_opts s inner = ret (s1, nested) -> add_tokens (map (fun d => (TDict d, false)) nested) tk = Ok tk1 ->
  stepf ps o s (pre ++ ws ++ [c_lb] ++ inner ++ [c_rb] ++ rest) (Z.of_nat (length pre)) tk =
  ret (Next s1 ((pre ++ ws ++ [c_lb] ++ inner ++ [c_rb]) ++ rest) (Z.of_nat (length (pre ++ ws ++ [c_lb] ++ inner ++ [c_rb]))) tk1).
Proof.
  intros ps o s pre ws inner rest tk s1 nested tk1 B Gb P A. unfold stepf, step. cbv zeta.
  replace (_ <? _)%Z with true by (symmetry; apply Z.ltb_lt; rewrite !app_length; cbn [List.length]; lia).
  pose proof (skip_to pre ws ([c_lb] ++ inner ++ [c_rb] ++ rest) B) as K. cbv zeta in K. rewrite K by (intros y r E; injection E as <- _; reflexivity).
  replace (_ <=? _)%Z with false by (symmetry; apply Z.leb_gt; rewrite !app_length; cbn [List.length]; lia).
  rewrite (app_assoc pre ws). cbn [app]. rewrite at_pre. cbn [rbind]. rewrite N.eqb_refl. rewrite from_pre.
  assert (G : extract_nested_content (c_lb :: inner ++ c_rb :: rest) c_lb c_rb = (Some inner, 0 + 1 + length inner + 1)).
  { apply (extract_nested_content_iff c_lb c_rb _ _ _ delims_curly). exists [], rest. destruct Gb as [H1 H2]. split; [reflexivity|]. split; [reflexivity|]. split; [exact H1|]. split; [exact H2|reflexivity]. }
  rewrite G, P. unfold ret at 1. cbn [rbind]. rewrite A. cbn [rbind]. unfold ret. f_equal. f_equal. f_equal.
  - repeat (rewrite <- app_assoc || rewrite <- app_comm_cons). reflexivity.
  - repeat (rewrite app_length || cbn [List.length]). lia.
Qed.
Lemma after_text : forall ps o s (pre w d : str) x tk tk1 m, w <> [] -> (forall p, w <> p ++ [c_lb]) -> shown_as St expand o s w x ->
  add_token (TStr x) tk (after_space None pre) = Ok tk1 -> re_search DELIM (w ++ d) = Some m -> m_start m = length w ->
  afterf ps o s (pre ++ w ++ d) (Z.of_nat (length pre)) tk = ret (Next s ((pre ++ w) ++ d) (Z.of_nat (length (pre ++ w))) tk1).
Proof.
  intros ps o s pre w d x tk tk1 m Nw Nl Sh A Em Es. unfold afterf, after_group. cbv zeta. rewrite from_pre, Em, Es.
  assert (L : Nat.ltb 0 (length w) = true) by (destruct w; [congruence|reflexivity]). rewrite L.
  unfold take_text. cbv zeta. rewrite between_nat by (rewrite ?Nat2Z.id, ?app_length; lia). rewrite from_pre, first_pre.
  assert (Cut : endswith w [c_lb] = false) by (destruct (endswith w [c_lb]) eqn:E; [apply endswith_one in E as (p & E); exfalso; exact (Nl p E)|reflexivity]).
  match goal with |- rbind ?X _ = _ => assert (Body : X = ret (tk1, Z.of_nat (length w))) end.
  { destruct w as [|y w']; [congruence|]. rewrite Cut. rewrite flag. unfold shown_as in Sh. destruct (unknown_on o).
    - rewrite Sh. cbn [rbind]. rewrite A. reflexivity.
    - subst x. unfold ret at 1. cbn [rbind]. rewrite A. reflexivity. }
  rewrite Body. unfold ret at 1. cbn [rbind]. rewrite app_assoc. do 3 f_equal. rewrite app_length. lia.
Qed.
Lemma after_text_end : forall ps o s (pre w : str) x tk tk1, w <> [] -> (forall p, w <> p ++ [c_lb]) -> shown_as St expand o s w x ->
  add_token (TStr x) tk (after_space None pre) = Ok tk1 -> re_search DELIM w = None ->
  afterf ps o s (pre ++ w) (Z.of_nat (length pre)) tk = ret (Halt s tk1).
Proof.
  intros ps o s pre w x tk tk1 Nw Nl Sh A Em. unfold afterf, after_group. cbv zeta. rewrite from_pre, Em.
  assert (L : Nat.ltb 0 (length w) = true) by (destruct w; [congruence|reflexivity]). rewrite L.
  unfold take_text. cbv zeta. rewrite between_nat by (rewrite ?Nat2Z.id, ?app_length; lia). rewrite from_pre, firstn_all.
  assert (Cut : endswith w [c_lb] = false) by (destruct (endswith w [c_lb]) eqn:E; [apply endswith_one in E as (p & E); exfalso; exact (Nl p E)|reflexivity]).
  match goal with |- rbind ?X _ = _ => assert (Body : X = ret (tk1, Z.of_nat (length w))) end.
  { destruct w as [|y w']; [congruence|]. rewrite Cut. rewrite flag. unfold shown_as in Sh. destruct (unknown_on o).
    - rewrite Sh. cbn [rbind]. rewrite A. reflexivity.
    - subst x. unfold ret at 1. cbn [rbind]. rewrite A. reflexivity. }
  rewrite Body. reflexivity.
Qed.
Lemma ends_lb : forall p : str, endswith (p ++ [c_lb]) [c_lb] = true /\ firstn (length (p ++ [c_lb]) - 1) (p ++ [c_lb]) = p.
Proof.
  intros p. split.
  - unfold endswith. rewrite rev_app_distr. reflexivity.
  - rewrite app_length. cbn [List.length]. replace (length p + 1 - 1) with (length p) by lia. apply first_pre.
Qed.
Lemma after_cut : forall ps o s (pre p d : str) x tk tk1 m, shown_as St expand o s p x ->
  add_token (TStr x) tk (after_space None pre) = Ok tk1 -> re_search DELIM ((p ++ [c_lb]) ++ d) = Some m -> m_start m = length (p ++ [c_lb]) ->
  afterf ps o s (pre ++ (p ++ [c_lb]) ++ d) (Z.of_nat (length pre)) tk = ret (Next s ((pre ++ p) ++ c_lb :: d) (Z.of_nat (length (pre ++ p))) tk1).
Proof.
  intros ps o s pre p d x tk tk1 m Sh A Em Es. unfold afterf, after_group. cbv zeta. rewrite from_pre, Em, Es. destruct (ends_lb p) as [C1 C2].
  assert (Nw : p ++ [c_lb] <> []) by (destruct p; discriminate).
  assert (Ew : (pre ++ p) ++ c_lb :: d = pre ++ (p ++ [c_lb]) ++ d) by (repeat (rewrite <- app_assoc || rewrite <- app_comm_cons); reflexivity).
  assert (Lw : Z.of_nat (length (pre ++ p)) = (Z.of_nat (length pre) + (Z.of_nat (length (p ++ [c_lb])) - 1))%Z) by (rewrite !app_length; cbn [List.length]; lia).
  rewrite Ew, Lw. clear Ew Lw. set (w := p ++ [c_lb]) in *. clearbody w.
  assert (L : Nat.ltb 0 (length w) = true) by (destruct w; [congruence|reflexivity]). rewrite L.
  unfold take_text. cbv zeta. rewrite between_nat by (rewrite ?Nat2Z.id, ?app_length; lia). rewrite from_pre, first_pre.
  match goal with |- rbind ?X _ = _ => assert (Body : X = ret (tk1, (Z.of_nat (length w) - 1)%Z)) end.
  { destruct w as [|y w']; [congruence|]. rewrite C1, C2. rewrite flag. unfold shown_as in Sh. destruct (unknown_on o).
    - rewrite Sh. cbn [rbind]. rewrite A. reflexivity.
    - subst x. unfold ret at 1. cbn [rbind]. rewrite A. reflexivity. }
  rewrite Body. reflexivity.
Qed.
Lemma after_cut_end : forall ps o s (pre p : str) x tk tk1, shown_as St expand o s p x ->
  add_token (TStr x) tk (after_space None pre) = Ok tk1 -> re_search DELIM (p ++ [c_lb]) = None ->
  afterf ps o s (pre ++ p ++ [c_lb]) (Z.of_nat (length pre)) tk = ret (Halt s tk1).
Proof.
  intros ps o s pre p x tk tk1 Sh A Em. unfold afterf, after_group. cbv zeta. rewrite from_pre, Em. destruct (ends_lb p) as [C1 C2].
  assert (Nw : p ++ [c_lb] <> []) by (destruct p; discriminate). set (w := p ++ [c_lb]) in *. clearbody w.
  assert (L : Nat.ltb 0 (length w) = true) by (destruct w; [congruence|reflexivity]). rewrite L.
  unfold take_text. cbv zeta. rewrite between_nat by (rewrite ?Nat2Z.id, ?app_length; lia). rewrite from_pre, firstn_all.
  match goal with |- rbind ?X _ = _ => assert (Body : X = ret (tk1, (Z.of_nat (length w) - 1)%Z)) end.
  { destruct w as [|y w']; [congruence|]. rewrite C1, C2. rewrite flag. unfold shown_as in Sh. destruct (unknown_on o).
    - rewrite Sh. cbn [rbind]. rewrite A. reflexivity.
    - subst x. unfold ret at 1. cbn [rbind]. rewrite A. reflexivity. }
  rewrite Body. reflexivity.
Qed.
Lemma start_nonspace : forall d, command_start d \/ open_brace d -> exists x t, d = x :: t /\ isspace x = false /\ (x = c_lb -> forall b n, ~ group_at c_lb c_rb (x :: t) b n) /\
  exists m, re_search DELIM (x :: t) = Some m /\ m_start m = 0.
Proof.
  intros d [C|(r & E & G)].
  - destruct (start_rel [] d (in_nil false) C) as (j & R). cbn [app List.length] in R. destruct C as (x & r & E & C). exists x, r. split; [exact E|]. subst d.
    split; [destruct C as [->|[->|[-> _]]]; reflexivity|]. split; [intros ->; destruct C as [C|[C|[C _]]]; discriminate|]. eapply delim_rel0. exact R.
  - exists c_lb, r. split; [exact E|]. split; [reflexivity|]. split; [intros _; rewrite <- E; exact G|apply delim_brace].
Qed.
Lemma step_acts : forall ps o s (pre ws d : str) tk a, blank ws -> command_start d \/ open_brace d -> actsf o ps s tk d a ->
  stepf ps o s (pre ++ ws ++ d) (Z.of_nat (length pre)) tk = ret (reaches St d ((pre ++ ws) ++ d) (Z.of_nat (length (pre ++ ws))) tk a).
Proof.
  intros ps o s pre ws d tk a B C A. destruct (start_nonspace d C) as (x & t & -> & Sx & G & m & Em & Zm). rewrite step_at by assumption.
  unfold afterf, after_group. cbv zeta. rewrite from_pre, Em, Zm. cbn [Nat.ltb Nat.leb].
  eapply dispatch_acts; [lia|apply from_pre|discriminate|exact A].
Qed.

Lemma most : forall (l : list (call St)) (Q : call St -> nat -> Prop), (forall c n m, Q c n -> n <= m -> Q c m) -> (forall c, In c l -> exists n, Q c n) -> exists n, forall c, In c l -> Q c n.
Proof.
  intros l Q Mono. induction l as [|c l IH]; intros H; [exists 0; intros c []|].
  destruct (H c (or_introl eq_refl)) as (n & Hn). destruct IH as (m & Hm); [intros c' I; apply H; right; exact I|].
  exists (n + m). intros c' [<-|I]; [eapply Mono; [exact Hn|lia]|eapply Mono; [apply Hm; exact I|lia]].
Qed.
Theorem reading_loop : forall o s prev tk text s' tk', readingf o s prev tk text s' tk' ->
  exists n, forall fuel pre, n <= fuel -> last_char None pre = prev -> loopf fuel o s (pre ++ text) (Z.of_nat (length pre)) tk = ret (s', tk').
Proof.
  intros o s prev tk text s' tk' R. unfold readingf in R. unfold loopf.
  induction R as [o s prev tk text B|o s prev tk ws w x tk1 B I V Nl Sh A|o s prev tk ws w x tk1 d s' tk' B I V Nl Sh A D R IH|o s prev tk ws p x tk1 d s' tk' B I V Sh A D R IH|o s prev tk ws p x tk1 B I V Sh A
    |o s prev tk ws inner rest s1 nested tk1 s' tk' B G R1 IH1 A R2 IH2|o s prev tk ws d calls s1 tk1 e s' tk' B C Rc IHc A L R IH|o s prev tk ws d s1 r e s' tk' B C A L R IH].
  - exists 1. intros [|f] pre Lf _; [lia|]. cbn [loop]. fold (stepf). rewrite (step_blank _ o s pre text tk B). reflexivity.
  - exists 1. intros [|f] pre Lf P; [lia|]. cbn [loop]. destruct V as (y & v & Ew & Sy).
    assert (E : forall ps, stepf ps o s (pre ++ ws ++ w) (Z.of_nat (length pre)) tk = ret (Halt s tk1)).
    { intros ps. pose proof (inert_head w y v I Ew) as Ny. rewrite Ew. rewrite step_at; [|exact B|exact Sy|intros Q; congruence]. rewrite <- Ew.
      apply (after_text_end ps o s (pre ++ ws) w x); [rewrite Ew; discriminate|exact Nl|exact Sh| |apply inert_none; exact I].
      unfold after_space in *. rewrite <- last_app, P. exact A. }
    unfold stepf in E. rewrite E. reflexivity.
  - destruct IH as (n & IH). exists (S n). intros [|f] pre Lf P; [lia|]. cbn [loop]. destruct V as (y & v & Ew & Sy).
    destruct (delimits_found w d I D) as (m & Em & Es).
    assert (E : forall ps, stepf ps o s (pre ++ ws ++ w ++ d) (Z.of_nat (length pre)) tk = ret (Next s (((pre ++ ws) ++ w) ++ d) (Z.of_nat (length ((pre ++ ws) ++ w))) tk1)).
    { intros ps. pose proof (inert_head w y v I Ew) as Ny. assert (Q : w ++ d = y :: v ++ d) by (rewrite Ew; reflexivity). rewrite Q. rewrite step_at; [|exact B|exact Sy|intros Z; congruence]. rewrite <- Q.
      eapply after_text; [rewrite Ew; discriminate|exact Nl|exact Sh| |exact Em|exact Es].
      unfold after_space in *. rewrite <- last_app, P. exact A. }
    unfold stepf in E. rewrite E. unfold ret at 1. cbn [rbind]. apply IH; [lia|]. rewrite <- last_app. rewrite Ew. unfold last_char. cbn [rev]. destruct (rev v); reflexivity.
  - destruct IH as (n & IH). exists (S n). intros [|f] pre Lf P; [lia|]. cbn [loop]. destruct V as (y & v & Ew & Sy).
    destruct (delimits_found _ d I D) as (m & Em & Es).
    assert (E : forall ps, stepf ps o s (pre ++ ws ++ p ++ [c_lb] ++ d) (Z.of_nat (length pre)) tk = ret (Next s (((pre ++ ws) ++ p) ++ c_lb :: d) (Z.of_nat (length ((pre ++ ws) ++ p))) tk1)).
    { intros ps. assert (Ny : y <> c_lb) by (eapply inert_head; [exact I|rewrite Ew; reflexivity]). assert (Q : p ++ [c_lb] ++ d = y :: v ++ [c_lb] ++ d) by (rewrite Ew; reflexivity). rewrite Q. rewrite step_at; [|exact B|exact Sy|intros Z; congruence]. rewrite <- Q. rewrite (app_assoc p).
      eapply after_cut; [exact Sh| |exact Em|exact Es].
      unfold after_space in *. rewrite <- last_app, P. exact A. }
    unfold stepf in E. rewrite E. unfold ret at 1. cbn [rbind]. apply IH; [lia|]. rewrite <- last_app. rewrite Ew. unfold last_char. cbn [rev]. destruct (rev v); reflexivity.
  - exists 1. intros [|f] pre Lf P; [lia|]. cbn [loop]. destruct V as (y & v & Ew & Sy).
    assert (E : forall ps, stepf ps o s (pre ++ ws ++ p ++ [c_lb]) (Z.of_nat (length pre)) tk = ret (Halt s tk1)).
    { intros ps. assert (Ny : y <> c_lb) by (eapply inert_head; [exact I|rewrite Ew; reflexivity]). assert (Q : p ++ [c_lb] = y :: v ++ [c_lb]) by (rewrite Ew; reflexivity). rewrite Q. rewrite step_at; [|exact B|exact Sy|intros Z; congruence]. rewrite <- Q.
      apply (after_cut_end ps o s (pre ++ ws) p x); [exact Sh| |apply inert_none; exact I].
      unfold after_space in *. rewrite <- last_app, P. exact A. }
    unfold stepf in E. rewrite E. reflexivity.
  - destruct IH1 as (n1 & IH1). destruct IH2 as (n2 & IH2). exists (S (n1 + n2)). intros [|f] pre Lf P; [lia|]. cbn [loop].
    specialize (IH1 f [] ltac:(lia) eq_refl). cbn [app List.length] in IH1.
    match goal with |- context [step _ _ _ _ _ _ _ _ _ ?ps _ _ _ _ _] => pose proof (step_group ps o s pre ws inner rest tk s1 nested tk1 B G IH1 A) as E end.
    unfold stepf in E. rewrite E. unfold ret at 1. cbn [rbind]. apply IH2; [lia|]. rewrite !app_assoc. apply last_snoc.
  - destruct IH as (n & IH).
    destruct (most calls (fun c m => forall fuel, m <= fuel -> loop St expand user_command define if_else legacy handlers process on_label fuel (fst (fst (fst c))) (snd (fst (fst c))) (strip_latex_comments (snd (fst c))) 0 [] = ret (snd c))) as (k & Hk).
    { intros c a b H L1 fuel L2. apply H. lia. }
    { intros [[[o1 s0] c] [s2 tk2]] Ic. destruct (IHc o1 s0 c s2 tk2 Ic) as (k & Hk). exists k. intros fuel Lf. cbn [fst snd]. apply (Hk fuel [] Lf eq_refl). }
    exists (S (n + k)). intros [|f] pre Lf P; [lia|]. cbn [loop].
    match goal with |- context [step _ _ _ _ _ _ _ _ _ ?ps _ _ _ _ _] => assert (E : step St expand user_command define if_else legacy handlers process on_label ps o s (pre ++ ws ++ d) (Z.of_nat (length pre)) tk =
       ret (reaches St d ((pre ++ ws) ++ d) (Z.of_nat (length (pre ++ ws))) tk (Consumed s1 tk1 e))) end.
    { apply step_acts; [exact B|exact C|]. apply A. intros o1 s0 c r Ic. apply (Hk _ Ic f). lia. }
    rewrite E. unfold ret at 1. cbn [rbind reaches].
    assert (Z1 : (Z.of_nat (length (pre ++ ws)) + Z.of_nat e)%Z = Z.of_nat (length ((pre ++ ws) ++ firstn e d))) by (rewrite (app_length (pre ++ ws)), firstn_length, Nat.min_l by exact L; lia).
    assert (Z2 : (pre ++ ws) ++ d = ((pre ++ ws) ++ firstn e d) ++ skipn e d) by (rewrite <- (app_assoc (pre ++ ws)), firstn_skipn; reflexivity).
    rewrite Z1, Z2. apply IH; [lia|]. rewrite <- P, last_app. rewrite <- app_assoc. reflexivity.
  - destruct IH as (n & IH). exists (S n). intros [|f] pre Lf P; [lia|]. cbn [loop].
    match goal with |- context [step _ _ _ _ _ _ _ _ _ ?ps _ _ _ _ _] => pose proof (step_acts ps o s pre ws d tk (Replaced s1 r e) B C (A ps)) as E end.
    unfold stepf in E. rewrite E. unfold ret at 1. cbn [rbind reaches].
    assert (Z1 : spliced ((pre ++ ws) ++ d) (Z.of_nat (length (pre ++ ws))) r (Z.of_nat e) = (pre ++ ws) ++ r ++ skipn e d).
    { unfold spliced. rewrite from_add by (rewrite ?app_length; lia). rewrite from_pre. rewrite from_nat by lia. rewrite Nat2Z.id.
      unfold upto. rewrite clip_nonneg by lia. rewrite Nat2Z.id. rewrite Nat.min_r by (rewrite (app_length (pre ++ ws)); lia). rewrite first_pre. reflexivity. }
    rewrite Z1. apply IH; [lia|]. rewrite <- P, last_app. reflexivity.
Qed.
Theorem reading_parse : forall o s content s' tk', readingf o s None [] (strip_latex_comments content) s' tk' ->
  exists n, forall fuel, n <= fuel -> parse St expand user_command define if_else legacy handlers process on_label fuel o s content = ret (s', tk').
Proof. intros o s content s' tk' R. destruct (reading_loop _ _ _ _ _ _ _ R) as (n & H). exists n. intros fuel L. apply (H fuel [] L eq_refl). Qed.
End Run.
