From Coq Require Import List NArith ZArith PeanoNat Lia Bool String.
From Verif Require Import PyStr Json BuilderModel BuilderSpec BuilderProofs BuilderProofs2 BuilderProofs3 TidySpec TidyProofs TidyProofs2.
Import ListNotations.
Notation length := List.length.
Notation concat := List.concat.
Open Scope list_scope.

(** joining texts does not make documents longer *)
Lemma joined_length : forall l o, joined l o -> forall app dep es es', walk app dep l es -> walk app dep o es' -> length es' <= length es.
Proof.
  induction 1 as [|v r o T J IH|d styles c ds cs s r o Hd F G NC J IH]; intros app dep es es' W W'.
  - inversion W; inversion W'; subst. reflexivity.
  - destruct v as [| | | | |d].
    1-5: inversion W; inversion W'; subst; cbn [length]; apply le_n_S; eauto.
    destruct (walk_other_inv _ _ _ _ _ W) as (a1 & dd & a2 & e1 & e2 & -> & H1 & H2 & P1 & P2 & P3 & P4).
    destruct (walk_other_inv _ _ _ _ _ W') as (a1' & dd' & a2' & e1' & e2' & -> & H1' & H2' & P1' & P2' & P3' & P4').
    assert (EE : a1 = a1' /\ a2 = a2' /\ dd = dd').
    { destruct (of_type_dec "appendix" d) as [A|A].
      - destruct (P1 A) as (-> & -> & ->), (P1' A) as (-> & -> & ->). auto.
      - destruct (P2 A) as (-> & ->), (P2' A) as (-> & ->). destruct (of_type_dec "list" d) as [B|B].
        + rewrite (P3 B), (P3' B). auto.
        + rewrite (P4 B), (P4' B). auto. }
    destruct EE as (<- & <- & <-). rewrite (walk_fun _ _ _ _ H1' _ H1). cbn [length]. rewrite !app_length. pose proof (IH _ _ _ _ H2 H2'). lia.
  - destruct Hd as (T & S & C). destruct (walk_text _ _ _ _ _ _ W T C) as (es2 & -> & W2).
    destruct (walk_text _ _ _ s _ _ W' (proj2 (type_set _ _ _) T) (lookup_set_same _ _ _)) as (es2' & -> & W2'). cbn [length]. apply le_n_S.
    assert (SK : exists es3, walk app dep r es3 /\ length es3 <= length es2).
    { clear - F W2. revert ds F es2 W2. induction cs as [|b cs IHc]; intros ds F es2 W2; inversion F as [|? d' ? ds' Hd' F']; subst; [eauto|].
      cbn [map List.app] in W2. destruct Hd' as (T' & S' & C'). destruct (walk_text _ _ _ _ _ _ W2 T' C') as (es4 & -> & W4).
      destruct (IHc _ F' _ W4) as (es3 & W3 & E3). exists es3. split; [exact W3|]. cbn [length]. lia. }
    destruct SK as (es3 & W3 & E3). pose proof (IH _ _ _ _ W3 W2'). lia.
Qed.

Lemma tidy_length :
  (forall b l o, tidy b l o -> forall app dep es es', walk app dep l es -> walk app dep o es' -> length es' <= length es) /\
  (forall l o, tidied l o -> forall app dep es es', walk app dep l es -> walk app dep o es' -> length es' <= length es) /\
  (forall d d', tidy_title d d' -> True) /\
  (forall d d', tidy_content d d' -> forall app dep es es', walk app dep (children d) es -> walk app dep (children d') es' -> length es' <= length es) /\
  (forall l l', tidy_rows l l' -> forall app dep es es', walk app dep l es -> walk app dep l' es' -> length es' <= length es).
Proof.
  apply tidy_mutind.
  - intros l m o _ IH J app dep es es' W W'. destruct (walk_exists' app dep m) as (em & Wm).
    pose proof (joined_length m o J app dep em es' Wm W'). pose proof (IH _ _ _ _ W Wm). lia.
  - intros l o _ IH. exact IH.
  - intros app dep es es' W W'. inversion W; inversion W'; subst. constructor.
  - intros v r r' D L R IH app dep es es' W W'. inversion W; subst; try (exfalso; apply D; exact I). inversion W'; subst; try (exfalso; apply D; exact I).
    cbn [length]. apply le_n_S. eauto.
  - intros l l' r r' Hl _ R IH app dep es es' W W'. inversion W; inversion W'; subst. cbn [length]. apply le_n_S. eauto.
  - intros d d1 d2 r r' T1 _ T2 IHc R IH app dep es es' W W'.
    destruct (walk_other_inv _ _ _ _ _ W) as (a1 & dd & a2 & e1 & e2 & -> & H1 & H2 & P1 & P2 & P3 & P4).
    destruct (walk_other_inv _ _ _ _ _ W') as (a1' & dd' & a2' & e1' & e2' & -> & H1' & H2' & P1' & P2' & P3' & P4').
    rewrite (tok_type d d1 d2 "appendix" T1 T2) in P1', P2'. rewrite (tok_type d d1 d2 "list" T1 T2) in P3', P4'.
    assert (EE : a1 = a1' /\ a2 = a2' /\ dd = dd').
    { destruct (of_type_dec "appendix" d) as [A|A].
      - destruct (P1 A) as (-> & -> & ->), (P1' A) as (-> & -> & ->). auto.
      - destruct (P2 A) as (-> & ->), (P2' A) as (-> & ->). destruct (of_type_dec "list" d) as [B|B].
        + rewrite (P3 B), (P3' B). auto.
        + rewrite (P4 B), (P4' B). auto. }
    destruct EE as (<- & <- & <-).
    assert (Ech : children d1 = children d) by (unfold children; rewrite (title_get d d1 k_content T1) by discriminate; reflexivity).
    rewrite Ech in IHc. cbn [length]. rewrite !app_length. pose proof (IHc _ _ _ _ H1 H1'). pose proof (IH _ _ _ _ H2 H2'). lia.
  - auto.
  - auto.
  - intros d Hn app dep es es' W W'. rewrite (walk_fun _ _ _ _ W _ W'). reflexivity.
  - intros d l l' Ht Hg _ IH app dep es es' W W'. unfold children in W, W'. rewrite Hg in W. rewrite get_set_same in W'. eauto.
  - intros d l l' Ht Hg _ IH app dep es es' W W'. unfold children in W, W'. rewrite Hg in W. rewrite get_set_same in W'. eauto.
  - intros app dep es es' W W'. inversion W; inversion W'; subst. constructor.
  - intros l l' r r' Hl _ R IH app dep es es' W W'. inversion W; inversion W'; subst. cbn [length]. apply le_n_S. eauto.
Qed.

(** * organize_content on documents *)
Theorem organize_document : forall st tokens es, parsed tokens -> document false tokens -> walk false 0 tokens es ->
  (N.of_nat (length es) < 1000000)%N ->
  exists st' out toks es', organize_content false st tokens = (st', Ok out) /\
    tidy true tokens toks /\ walk false 0 toks es' /\ preorder out (annotate [] es').
Proof.
  intros st tokens es Hp Hd Hw Hlen.
  destruct (process_ok (S (lsize tokens)) tokens true (Nat.lt_succ_diag_r _) Hp) as (toks & Et & Tt).
  destruct (walk_exists' false 0 toks) as (es' & W').
  pose proof (proj1 tidy_length _ _ _ Tt _ _ _ _ Hw W') as Hle.
  destruct (organize_ok (S (lsize toks)) toks (Nat.lt_succ_diag_r _) (proj1 tidy_document _ _ _ Tt _ Hd) cleared [] false 0 es' W' st_ok_cleared) as (st' & out & E & P & _).
  { cbn [length]. lia. }
  exists st', out, toks, es'. split; [|auto]. unfold organize_content, process_tokens, reset_numbering. rewrite Et. exact E.
Qed.

(** the same seen from the input *)
Theorem organize_from_input : forall st tokens es, parsed tokens -> document false tokens -> walk false 0 tokens es ->
  (N.of_nat (length es) < 1000000)%N ->
  exists st' out hs, organize_content false st tokens = (st', Ok out) /\ preorder out hs /\
    Forall2 similar (annotate [] (filter nontext_event es)) (filter nontext hs).
Proof.
  intros st tokens es Hp Hd Hw Hlen.
  destruct (organize_document st tokens es Hp Hd Hw Hlen) as (st' & out & toks & es' & E & T & W' & P).
  exists st', out, (annotate [] es'). split; [exact E|]. split; [exact P|].
  rewrite annotate_filter. cbn [filter]. apply sim_annotate; [|constructor].
  exact (proj1 tidy_walk _ _ _ T _ _ _ _ Hw W').
Qed.

Lemma Forall2_len : forall A B (R : A -> B -> Prop) l l', Forall2 R l l' -> length l = length l'.
Proof. induction 1; cbn; congruence. Qed.
Lemma annotate_nth : forall es1 before e es2, annotate before (es1 ++ e :: es2) =
  annotate before es1 ++ decorate (before ++ es1) e :: annotate ((before ++ es1) ++ [e]) es2.
Proof. intros. rewrite annotate_app. cbn [annotate]. reflexivity. Qed.
Lemma annotate_length : forall es before, length (annotate before es) = length es.
Proof. induction es as [|e es IH]; intros before; cbn; auto. Qed.

(** One token of the input and its image. *)
Theorem organize_token : forall st tokens before e after, parsed tokens -> document false tokens ->
  walk false 0 tokens (before ++ e :: after) -> (N.of_nat (length (before ++ e :: after)) < 1000000)%N -> nontext_event e = true ->
  exists st' out hs1 h hs2, organize_content false st tokens = (st', Ok out) /\
    (exists hs, preorder out hs /\ filter nontext hs = hs1 ++ h :: hs2) /\
    length hs1 = length (filter nontext_event before) /\ similar (decorate before e) h.
Proof.
  intros st tokens before e after Hp Hd Hw Hlen He.
  destruct (organize_from_input st tokens _ Hp Hd Hw Hlen) as (st' & out & hs & E & P & F).
  rewrite filter_app in F. cbn [filter] in F. rewrite He in F. rewrite annotate_nth in F. cbn [app] in F.
  apply Forall2_app_inv_l in F as (h1 & h2 & F1 & F2 & Eh). inversion F2 as [|x h y hs2 S F3]; subst.
  exists st', out, h1, h, hs2. split; [exact E|]. split; [exists hs; auto|].
  split; [apply Forall2_len in F1; rewrite annotate_length in F1; symmetry; exact F1|].
  replace (decorate before e) with (decorate (filter nontext_event before) e); [exact S|].
  unfold decorate. destruct (number_of_filter before e) as [->|K]; [reflexivity|]. rewrite He in K. discriminate.
Qed.

Lemma similar_lookup : forall k d h, k <> k_title -> similar (VDict d) h -> exists d', h = VDict d' /\ lookup k d' = lookup k d.
Proof.
  intros k d h Hk [<-|[(l & l' & b & E & _)|(d0 & l & l' & E & Hg & Hl & ->)]]; [eauto|discriminate|].
  injection E as <-. eexists. split; [reflexivity|]. apply lookup_set_other. exact Hk.
Qed.

Lemma decorate_numbering : forall before e d, e_head e = VDict d -> exists d', decorate before e = VDict d' /\
  lookup k_numbering d' = match number_of before e with Some s => Some (VStr s) | None => lookup k_numbering d end.
Proof.
  intros before e d Ed. unfold decorate. rewrite Ed. cbv zeta. eexists. split; [reflexivity|].
  destruct (has_type "list" e); rewrite ?(lookup_set_other k_numbering k_depth) by discriminate;
    (destruct (number_of before e); [apply lookup_set_same|reflexivity]).
Qed.

Theorem organize_numbering : forall st tokens before e after d, parsed tokens -> document false tokens ->
  walk false 0 tokens (before ++ e :: after) -> (N.of_nat (length (before ++ e :: after)) < 1000000)%N -> nontext_event e = true ->
  e_head e = VDict d ->
  exists st' out hs1 d' hs2, organize_content false st tokens = (st', Ok out) /\
    (exists hs, preorder out hs /\ filter nontext hs = hs1 ++ VDict d' :: hs2) /\
    length hs1 = length (filter nontext_event before) /\
    lookup k_type d' = lookup k_type d /\
    lookup k_numbering d' = match number_of before e with Some s => Some (VStr s) | None => lookup k_numbering d end.
Proof.
  intros st tokens before e after d Hp Hd Hw Hlen He Ed.
  destruct (organize_token st tokens before e after Hp Hd Hw Hlen He) as (st' & out & hs1 & h & hs2 & E & P & L & S).
  destruct (decorate_numbering before e d Ed) as (d0 & E0 & L0). rewrite E0 in S.
  destruct (similar_lookup k_numbering d0 h ltac:(discriminate) S) as (d' & -> & L').
  destruct (similar_lookup k_type d0 _ ltac:(discriminate) S) as (d'' & E'' & L''). injection E'' as <-.
  exists st', out, hs1, d', hs2. repeat split; auto; [|rewrite L'; exact L0].
  rewrite L''. unfold decorate in E0. rewrite Ed in E0. cbv zeta in E0. injection E0 as <-.
  destruct (has_type "list" e); rewrite ?(lookup_set_other k_type k_depth) by discriminate;
    (destruct (number_of before e); [apply lookup_set_other; discriminate|reflexivity]).
Qed.

(** sections *)
Lemma section_number_of : forall before e z, numbered_section e = Some z -> number_of before e = Some (section_number (e_app e) z (before ++ [e])).
Proof.
  intros before e z H. unfold number_of. pose proof (section_type e z H) as T.
  assert (X : forall s, s <> "section"%string -> numbered_as s e = false).
  { intros s Hs. unfold numbered_as. destruct (has_type s e) eqn:Es; [|reflexivity]. exfalso. apply Hs. unfold has_type in *.
    destruct (e_head e); try discriminate. apply is_str_true in T, Es. rewrite Es in T. injection T as T.
    change (lit s = lit "section") in T. clear - T.
    assert (INJ : forall a b, lit a = lit b -> a = b).
    { induction a as [|x a IH]; intros [|y b] K; try discriminate; [reflexivity|]. cbn in K. injection K as K1 K2. f_equal; [|apply IH; exact K2].
      apply (f_equal Ascii.ascii_of_N) in K1. rewrite !Ascii.ascii_N_embedding in K1. exact K1. }
    apply INJ. exact T. }
  unfold simple_types. cbn [find]. rewrite !X by discriminate. rewrite H. reflexivity.
Qed.

(** * History *)
Fixpoint run (m : bool) (st : counters) (calls : list (list val)) : counters :=
  match calls with [] => st | c :: r => run m (fst (organize_content m st c)) r end.
Lemma history : forall m calls tokens, organize_content m (run m cleared calls) tokens = organize_content m cleared tokens.
Proof. reflexivity. Qed.

Lemma never_raises : forall st tokens es, parsed tokens -> document false tokens -> walk false 0 tokens es ->
  (N.of_nat (length es) < 1000000)%N -> exists out, snd (organize_content false st tokens) = Ok out.
Proof.
  intros st tokens es Hp Hd Hw Hl. destruct (organize_document st tokens es Hp Hd Hw Hl) as (st' & out & _ & _ & E & _).
  exists out. rewrite E. reflexivity.
Qed.

Lemma typed_head : forall s e, has_type s e = true -> exists d, e_head e = VDict d /\ of_type s d.
Proof.
  intros s e H. unfold has_type in H. destruct (e_head e) as [| | | | |d]; try discriminate. exists d. split; [reflexivity|apply type_bool; exact H].
Qed.
Lemma lit_inj : forall a b, lit a = lit b -> a = b.
Proof.
  induction a as [|x a IH]; intros [|y b] K; try discriminate; [reflexivity|]. cbn in K. injection K as K1 K2. f_equal; [|apply IH; exact K2].
  apply (f_equal Ascii.ascii_of_N) in K1. rewrite !Ascii.ascii_N_embedding in K1. exact K1.
Qed.
Lemma one_type : forall s s' e, has_type s e = true -> has_type s' e = true -> s = s'.
Proof.
  intros s s' e H H'. destruct (typed_head s e H) as (d & E & T). destruct (typed_head s' e H') as (d' & E' & T'). rewrite E in E'. injection E' as <-.
  unfold of_type in *. rewrite T in T'. injection T' as T'. apply lit_inj. exact T'.
Qed.
Lemma numbered_type : forall s e, numbered_as s e = true -> has_type s e = true.
Proof. intros s e H. unfold numbered_as in H. apply andb_prop in H. apply H. Qed.

Lemma simple_number : forall s before e, In s simple_types -> numbered_as s e = true ->
  number_of before e = Some (str_of_nat (S (count (numbered_as s) before))).
Proof.
  intros s before e Hin H. unfold number_of. destruct (find (fun s => numbered_as s e) simple_types) as [s'|] eqn:F.
  - apply find_some in F as [_ F]. rewrite (one_type s s' e (numbered_type _ _ H) (numbered_type _ _ F)). reflexivity.
  - exfalso. pose proof (find_none _ _ F s Hin) as K. cbn in K. rewrite H in K. discriminate.
Qed.
Lemma math_number : forall before e, numbered_as "math_env" e = true ->
  number_of before e = Some (str_of_nat (section_count 1 before) ++ lit "." ++ str_of_nat (S (count (numbered_as "math_env") (since level_one_section before)))).
Proof.
  intros before e H. unfold number_of. destruct (find (fun s => numbered_as s e) simple_types) as [s'|] eqn:F.
  - exfalso. apply find_some in F as [I F]. pose proof (one_type _ _ e (numbered_type _ _ H) (numbered_type _ _ F)) as <-.
    cbn in I. repeat (destruct I as [I|I]; [discriminate|]). exact I.
  - rewrite H. reflexivity.
Qed.

Lemma typed_ok : forall st tokens before e after s x, parsed tokens -> document false tokens ->
  walk false 0 tokens (before ++ e :: after) -> (N.of_nat (length (before ++ e :: after)) < 1000000)%N ->
  has_type s e = true -> s <> "text"%string -> number_of before e = Some x ->
  exists st' out hs1 d' hs2, organize_content false st tokens = (st', Ok out) /\
    (exists hs, preorder out hs /\ filter nontext hs = hs1 ++ VDict d' :: hs2) /\
    length hs1 = length (filter nontext_event before) /\ of_type s d' /\ lookup k_numbering d' = Some (VStr x).
Proof.
  intros st tokens before e after s x Hp Hd Hw Hl Ht Hs Hx. destruct (typed_head s e Ht) as (d & Ed & Td).
  destruct (organize_numbering st tokens before e after d Hp Hd Hw Hl (typed_nontext s e Ht Hs) Ed) as (st' & out & hs1 & d' & hs2 & E & P & L & T & N).
  exists st', out, hs1, d', hs2. rewrite Hx in N. repeat split; auto. unfold of_type. rewrite T. exact Td.
Qed.

Lemma section_numbers_ok : forall st tokens before e after z, parsed tokens -> document false tokens ->
  walk false 0 tokens (before ++ e :: after) -> (N.of_nat (length (before ++ e :: after)) < 1000000)%N ->
  numbered_section e = Some z ->
  exists st' out hs1 d' hs2, organize_content false st tokens = (st', Ok out) /\
    (exists hs, preorder out hs /\ filter nontext hs = hs1 ++ VDict d' :: hs2) /\
    length hs1 = length (filter nontext_event before) /\ of_type "section" d' /\
    lookup k_numbering d' = Some (VStr (section_number (e_app e) z (before ++ [e]))).
Proof.
  intros st tokens before e after z Hp Hd Hw Hl Hz. eapply typed_ok; eauto; [eapply section_type; eauto|discriminate|apply section_number_of; exact Hz].
Qed.
Lemma simple_numbers_ok : forall st tokens before e after s, parsed tokens -> document false tokens ->
  walk false 0 tokens (before ++ e :: after) -> (N.of_nat (length (before ++ e :: after)) < 1000000)%N ->
  In s simple_types -> numbered_as s e = true ->
  exists st' out hs1 d' hs2, organize_content false st tokens = (st', Ok out) /\
    (exists hs, preorder out hs /\ filter nontext hs = hs1 ++ VDict d' :: hs2) /\
    length hs1 = length (filter nontext_event before) /\ of_type s d' /\
    lookup k_numbering d' = Some (VStr (str_of_nat (S (count (numbered_as s) before)))).
Proof.
  intros st tokens before e after s Hp Hd Hw Hl Hin H. eapply typed_ok; eauto; [apply numbered_type; exact H| |apply simple_number; assumption].
  intros ->. cbn in Hin. repeat (destruct Hin as [Hin|Hin]; [discriminate|]). exact Hin.
Qed.
Lemma theorem_numbers_ok : forall st tokens before e after, parsed tokens -> document false tokens ->
  walk false 0 tokens (before ++ e :: after) -> (N.of_nat (length (before ++ e :: after)) < 1000000)%N ->
  numbered_as "math_env" e = true ->
  exists st' out hs1 d' hs2, organize_content false st tokens = (st', Ok out) /\
    (exists hs, preorder out hs /\ filter nontext hs = hs1 ++ VDict d' :: hs2) /\
    length hs1 = length (filter nontext_event before) /\ of_type "math_env" d' /\
    lookup k_numbering d' = Some (VStr (str_of_nat (section_count 1 before) ++ lit "." ++
      str_of_nat (S (count (numbered_as "math_env") (since level_one_section before))))).
Proof.
  intros st tokens before e after Hp Hd Hw Hl H. eapply typed_ok; eauto; [apply numbered_type; exact H|discriminate|apply math_number; assumption].
Qed.
Lemma unnumbered_ok : forall st tokens before e after d, parsed tokens -> document false tokens ->
  walk false 0 tokens (before ++ e :: after) -> (N.of_nat (length (before ++ e :: after)) < 1000000)%N ->
  nontext_event e = true -> e_head e = VDict d -> truthy (get_default k_numbered (VBool true) d) = false ->
  exists st' out hs1 d' hs2, organize_content false st tokens = (st', Ok out) /\
    (exists hs, preorder out hs /\ filter nontext hs = hs1 ++ VDict d' :: hs2) /\
    length hs1 = length (filter nontext_event before) /\ lookup k_numbering d' = lookup k_numbering d.
Proof.
  intros st tokens before e after d Hp Hd Hw Hl Hn Ed Hf.
  destruct (organize_numbering st tokens before e after d Hp Hd Hw Hl Hn Ed) as (st' & out & hs1 & d' & hs2 & E & P & L & T & N).
  exists st', out, hs1, d', hs2. repeat split; auto. rewrite N.
  assert (X : forall s, numbered_as s e = false).
  { intros s. unfold numbered_as. rewrite Ed. unfold get_default, get in *. destruct (lookup k_numbered d); [rewrite Hf; apply andb_false_r|discriminate]. }
  unfold number_of. unfold simple_types. cbn [find]. rewrite !X. unfold numbered_section. rewrite Ed, Hf, andb_false_r. reflexivity.
Qed.
Lemma process_tokens_ok : forall tokens, parsed tokens -> exists out, process_tokens false tokens = Ok out /\ tidy true tokens out.
Proof. intros tokens H. unfold process_tokens. apply process_ok; [apply Nat.lt_succ_diag_r|exact H]. Qed.
