From Coq Require Import List NArith ZArith PeanoNat Lia Bool String.
From Verif Require Import PyStr Json BuilderModel BuilderSpec BuilderProofs BuilderProofs2 BuilderProofs3 TidySpec TidyProofs TidyProofs2 NestSpec NestProofs NestProofs2.
Import ListNotations.
Notation length := List.length.
Notation concat := List.concat.
Open Scope list_scope.

Lemma nest_bib : forall f v, base f -> inside v -> kind_of v = KBibliography ->
  let g := append_to (with_stacks f [] []) None (IVal v) in base g /\ (path_ok f -> root f = None -> path_ok g).
Proof.
  intros f v [HC HL] Hv Hk g.
  assert (A : addition (cells f) (IVal v) [] (kind_of v)) by (constructor; exact Hv).
  assert (EC : cells g = push_cells None (IVal v) (cells f) []) by (unfold g; cbn; unfold push_cells; rewrite app_nil_r; reflexivity).
  assert (EO : organized g = organized f ++ [IVal v]) by reflexivity.
  split.
  - split; rewrite EC; [eapply cells_push_none; eauto|]. rewrite EO. eapply list_add; eauto; [lia| |].
    + intros p a _. rewrite Hk. destruct a; exact I.
    + left. rewrite Hk. right. reflexivity.
  - intros P Er. constructor.
    + unfold open_path, root_list, par_list, start. unfold g. cbn [append_to with_stacks root section_stack paragraph_stack organized cells]. rewrite Er. cbn [rev app].
      constructor. intros p it E. apply app_inj_tail in E as [_ <-]. cbn [ik]. rewrite Hk. split; discriminate.
    + constructor.
    + constructor.
    + intros _. rewrite EO. unfold g. cbn [append_to with_stacks cells]. rewrite map_app, in_app_iff. intros [X|[X|[]]]; [apply (p_none f P Er X)|]. cbn [ik] in X. congruence.
    + intros r Er'. unfold g in Er'. cbn [append_to with_stacks root] in Er'. congruence.
Qed.

Lemma nest_appendix : forall f d inner, base f -> nested false inner -> kind_of_dict d = KAppendix ->
  let g := {| organized := organized f ++ [IRef (length (cells f))];
              cells := cells f ++ [{| c_tok := d; c_items := map IVal inner |}]; root := Some (length (cells f));
              section_stack := []; paragraph_stack := []; f_app := true |} in
  base g /\ (inner = [] -> path_ok g).
Proof.
  intros f d inner [HC HL] Hin Hk g.
  set (x := IRef (length (cells f))). set (ext := [{| c_tok := d; c_items := map IVal inner |}]).
  assert (EC : cells g = push_cells None x (cells f) ext) by reflexivity.
  assert (Hn : nth_error (cells g) (length (cells f)) = Some {| c_tok := d; c_items := map IVal inner |}).
  { unfold g. cbn [cells]. rewrite nth_error_app2 by lia. rewrite Nat.sub_diag. reflexivity. }
  assert (Kx : ik (cells g) x = KAppendix) by (unfold x; cbn [ik]; rewrite Hn; exact Hk).
  inversion Hin as [? ? I1 I2 I3]; subst.
  assert (MK : map (ik (cells g)) (map IVal inner) = map kind_of inner) by (rewrite map_map; reflexivity).
  split.
  - split.
    + intros i c E. unfold g in E. cbn [cells] in E. destruct (Nat.lt_ge_cases i (length (cells f))) as [L|L].
      * rewrite nth_error_app1 in E by exact L. destruct (HC i c E) as [H1 H2]. rewrite EC. split; [apply list_push; exact H1|].
        rewrite (push_kinds None x (cells f) ext (S i)) by apply H1. exact H2.
      * rewrite nth_error_app2 in E by exact L. destruct (i - length (cells f)) as [|m]; [|destruct m; discriminate]. cbn in E. injection E as <-.
        split; cbn [c_tok c_items]; rewrite Hk; unfold list_ok; rewrite MK.
        -- cbn [is_section]. split; [exact I1|split; [exact I2|]]. apply Forall_map. exact I3.
        -- apply Forall_forall. intros k _. exact I.
    + destruct HL as (H1 & H2 & H3). unfold list_ok, g at 2 4. cbn [organized]. rewrite map_app. cbn [map]. fold x. rewrite Kx.
      rewrite EC, (push_kinds None x (cells f) ext 0) by exact H3. split; [|split].
      * apply chain_snoc; [exact H1|]. intros p a _. destruct a; exact I.
      * apply appendix_last_snoc; [exact H2|left; reflexivity].
      * unfold g. cbn [organized]. apply Forall_app. split; [apply push_item_ok; exact H3|]. constructor; [|constructor]. cbn [item_ok x]. rewrite push_length. cbn. lia.
  - intros ->. constructor.
    + unfold open_path, root_list, par_list, start. cbn [g root section_stack paragraph_stack rev app].
      apply (op_in (cells g) [] (length (cells f)) _ []) with (1 := Hn). constructor. cbn [c_items map]. intros p it E. destruct p; discriminate.
    + constructor.
    + constructor.
    + discriminate.
    + intros r Er. unfold g in Er. cbn [root] in Er. injection Er as <-. split; [unfold g; cbn [cells]; rewrite app_length; cbn; lia|].
      split; [exact Kx|]. intros c E. rewrite Hn in E. injection E as <-. intros [].
Qed.

Lemma cun_kind : forall st d st' d', check_update_numbering st d = Ok (st', d') ->
  kind_of_dict d' = kind_of_dict d /\ get k_content d' = get k_content d /\ lookup k_type d' = lookup k_type d.
Proof.
  intros st d st' d' H. unfold check_update_numbering in H.
  assert (S : forall v, kind_of_dict (set k_numbering v d) = kind_of_dict d /\ get k_content (set k_numbering v d) = get k_content d /\ lookup k_type (set k_numbering v d) = lookup k_type d).
  { intros v. split; [apply kind_set; discriminate|]. split; [apply get_set_other; discriminate|apply lookup_set_other; discriminate]. }
  destruct (truthy (get k_numbered d)); [|injection H as <- <-; auto].
  destruct (getitem k_type d) as [ty|]; [|discriminate]. cbn [bind] in H.
  destruct (is_str ty "equation"); [injection H as <- <-; apply S|].
  destruct (is_str ty "algorithm"); [injection H as <- <-; apply S|].
  destruct (is_str ty "math_env"); [destruct (zget 1 (section_numbers st)); [|discriminate]; cbn [bind] in H; injection H as <- <-; apply S|].
  destruct (is_str ty "table"); [injection H as <- <-; apply S|].
  destruct (is_str ty "figure"); [injection H as <- <-; apply S|].
  injection H as <- <-. auto.
Qed.
Lemma usn_kind : forall st d r a st' d', update_section_numbering st d r a = Ok (st', d') -> kind_of_dict d' = kind_of_dict d.
Proof.
  intros st d r a st' d' H. unfold update_section_numbering in H. destruct (negb _); [injection H as <- <-; reflexivity|].
  destruct (as_int _) as [l|]; [|discriminate]. cbn [bind] in H.
  destruct (zget l _) as [n|]; [|discriminate]. cbn [bind] in H.
  destruct (zget 1 _) as [n1|]; [|discriminate]. cbn [bind] in H.
  destruct (if a then _ else _) as [fn|]; [|discriminate]. cbn [bind] in H.
  destruct (mmap _ _) as [os|]; [|discriminate]. cbn [bind] in H. injection H as <- <-. apply kind_set; discriminate.
Qed.
Lemma closer_tail : forall v r, Forall closer (v :: r) -> Forall closer r.
Proof. intros v r H. inversion H; assumption. Qed.

Definition rec_ok (rec : counters -> list val -> bool -> nat -> counters * res (list val)) : Prop :=
  forall st c app dep st' out, calm false c -> rec st c app dep = (st', Ok out) -> nested false out.

Lemma nested_nil : forall b, nested b [].
Proof. intros b. constructor; [constructor| |constructor]. intros a r E. destruct a; discriminate. Qed.
Lemma nest_loop : forall rec, rec_ok rec -> forall dep tokens seen st f st' out, calm seen tokens ->
  (root f <> None -> seen = true) -> base f -> (path_ok f \/ Forall closer tokens) ->
  org_loop rec dep st f tokens = (st', Ok out) -> nested false out.
Proof.
  intros rec HR dep. induction tokens as [|v r IH]; intros seen st f st' out Hc Hroot B P H.
  { cbn [org_loop] in H. injection H as _ <-. apply base_finish. exact B. }
  assert (D : is_dict v \/ ~ is_dict v) by (destruct v; cbn; auto). destruct D as [D|D].
  2:{ assert (E : org_loop rec dep st f (v :: r) = org_loop rec dep st (append_to f (get_current_target f) (IVal v)) r)
        by (destruct v; try reflexivity; exfalso; apply D; exact I).
      rewrite E in H. inversion Hc as [|? ? ? _ Hc'|]; subst; [|exfalso; apply D; exact I].
      destruct P as [P|P]; [|exfalso; inversion P as [|? ? (d & -> & _) _]; subst; apply D; exact I].
      destruct (nest_val f v B P) as [B' P']; [constructor; exact D|destruct v; try reflexivity; exfalso; apply D; exact I|].
      apply (IH seen st _ st' out Hc') in H; auto. destruct (append_stacks f (get_current_target f) (IVal v)) as (_ & _ & -> & _). exact Hroot. }
  destruct v as [| | | | |d]; try contradiction. clear D.
  inversion Hc as [|? ? ? N _|? seen' ? ? S1 S2 C1 C2 Hcc Hcr]; subst; [exfalso; apply N; exact I|].
  cbn [org_loop] in H. destruct (getitem k_type d) as [ty|] eqn:Ety; [|discriminate].
  assert (Gty : get k_type d = ty) by (unfold getitem in Ety; unfold get; destruct (lookup k_type d); [congruence|discriminate]).
  destruct (is_str ty "appendix") eqn:Eapp.
  { assert (Ta : of_type "appendix" d) by (apply type_bool; rewrite Gty; exact Eapp).
    assert (Hk : kind_of_dict d = KAppendix) by (unfold kind_of_dict; rewrite Gty, Eapp; reflexivity).
    set (st0 := with_sections st (section_numbers cleared)) in *.
    destruct (if negb (truthy (get k_content d)) then (st0, Ok []) else match get k_content d with VList c => rec st0 c true dep | _ => (st0, Raise TypeError) end) as [st1 inner] eqn:Ein.
    destruct inner as [inner|]; [|discriminate].
    assert (Hin : nested false inner /\ (inner <> [] -> children d <> [])).
    { unfold children. destruct (get k_content d) as [| | | |c|] eqn:Eg.
      1-4,6: (destruct (negb _) in Ein; [injection Ein as _ <-; split; [apply nested_nil|congruence]|discriminate Ein]).
      destruct c as [|x c]; cbn [truthy negb] in Ein; [injection Ein as _ <-; split; [apply nested_nil|congruence]|].
      split; [|discriminate]. eapply HR; [|exact Ein]. unfold children in Hcc. rewrite Eg in Hcc. exact Hcc. }
    destruct Hin as [Hin Hne].
    destruct (nest_appendix f d inner B Hin Hk) as [B' P'].
    apply (IH seen' st1 _ st' out Hcr) in H; auto.
    destruct inner as [|x inner]; [left; apply P'; reflexivity|]. right. apply C1; [exact Ta|apply Hne; discriminate]. }
  assert (Tna : ~ of_type "appendix" d) by (apply type_bool_false; rewrite Gty; exact Eapp).
  rewrite (S2 Tna) in Hcr.
  destruct (check_update_numbering st d) as [[st1 d1]|] eqn:Ecun; [|discriminate].
  destruct (cun_kind _ _ _ _ Ecun) as (K1 & G1 & T1).
  set (dd := if is_str ty "list" then dep + 1 else dep) in *.
  set (d2 := if is_str ty "list" then set k_depth (VInt (Z.of_nat dd)) d1 else d1) in *.
  assert (K2 : kind_of_dict d2 = kind_of_dict d) by (unfold d2; destruct (is_str ty "list"); [rewrite kind_set by discriminate|]; exact K1).
  assert (G2 : get k_content d2 = get k_content d) by (unfold d2; destruct (is_str ty "list"); [rewrite get_set_other by discriminate|]; exact G1).
  destruct (match get k_content d2 with VList c => let '(st2, r0) := rec st1 c (f_app f) dd in (st2, match r0 with Ok c' => Ok (set k_content (VList c') d2) | Raise e => Raise e end) | _ => (st1, Ok d2) end) as [st2 r2] eqn:Er.
  destruct r2 as [d3|]; [|discriminate].
  assert (K3 : kind_of_dict d3 = kind_of_dict d /\ nested false (children d3)).
  { destruct (get k_content d2) as [| | | |c|] eqn:Eg.
    1-4,6: (injection Er as _ <-; split; [exact K2|unfold children; rewrite Eg; apply nested_nil]).
    destruct (rec st1 c (f_app f) dd) as [st3 r0] eqn:Erec. destruct r0 as [c'|]; [|discriminate]. injection Er as _ <-.
    split; [rewrite kind_set by discriminate; exact K2|]. rewrite children_set. eapply HR; [|exact Erec].
    unfold children in Hcc. rewrite <- G2 in Hcc. exact Hcc. }
  destruct K3 as [K3 N3]. clearbody d2.
  destruct (is_str ty "bibliography") eqn:Ebib.
  { assert (Tb : of_type "bibliography" d) by (apply type_bool; rewrite Gty; exact Ebib).
    assert (Hk : kind_of_dict d = KBibliography) by (unfold kind_of_dict; rewrite Gty, Eapp, Ebib; reflexivity).
    destruct (nest_bib f (VDict d3) B) as [B' P'].
    - constructor; rewrite K3, Hk; [apply Forall_forall; intros k _; exact I|exact N3].
    - cbn [kind_of]. congruence.
    - apply (IH seen st2 _ st' out Hcr) in H; auto.
      destruct P as [P|P]; [|right; apply closer_tail in P; exact P].
      destruct (root f) as [rt|] eqn:Ert; [right; apply C2; [exact Tb|apply Hroot; discriminate]|left; apply P'; [exact P|reflexivity]]. }
  destruct P as [P|P].
  2:{ exfalso. inversion P as [|? ? (d' & E & [Q|Q]) _]; subst; injection E as <-; [apply Tna; exact Q|].
      apply type_bool in Q. congruence. }
  destruct (is_str ty "section") eqn:Esec.
  { assert (Hk : kind_of_dict d = KSection (level_of d)) by (unfold kind_of_dict; rewrite Gty, Eapp, Ebib, Esec; reflexivity).
    destruct (update_section_numbering st2 d3 true (f_app f)) as [[st3 d4]|] eqn:Eu; [|discriminate].
    pose proof (usn_kind _ _ _ _ _ _ Eu) as K4. rewrite K3, Hk in K4.
    destruct (manage_section (with_stacks f (section_stack f) []) d4) as [g|] eqn:Em; [|discriminate].
    destruct (nest_section f d4 g B P) as [B' P']; [rewrite K4, (kind_sec_level _ _ K4); reflexivity|exact Em|].
    apply (IH seen _ g st' out Hcr) in H; auto.
    intros K. apply Hroot. intros E0. apply K. unfold manage_section in Em. destruct (pop_stack _ _ _) as [sk|]; [|discriminate]. cbn [bind] in Em. injection Em as <-.
    cbn [with_stacks root new_cell]. destruct sk; [|reflexivity || (cbn; exact E0)]. cbn. rewrite E0. cbn. exact E0. }
  destruct (is_str ty "paragraph") eqn:Epar.
  { assert (Hk : kind_of_dict d = KParagraph (level_of d)) by (unfold kind_of_dict; rewrite Gty, Eapp, Ebib, Esec, Epar; reflexivity).
    destruct (manage_paragraph f d3) as [g|] eqn:Em; [|discriminate].
    rewrite <- K3 in Hk. 
    destruct (nest_paragraph f d3 g B P) as [B' P']; [rewrite Hk, (kind_par_level _ _ Hk); reflexivity|exact Em|].
    apply (IH seen _ g st' out Hcr) in H; auto.
    intros K. apply Hroot. intros E0. apply K. unfold manage_paragraph in Em. destruct (pop_stack _ _ _) as [sk|]; [|discriminate]. cbn [bind] in Em. injection Em as <-.
    cbn [with_stacks root new_cell]. match goal with |- root (append_to f ?t ?x) = None => destruct (append_stacks f t x) as (_ & _ & -> & _) end. exact E0. }
  assert (Hk : kind_of_dict d = KPlain) by (unfold kind_of_dict; rewrite Gty, Eapp, Ebib, Esec, Epar; reflexivity).
  destruct (nest_val f (VDict d3) B P) as [B' P'].
  - constructor; rewrite K3, Hk; [apply Forall_forall; intros k _; exact I|exact N3].
  - cbn [kind_of]. congruence.
  - apply (IH seen _ _ st' out Hcr) in H; auto. destruct (append_stacks f (get_current_target f) (IVal (VDict d3))) as (_ & _ & -> & _). exact Hroot.
Qed.

Lemma nest_organize : forall n, rec_ok (recursive_organize n).
Proof.
  induction n as [|n IH]; intros st c app dep st' out Hc H; cbn [recursive_organize] in H; [discriminate|].
  refine (nest_loop _ IH dep c false st _ st' out Hc _ _ _ H).
  - intros K. exfalso. apply K. reflexivity.
  - split; [intros i x E; destruct i; discriminate|]. unfold list_ok. cbn. split; [constructor|]. split; [|constructor]. intros a b E. destruct a; discriminate.
  - left. constructor; cbn; auto.
    + constructor. intros p it E. destruct p; discriminate.
    + discriminate.
Qed.

(** * Tidying keeps the hypothesis *)
Lemma closer_type : forall d d', (forall s, of_type s d' <-> of_type s d) -> closer (VDict d) -> closer (VDict d').
Proof. intros d d' T (x & E & H). injection E as <-. exists d'. split; [reflexivity|]. rewrite !T. exact H. Qed.
Lemma closer_nontext : forall v, closer v -> ~ text_token v.
Proof. intros v (d & -> & H) (d' & E & T). injection E as <-. unfold of_type in *. destruct H as [H|H]; rewrite T in H; discriminate. Qed.
Lemma joined_closer : forall l o, joined l o -> Forall closer l -> Forall closer o.
Proof.
  induction 1 as [|v r o N J IH|d styles c ds cs s r o Hd F G NC J IH]; intros H; [constructor|inversion H; constructor; auto|].
  inversion H as [|? ? K _]; subst. exfalso. apply (closer_nontext _ K). exists d. split; [reflexivity|apply Hd].
Qed.
Lemma tidied_closer : forall l o, tidied l o -> Forall closer l -> Forall closer o.
Proof.
  induction l as [|v l IH]; intros o T H; inversion T; subst; [constructor| | |]; inversion H; subst; constructor; auto.
  - match goal with K : closer (VList _) |- _ => destruct K as (d & E & _) end. discriminate.
  - eapply closer_type; [|eassumption]. intros s. eapply tok_type; eassumption.
Qed.
Lemma tidy_closer : forall b l o, tidy b l o -> Forall closer l -> Forall closer o.
Proof. intros b l o T H. inversion T; subst; [eapply joined_closer; [eassumption|]|]; eapply tidied_closer; eassumption. Qed.

Lemma calm_text : forall seen d r, of_type "text" d -> (exists s, lookup k_content d = Some (VStr s)) -> (calm seen (VDict d :: r) <-> calm seen r).
Proof.
  intros seen d r T (s & L). split; intros H.
  - inversion H as [|? ? ? N _|? seen' ? ? S1 S2 C1 C2 Hcc Hcr]; subst; [exfalso; apply N; exact I|].
    rewrite S2 in Hcr; [exact Hcr|]. unfold of_type in *. rewrite T. discriminate.
  - apply calm_tok with (seen' := seen); auto; unfold of_type in *; rewrite ?T; try discriminate.
    unfold children, get. rewrite L. constructor.
Qed.
Lemma joined_calm : forall l o, joined l o -> forall seen, calm seen l -> calm seen o.
Proof.
  induction 1 as [|v r o N J IH|d styles c ds cs s r o Hd F G NC J IH]; intros seen H; [constructor| |].
  - inversion H as [|? ? ? N' H'|? seen' ? ? S1 S2 C1 C2 Hcc Hcr]; subst; [constructor; auto|].
    apply calm_tok with (seen' := seen'); auto; intros; eapply joined_closer; eauto.
  - destruct Hd as (T & _ & L). apply calm_text in H; [|exact T|eexists; exact L].
    apply calm_text; [apply type_set; exact T|eexists; apply lookup_set_same|].
    apply IH. clear - F H. revert ds F seen H. induction cs as [|b cs IHc]; intros ds F seen H; inversion F as [|? d' ? ds' Hd' F']; subst; [exact H|].
    cbn [map app] in H. destruct Hd' as (T' & _ & L'). apply calm_text in H; [|exact T'|eexists; exact L']. eapply IHc; eauto.
Qed.
Lemma tidy_calm :
  (forall b l o, tidy b l o -> forall seen, calm seen l -> calm seen o) /\
  (forall l o, tidied l o -> forall seen, calm seen l -> calm seen o) /\
  (forall d d', tidy_title d d' -> True) /\
  (forall d d', tidy_content d d' -> calm false (children d) -> calm false (children d') /\ (children d' <> [] -> children d <> [])) /\
  (forall l l', tidy_rows l l' -> calm false l' /\ (l' <> [] -> l <> [])).
Proof.
  apply tidy_mutind.
  - intros l m o _ IH J seen D. eapply joined_calm; eauto.
  - intros l o _ IH. exact IH.
  - auto.
  - intros v r r' D L R IH seen H. inversion H; subst; try (exfalso; apply D; exact I). apply calm_leaf; auto.
  - intros l l' r r' _ _ R IH seen H. inversion H; subst. apply calm_leaf; auto.
  - intros d d1 d2 r r' T1 _ T2 IHc R IH seen H.
    assert (TT : forall t, of_type t d2 <-> of_type t d) by (intros t; exact (tok_type d d1 d2 t T1 T2)).
    assert (Ech : children d1 = children d) by (unfold children; rewrite (title_get d d1 k_content T1) by discriminate; reflexivity).
    rewrite Ech in IHc.
    inversion H as [|? ? ? N' H'|? seen' ? ? S1 S2 C1 C2 Hcc Hcr]; subst; [exfalso; apply N'; exact I|].
    destruct (IHc Hcc) as [I1 I2].
    apply calm_tok with (seen' := seen'); auto; rewrite ?TT; auto; intros; eapply tidied_closer; eauto.
  - auto.
  - auto.
  - intros d Hn H. auto.
  - intros d l l' Ht Hg T IH H. unfold children in *. rewrite get_set_same. rewrite Hg in *. split; [apply IH; exact H|].
    intros K E. apply K. subst l. inversion T as [? m ? T' J|]; subst. inversion T'; subst. inversion J. reflexivity.
  - intros d l l' Ht Hg _ IH H. unfold children in *. rewrite get_set_same. rewrite Hg in *. exact IH.
  - split; [constructor|auto].
  - intros l l' r r' _ _ _ [IH _]. split; [apply calm_leaf; [intros []|exact IH]|discriminate].
Qed.

Theorem organized_nested : forall st tokens st' out, parsed tokens -> calm false tokens ->
  organize_content false st tokens = (st', Ok out) -> nested false out.
Proof.
  intros st tokens st' out Hp Hc H. unfold organize_content, process_tokens in H.
  destruct (process_ok (S (lsize tokens)) tokens true (Nat.lt_succ_diag_r _) Hp) as (toks & Et & Tt). rewrite Et in H.
  eapply nest_organize; [|exact H]. exact (proj1 tidy_calm _ _ _ Tt _ Hc).
Qed.

Lemma chain_mid : forall R p a b r, chain R (p ++ a :: b :: r) -> R a b.
Proof.
  intros R. induction p as [|x p IH]; intros a b r H; cbn [app] in H.
  - inversion H; assumption.
  - apply (IH a b r). destruct p as [|y p]; cbn [app] in *; inversion H; assumption.
Qed.
Lemma after_section : forall b l p d v r z, nested b l -> l = p ++ VDict d :: v :: r -> kind_of_dict d = KSection z ->
  (exists z', kind_of v = KSection z' /\ not_deeper z' z) \/ kind_of v = KAppendix \/ kind_of v = KBibliography.
Proof.
  intros b l p d v r z N -> K. inversion N as [? ? C _ _]; subst. rewrite map_app in C. cbn [map kind_of] in C. rewrite K in C.
  apply chain_mid in C. destruct (kind_of v) as [z'| | | |]; cbn in C; try contradiction; [left; eauto|auto|auto].
Qed.
Lemma inside_section : forall b l d d' z z', nested b l -> In (VDict d) l -> kind_of_dict d = KSection z ->
  In (VDict d') (children d) -> kind_of_dict d' = KSection z' -> deeper z' z.
Proof.
  intros b l d d' z z' N Hi K Hi' K'. inversion N as [? ? _ _ F]; subst. pose proof (proj1 (Forall_forall _ _) F _ Hi) as G.
  inversion G as [? D|? F' _]; subst; [exfalso; apply D; exact I|]. rewrite K in F'.
  pose proof (proj1 (Forall_forall _ _) F' _ (in_map kind_of _ _ Hi')) as C. cbn [kind_of] in C. rewrite K' in C. exact C.
Qed.

From Verif Require Import BuilderSample.
Lemma after_appendices : exists tokens st out, parsed tokens /\
  organize_content false cleared tokens = (st, Ok out) /\ ~ nested false out.
Proof.
  exists [tok "appendix" [(k_content, VList [sec 1; txt "a"])]; txt "b"]. do 2 eexists.
  split; [solve_parsed|]. split; [vm_compute; reflexivity|]. intros N.
  assert (G : forall b v l, nested b (v :: l) -> inside v) by (intros b v l H; inversion H as [? ? _ _ F]; exact (Forall_inv F)).
  assert (G' : forall d, inside (VDict d) -> nested (is_section (kind_of_dict d)) (children d)) by (intros d H; inversion H as [? D|]; [exfalso; apply D; exact I|assumption]).
  assert (G'' : forall b l, nested b l -> chain (next_ok b) (map kind_of l)) by (intros b l H; inversion H; assumption).
  exact (chain_mid _ [] _ _ _ (G'' _ _ (G' _ (G _ _ _ N)))).
Qed.
Ltac solve_calm := vm_compute; repeat (first
  [ apply calm_nil
  | match goal with |- calm ?s (VDict ?d :: ?r) => apply calm_tok with (seen' := match lookup k_type d with Some (VStr t) => if str_eqb t (lit "appendix") then true else s | _ => s end);
      [ let K := fresh in intros K; vm_compute in K; first [reflexivity | discriminate K]
      | let K := fresh in intros K; first [reflexivity | exfalso; apply K; vm_compute; reflexivity]
      | let K := fresh in let K' := fresh in intros K K'; vm_compute in K, K'; first [discriminate K | exfalso; apply K'; reflexivity]
      | let K := fresh in let K' := fresh in intros K K'; vm_compute in K; first [discriminate K | discriminate K' | constructor]
      | vm_compute | vm_compute ] end
  | apply calm_leaf; [intros [] | ] ]).
