From Coq Require Import List NArith ZArith PeanoNat Lia Bool String.
From Verif Require Import PyStr Json BuilderModel BuilderSpec BuilderProofs BuilderProofs2 BuilderProofs3 TidySpec TidyProofs.
Import ListNotations.
Notation length := List.length.
Notation concat := List.concat.
Open Scope list_scope.

Scheme tidy_mind := Minimality for tidy Sort Prop
with tidied_mind := Minimality for tidied Sort Prop
with tidy_title_mind := Minimality for tidy_title Sort Prop
with tidy_content_mind := Minimality for tidy_content Sort Prop
with tidy_rows_mind := Minimality for tidy_rows Sort Prop.
Combined Scheme tidy_mutind from tidy_mind, tidied_mind, tidy_title_mind, tidy_content_mind, tidy_rows_mind.

(* ------------------------------------------------------------------ *)
(** * The processing pass computes [tidy] *)
Lemma title_other : forall d d1 k, tidy_title d d1 -> k <> k_title -> lookup k d1 = lookup k d.
Proof. intros d d1 k H Hk. inversion H; subst; [reflexivity|]. apply lookup_set_other. exact Hk. Qed.
Lemma content_other : forall d d1 k, tidy_content d d1 -> k <> k_content -> lookup k d1 = lookup k d.
Proof. intros d d1 k H Hk. inversion H; subst; try reflexivity; apply lookup_set_other; exact Hk. Qed.
Lemma tok_other : forall d d1 d2 k, tidy_title d d1 -> tidy_content d1 d2 -> k <> k_title -> k <> k_content -> lookup k d2 = lookup k d.
Proof. intros d d1 d2 k H1 H2 K1 K2. rewrite (content_other d1 d2), (title_other d d1); auto. Qed.
Lemma tok_type : forall d d1 d2 t, tidy_title d d1 -> tidy_content d1 d2 -> (of_type t d2 <-> of_type t d).
Proof. intros d d1 d2 t H1 H2. unfold of_type. rewrite (tok_other d d1 d2 k_type H1 H2) by discriminate. reflexivity. Qed.
Lemma title_get : forall d d1 k, tidy_title d d1 -> k <> k_title -> get k d1 = get k d.
Proof. intros d d1 k H Hk. unfold get. rewrite (title_other d d1 k H Hk). reflexivity. Qed.
(** content: a non-list is untouched, a list is replaced by a list *)
Lemma tok_content : forall d d1 d2, tidy_title d d1 -> tidy_content d1 d2 ->
  (forall l, get k_content d <> VList l) /\ d2 = d1 /\ lookup k_content d2 = lookup k_content d \/
  exists l l', lookup k_content d = Some (VList l) /\ d2 = set k_content (VList l') d1 /\ (tidy true l l' \/ tidy_rows l l').
Proof.
  intros d d1 d2 H1 H2. pose proof (title_get d d1 k_content H1) as G. pose proof (title_other d d1 k_content H1) as L.
  inversion H2 as [? Hn|? l l' Ht Hg Hl|? l l' Ht Hg Hl]; subst.
  - left. rewrite <- G by discriminate. split; [exact Hn|]. split; [reflexivity|]. apply L. discriminate.
  - right. exists l, l'. rewrite <- L by discriminate. split; [unfold get in Hg; destruct (lookup k_content d1); congruence|]. auto.
  - right. exists l, l'. rewrite <- L by discriminate. split; [unfold get in Hg; destruct (lookup k_content d1); congruence|]. auto.
Qed.

Lemma tidied_texts : forall l o, tidied l o -> texts_ok l -> texts_ok o.
Proof.
  induction l as [|v l IH]; intros o H Hok; inversion H as [|v' r r' D L R|l0 l' r r' Tl R|d d1 d2 r r' T1 T2 R]; subst.
  - intros d [].
  - intros d [E|Hin] T; [subst; exfalso; apply D; exact I|]. eapply IH; eauto. eapply texts_ok_cons; eauto.
  - intros d [E|Hin] T; [discriminate|]. eapply IH; eauto. eapply texts_ok_cons; eauto.
  - intros d' [E|Hin] T; [|eapply IH; eauto; eapply texts_ok_cons; eauto]. injection E as <-.
    apply (tok_type d d1 d2 "text" T1 T2) in T. destruct (Hok d (or_introl eq_refl) T) as (s & Hs). exists s.
    destruct (tok_content d d1 d2 T1 T2) as [(_ & _ & K)|(l1 & l2 & K & _)]; [congruence|]. rewrite Hs in K. discriminate.
Qed.

Lemma parsed_texts : forall l, parsed l -> texts_ok l.
Proof.
  induction 1 as [|v r D L H IH|l r Hl IHl H IH|d r Ht IHt Htx Htb Hc IHc H IH]; intros d' Hin T.
  - destruct Hin.
  - destruct Hin as [->|Hin]; [exfalso; apply D; exact I|]. apply IH; assumption.
  - destruct Hin as [E|Hin]; [discriminate|]. apply IH; assumption.
  - destruct Hin as [E|Hin]; [|apply IH; assumption]. injection E as ->. apply Htx. exact T.
Qed.

Lemma get_list_lookup : forall k d l, get k d = VList l -> lookup k d = Some (VList l).
Proof. intros k d l H. unfold get in H. destruct (lookup k d); congruence. Qed.

Lemma process_ok : forall n tokens sc, lsize tokens < n -> parsed tokens ->
  exists out, recursive_process false n tokens sc = Ok out /\ tidy sc tokens out.
Proof.
  induction n as [|n IHn]; intros tokens sc Hsz Hp; [lia|]. cbn [recursive_process].
  match goal with |- context [mmap ?F tokens] => set (f := F) end.
  assert (M : forall l, lsize l < S n -> parsed l -> exists mid, mmap f l = Ok mid /\ tidied l mid).
  { induction l as [|v l IHl]; intros Hs Hl; [exists []; split; [reflexivity|constructor]|].
    cbn [lsize] in Hs. pose proof (vsize_pos v) as Hv. cbn [mmap].
    inversion Hl as [|v' r D L R|l0 r Hl0 R|d r Ht Htx Htb Hc R]; subst; (destruct (IHl ltac:(lia) R) as (mid & Em & Tm)); rewrite Em.
    - exists (v :: mid). split; [|constructor; assumption].
      destruct v; try reflexivity; exfalso; [eapply L; reflexivity|apply D; exact I].
    - rewrite vsize_list in Hs. destruct (IHn l0 true ltac:(lia) Hl0) as (o & Eo & To). exists (VList o :: mid). unfold f. rewrite Eo.
      split; [reflexivity|]. constructor; assumption.
    - assert (Hd1 : exists d1, match get k_title d with VList t => bind (recursive_process false n t true) (fun t' => Ok (set k_title (VList t') d)) | _ => Ok d end = Ok d1 /\ tidy_title d d1).
      { destruct (get k_title d) as [| | | |t|] eqn:Et; try (exists d; split; [reflexivity|constructor; rewrite Et; intros; discriminate]).
        assert (Hlt : lsize t < n).
        { apply get_list_lookup in Et. apply lookup_size in Et. rewrite vsize_list in Et. rewrite vsize_dict in Hs. lia. }
        destruct (IHn t true Hlt (Ht t eq_refl)) as (o & Eo & To). rewrite Eo. exists (set k_title (VList o) d). split; [reflexivity|]. econstructor; eauto. }
      destruct Hd1 as (d1 & E1 & T1).
      assert (Etab : is_str (get k_type d1) "tabular" = is_str (get k_type d) "tabular") by (rewrite (title_get d d1 k_type T1) by discriminate; reflexivity).
      assert (Ttab : of_type "tabular" d1 <-> of_type "tabular" d) by (rewrite <- !type_bool, Etab; reflexivity).
      pose proof (title_get d d1 k_content T1 ltac:(discriminate)) as Gc.
      pose proof (title_other d d1 k_content T1 ltac:(discriminate)) as Lc.
      assert (Hd2 : exists d2, (if is_str (get k_type d1) "tabular" then
              bind (getitem k_content d1) (fun content => match content with
                | VList rows => bind (mmap (fun row => match row with
                                               | VList r => bind (recursive_process false n r false) (fun r' => Ok (VList r'))
                                               | _ => Raise TypeError end) rows) (fun rows' => Ok (VDict (set k_content (VList rows') d1)))
                | _ => Raise TypeError end)
            else match get k_content d1 with
                 | VList c => bind (recursive_process false n c true) (fun c' => Ok (VDict (set k_content (VList c') d1)))
                 | _ => Ok (VDict d1) end) = Ok (VDict d2) /\ tidy_content d1 d2).
      { destruct (is_str (get k_type d1) "tabular") eqn:Eb.
        - apply type_bool in Eb. destruct (Htb (proj1 Ttab Eb)) as (rows & Hr & Hrows).
          unfold getitem. rewrite Lc, Hr. cbn [bind].
          assert (Hch : children d = rows) by (unfold children, get; rewrite Hr; reflexivity). rewrite Hch in Hc.
          assert (Hlt : lsize rows < n).
          { apply lookup_size in Hr. rewrite vsize_list in Hr. rewrite vsize_dict in Hs. lia. }
          assert (RW : exists rows', mmap (fun row => match row with
                                               | VList r => bind (recursive_process false n r false) (fun r' => Ok (VList r'))
                                               | _ => Raise TypeError end) rows = Ok rows' /\ tidy_rows rows rows').
          { clear - IHn Hrows Hc Hlt. induction rows as [|v rows IH]; [exists []; split; [reflexivity|constructor]|].
            destruct (Hrows v (or_introl eq_refl)) as (l & ->). cbn [lsize] in Hlt. rewrite vsize_list in Hlt.
            inversion Hc as [|v' r D L R|l0 r Hl0 R|]; subst; [exfalso; eapply L; reflexivity|].
            destruct IH as (rows' & Er & Tr); [first [assumption | lia | intros; apply Hrows; right; assumption]..|].
            destruct (IHn l false ltac:(lia) Hl0) as (o & Eo & To). exists (VList o :: rows'). cbn [mmap]. rewrite Eo. cbn [bind]. rewrite Er. cbn [bind].
            split; [reflexivity|]. constructor; assumption. }
          destruct RW as (rows' & Er & Tr). rewrite Er. cbn [bind]. eexists. split; [reflexivity|]. eapply tc_tabular; [exact Eb| |exact Tr].
          unfold get. rewrite Lc, Hr. reflexivity.
        - apply type_bool_false in Eb. rewrite Gc.
          destruct (get k_content d) as [| | | |c|] eqn:Ec; try (exists d1; split; [reflexivity|constructor; rewrite Gc; intros; discriminate]).
          assert (Hlt : lsize c < n).
          { apply get_list_lookup in Ec. apply lookup_size in Ec. rewrite vsize_list in Ec. rewrite vsize_dict in Hs. lia. }
          assert (Hch : children d = c) by (unfold children; rewrite Ec; reflexivity). rewrite Hch in Hc.
          destruct (IHn c true Hlt Hc) as (o & Eo & To). rewrite Eo. cbn [bind]. eexists. split; [reflexivity|].
          eapply tc_list; [exact Eb| |exact To]. exact Gc. }
      destruct Hd2 as (d2 & E2 & T2). exists (VDict d2 :: mid). split; [|econstructor; eauto].
      assert (EF : f (VDict d) = Ok (VDict d2)).
      { unfold f. etransitivity; [|exact E2]. match goal with |- bind ?X _ = _ => replace X with (@Ok dict d1) by (symmetry; exact E1) end. reflexivity. }
      rewrite EF. reflexivity. }
  destruct (M tokens Hsz Hp) as (mid & Em & Tm). rewrite Em. cbn [bind].
  destruct sc.
  - destruct (concat_texts mid) as (o & Eo & Jo); [eapply tidied_texts; eauto using parsed_texts|].
    exists o. split; [exact Eo|]. econstructor; eauto.
  - exists mid. split; [reflexivity|]. constructor. exact Tm.
Qed.

(* ------------------------------------------------------------------ *)
(** * Documents stay documents *)
Lemma document_text_tail : forall seen d r, document seen (VDict d :: r) -> of_type "text" d -> document seen r.
Proof.
  intros seen d r H T. unfold of_type in *. inversion H; subst; try assumption;
    match goal with K : of_type _ d |- _ => unfold of_type in K; rewrite T in K; discriminate K end.
Qed.
Lemma text_document : forall seen d r s, document seen r -> of_type "text" d -> lookup k_content d = Some (VStr s) -> document seen (VDict d :: r).
Proof.
  intros seen d r s H T C. eapply doc_other; [exact T| | |exact H].
  - intros [K|[K|[K|K]]]; discriminate K.
  - unfold children, get. rewrite C. constructor.
Qed.
Lemma document_run : forall seen ds cs styles r, document seen (map VDict ds ++ r) -> Forall2 (is_text_of styles) cs ds -> document seen r.
Proof.
  intros seen ds. induction ds as [|d ds IH]; intros cs styles r H F; inversion F; subst; [exact H|]. cbn in H. eapply IH; [|eassumption].
  eapply document_text_tail; [exact H|]. match goal with K : is_text_of _ _ d |- _ => apply K end.
Qed.
Lemma joined_nil : forall o, joined [] o -> o = [].
Proof. intros o H. inversion H. reflexivity. Qed.
Lemma joined_document : forall l o, joined l o -> forall seen, document seen l -> document seen o.
Proof.
  induction 1 as [|v r o T J IH|d styles c ds cs s r o Hd F G NC J IH]; intros seen D; [exact D| |].
  - inversion D as [| | |? d r0 Ty Hl Hc Hr| | |]; subst; try (econstructor; eauto; fail).
    + eapply doc_bibliography; auto. intros E. specialize (Hl E). subst r. apply joined_nil. exact J.
  - apply text_document with (s := s); [|apply type_set; apply Hd|apply lookup_set_same]. apply IH.
    eapply document_run; [|exact F]. eapply document_text_tail; [exact D|apply Hd].
Qed.
Lemma tidied_nil : forall o, tidied [] o -> o = [].
Proof. intros o H. inversion H. reflexivity. Qed.

Lemma no_children_tidy : forall d d1 d2, tidy_title d d1 -> tidy_content d1 d2 -> no_children d -> no_children d2.
Proof.
  intros d d1 d2 T1 T2 H. destruct (tok_content d d1 d2 T1 T2) as [(_ & _ & K)|(l & l' & K & E & R)].
  - unfold no_children. rewrite K. exact H.
  - right. rewrite E, lookup_set_same. destruct H as [H|H]; rewrite H in K; [discriminate|]. injection K as <-.
    destruct R as [R|R].
    + inversion R as [? m o Tm Jm|]; subst. apply tidied_nil in Tm. subst m. apply joined_nil in Jm. subst. reflexivity.
    + inversion R; subst. reflexivity.
Qed.

Lemma tidy_document :
  (forall b l o, tidy b l o -> forall seen, document seen l -> document seen o) /\
  (forall l o, tidied l o -> forall seen, document seen l -> document seen o) /\
  (forall d d', tidy_title d d' -> True) /\
  (forall d d', tidy_content d d' -> document false (children d) -> document false (children d')) /\
  (forall l l', tidy_rows l l' -> document false l').
Proof.
  apply tidy_mutind.
  - intros l m o _ IH J seen D. eapply joined_document; eauto.
  - intros l o _ IH. exact IH.
  - auto.
  - intros v r r' D L R IH seen H. inversion H; subst; try (exfalso; apply D; exact I). apply doc_leaf; auto.
  - intros l l' r r' _ _ R IH seen H. inversion H; subst. apply doc_leaf; auto.
  - intros d d1 d2 r r' T1 _ T2 IHc R IH seen H.
    pose proof (tok_type d d1 d2) as TT. pose proof (tok_other d d1 d2) as TO. pose proof (no_children_tidy d d1 d2 T1 T2) as NC.
    assert (Ech : children d1 = children d) by (unfold children; rewrite (title_get d d1 k_content T1) by discriminate; reflexivity).
    rewrite Ech in IHc.
    inversion H as [|? ? ? D ?|? d0 ? Ty Hc Hd1 Hd2|? d0 ? Ty Hl Hd1 Hd2|? d0 ? z Ty Hlv Hnc Hz Hd2|? d0 ? z Ty Hlv Hnc Hd2|? d0 ? s Ty Hns Hd1 Hd2]; subst.
    + exfalso. apply D. exact I.
    + apply doc_appendix; auto; [apply TT; assumption|].
      destruct (tok_content d d1 d2 T1 T2) as [(_ & _ & K)|(l1 & l2 & K & E & _)].
      * rewrite K. exact Hc.
      * right. exists l2. rewrite E. apply lookup_set_same.
    + apply doc_bibliography; auto; [apply TT; assumption|]. intros E. specialize (Hl E). subst r. apply tidied_nil. exact R.
    + eapply doc_section with (z := z); auto; [apply TT; assumption|rewrite TO by (assumption || discriminate); exact Hlv|].
      unfold get_default in *. rewrite TO by (assumption || discriminate). exact Hz.
    + eapply doc_paragraph with (z := z); auto; [apply TT; assumption|rewrite TO by (assumption || discriminate); exact Hlv].
    + eapply doc_other; eauto. rewrite TO by (assumption || discriminate). exact Ty.
  - auto.
  - auto.
  - intros d Hn H. exact H.
  - intros d l l' Ht Hg _ IH H. unfold children. rewrite get_set_same. apply IH. unfold children in H. rewrite Hg in H. exact H.
  - intros d l l' Ht Hg _ IH H. unfold children. rewrite get_set_same. exact IH.
  - constructor.
  - intros l l' r r' _ _ _ IH. apply doc_leaf; [intros []|exact IH].
Qed.

(* ------------------------------------------------------------------ *)
(** * Events *)
Definition simev (e e' : event) : Prop := e_app e = e_app e' /\ e_depth e = e_depth e' /\ similar (e_head e) (e_head e').

Lemma has_type_dict : forall s app dep d, has_type s {| e_app := app; e_depth := dep; e_head := VDict (head d) |} = is_str (get k_type d) s.
Proof. intros. unfold has_type. cbn [e_head]. rewrite get_head by discriminate. reflexivity. Qed.

Lemma walk_other_inv : forall app dep d r es, walk app dep (VDict d :: r) es ->
  exists app' dep' app2 e1 e2, es = {| e_app := app; e_depth := dep; e_head := VDict (head d) |} :: e1 ++ e2 /\ walk app' dep' (children d) e1 /\ walk app2 dep r e2 /\
    (of_type "appendix" d -> app' = true /\ app2 = true /\ dep' = dep) /\
    (~ of_type "appendix" d -> app' = app /\ app2 = app) /\
    (of_type "list" d -> dep' = dep + 1) /\ (~ of_type "list" d -> dep' = dep).
Proof.
  intros app dep d r es H. inversion H as [|? ? ? ? ? D ?|? ? ? ? e1 e2 Ht H1 H2|? ? ? ? e1 e2 Ht H1 H2|? ? ? ? e1 e2 Ha Hl H1 H2]; subst.
  - exfalso. apply D. exact I.
  - do 5 eexists. split; [reflexivity|]. split; [exact H1|]. split; [exact H2|].
    assert (NL : ~ of_type "list" d) by (unfold of_type in *; rewrite Ht; discriminate). tauto.
  - do 5 eexists. split; [reflexivity|]. split; [exact H1|]. split; [exact H2|].
    assert (NL : ~ of_type "appendix" d) by (unfold of_type in *; rewrite Ht; discriminate). tauto.
  - do 5 eexists. split; [reflexivity|]. split; [exact H1|]. split; [exact H2|]. tauto.
Qed.

Lemma walk_text : forall app dep d s r es, walk app dep (VDict d :: r) es -> of_type "text" d -> lookup k_content d = Some (VStr s) ->
  exists es2, es = {| e_app := app; e_depth := dep; e_head := VDict (head d) |} :: es2 /\ walk app dep r es2.
Proof.
  intros app dep d s r es H T C. destruct (walk_other_inv _ _ _ _ _ H) as (a1 & dd & a2 & e1 & e2 & -> & H1 & H2 & _ & Ha & _ & _).
  assert (NA : ~ of_type "appendix" d) by (unfold of_type in *; rewrite T; discriminate). destruct (Ha NA) as [_ ->].
  assert (E : children d = []) by (unfold children, get; rewrite C; reflexivity). rewrite E in H1. inversion H1; subst. cbn. eauto.
Qed.

Lemma nontext_text : forall app dep d, of_type "text" d -> nontext_event {| e_app := app; e_depth := dep; e_head := VDict (head d) |} = false.
Proof. intros. unfold nontext_event. rewrite has_type_dict. rewrite (proj2 (type_bool "text" d)) by assumption. reflexivity. Qed.

Lemma joined_walk : forall l o, joined l o -> forall app dep es es', walk app dep l es -> walk app dep o es' ->
  filter nontext_event es = filter nontext_event es'.
Proof.
  induction 1 as [|v r o T J IH|d styles c ds cs s r o Hd F G NC J IH]; intros app dep es es' W W'.
  - inversion W; inversion W'; subst. reflexivity.
  - destruct v as [| | | | |d].
    1-5: inversion W; inversion W'; subst; cbn [filter]; (destruct (nontext_event _); [f_equal|]); eauto.
    destruct (walk_other_inv _ _ _ _ _ W) as (a1 & dd & a2 & e1 & e2 & -> & H1 & H2 & P1 & P2 & P3 & P4).
    destruct (walk_other_inv _ _ _ _ _ W') as (a1' & dd' & a2' & e1' & e2' & -> & H1' & H2' & P1' & P2' & P3' & P4').
    assert (EE : a1 = a1' /\ a2 = a2' /\ dd = dd').
    { destruct (of_type_dec "appendix" d) as [A|A].
      - destruct (P1 A) as (-> & -> & ->), (P1' A) as (-> & -> & ->). auto.
      - destruct (P2 A) as (-> & ->), (P2' A) as (-> & ->). destruct (of_type_dec "list" d) as [B|B].
        + rewrite (P3 B), (P3' B). auto.
        + rewrite (P4 B), (P4' B). auto. }
    destruct EE as (<- & <- & <-). rewrite (walk_fun _ _ _ _ H1' _ H1). cbn [filter]. rewrite !filter_app. rewrite (IH _ _ _ _ H2 H2'). reflexivity.
  - destruct Hd as (T & S & C). destruct (walk_text _ _ _ _ _ _ W T C) as (es2 & -> & W2).
    destruct (walk_text _ _ _ s _ _ W' (proj2 (type_set _ _ _) T) (lookup_set_same _ _ _)) as (es2' & -> & W2').
    cbn [filter]. rewrite (nontext_text _ _ d T), (nontext_text _ _ (set k_content (VStr s) d) (proj2 (type_set _ _ _) T)).
    assert (SK : exists es3, walk app dep r es3 /\ filter nontext_event es2 = filter nontext_event es3).
    { clear - F W2. revert ds F es2 W2. induction cs as [|b cs IHc]; intros ds F es2 W2; inversion F as [|? d' ? ds' Hd' F']; subst; [eauto|].
      cbn [map List.app] in W2. destruct Hd' as (T' & S' & C'). destruct (walk_text _ _ _ _ _ _ W2 T' C') as (es4 & -> & W4).
      destruct (IHc _ F' _ W4) as (es3 & W3 & E3). exists es3. split; [exact W3|]. cbn [filter]. rewrite (nontext_text _ _ d' T'). exact E3. }
    destruct SK as (es3 & W3 & E3). rewrite E3. exact (IH _ _ _ _ W3 W2').
Qed.

Lemma similar_refl : forall v, similar v v.
Proof. intros v. left. reflexivity. Qed.

(** heads of corresponding tokens *)
Lemma head_similar : forall d d1 d2, tidy_title d d1 -> tidy_content d1 d2 -> similar (VDict (head d)) (VDict (head d2)).
Proof.
  intros d d1 d2 T1 T2.
  assert (E2 : head d2 = head d1).
  { inversion T2 as [|? l l' Ht Hg Hl|? l l' Ht Hg Hl]; subst; [reflexivity| |]; unfold head; rewrite get_set_same, Hg; apply remove_set_same. }
  rewrite E2. inversion T1 as [|? l l' Hg Hl]; subst; [apply similar_refl|].
  right. right. exists (head d), l, l'. split; [reflexivity|]. split; [rewrite get_head by discriminate; exact Hg|]. split; [exact Hl|].
  f_equal. unfold head. rewrite get_set_other by discriminate. destruct (get k_content d); try reflexivity. apply remove_set_other. discriminate.
Qed.

Lemma walk_exists' : forall app dep l, exists es, walk app dep l es.
Proof. intros. eapply walk_exists. apply Nat.lt_succ_diag_r. Qed.

Lemma similar_type : forall app dep v v' s, similar v v' ->
  has_type s {| e_app := app; e_depth := dep; e_head := v |} = has_type s {| e_app := app; e_depth := dep; e_head := v' |}.
Proof.
  intros app dep v v' s [->|[(l & l' & b & -> & -> & _)|(d & l & l' & -> & Hg & Hl & ->)]]; try reflexivity.
  unfold has_type. cbn [e_head]. rewrite get_set_other by discriminate. reflexivity.
Qed.

Lemma nontext_cons : forall e e' r r', simev e e' -> Forall2 simev (filter nontext_event r) (filter nontext_event r') ->
  Forall2 simev (filter nontext_event (e :: r)) (filter nontext_event (e' :: r')).
Proof.
  intros [a b v] [a' b' v'] r r' (H1 & H2 & H3) F. cbn in H1, H2, H3. subst a' b'. cbn [filter].
  assert (E : nontext_event {| e_app := a; e_depth := b; e_head := v |} = nontext_event {| e_app := a; e_depth := b; e_head := v' |}).
  { unfold nontext_event. rewrite (similar_type a b v v' "text" H3). reflexivity. }
  rewrite E. clear E. destruct (nontext_event {| e_app := a; e_depth := b; e_head := v' |}); [|exact F]. constructor; [|exact F]. repeat split. exact H3.
Qed.

Lemma tidy_walk :
  (forall b l o, tidy b l o -> forall app dep es es', walk app dep l es -> walk app dep o es' ->
     Forall2 simev (filter nontext_event es) (filter nontext_event es')) /\
  (forall l o, tidied l o -> forall app dep es es', walk app dep l es -> walk app dep o es' ->
     Forall2 simev (filter nontext_event es) (filter nontext_event es')) /\
  (forall d d', tidy_title d d' -> True) /\
  (forall d d', tidy_content d d' -> forall app dep es es', walk app dep (children d) es -> walk app dep (children d') es' ->
     Forall2 simev (filter nontext_event es) (filter nontext_event es')) /\
  (forall l l', tidy_rows l l' -> forall app dep es es', walk app dep l es -> walk app dep l' es' ->
     Forall2 simev (filter nontext_event es) (filter nontext_event es')).
Proof.
  assert (RF : forall l, Forall2 simev l l) by (induction l; constructor; auto; repeat split; apply similar_refl).
  apply tidy_mutind.
  - intros l m o _ IH J app dep es es' W W'. destruct (walk_exists' app dep m) as (em & Wm).
    rewrite <- (joined_walk m o J app dep em es' Wm W'). eauto.
  - intros l o _ IH. exact IH.
  - intros app dep es es' W W'. inversion W; inversion W'; subst. constructor.
  - intros v r r' D L R IH app dep es es' W W'. inversion W; subst; try (exfalso; apply D; exact I). inversion W'; subst; try (exfalso; apply D; exact I).
    apply nontext_cons; [repeat split; apply similar_refl|]. eauto.
  - intros l l' r r' Hl _ R IH app dep es es' W W'. inversion W; inversion W'; subst.
    apply nontext_cons; [|eauto]. repeat split. cbn [e_head]. right. left. exists l, l', true. auto.
  - intros d d1 d2 r r' T1 _ T2 IHc R IH app dep es es' W W'.
    destruct (walk_other_inv _ _ _ _ _ W) as (a1 & dd & a2 & e1 & e2 & -> & H1 & H2 & P1 & P2 & P3 & P4).
    destruct (walk_other_inv _ _ _ _ _ W') as (a1' & dd' & a2' & e1' & e2' & -> & H1' & H2' & P1' & P2' & P3' & P4').
    rewrite (tok_type d d1 d2 "appendix" T1 T2) in P1', P2'. rewrite (tok_type d d1 d2 "list" T1 T2) in P3', P4'.
    assert (EE : a1 = a1' /\ a2 = a2' /\ dd = dd').
    { destruct (of_type_dec "appendix" d) as [A|A].
      - destruct (P1 A) as (-> & -> & ->), (P1' A) as (-> & -> & ->). auto.
      - destruct (P2 A) as (-> & ->), (P2' A) as (-> & ->). destruct (of_type_dec "list" d) as [B|B].
        + rewrite (P3 B), (P3' B). auto.
        + rewrite (P4 B), (P4' B). auto. }
    destruct EE as (<- & <- & <-).
    assert (Ech : children d1 = children d) by (unfold children; rewrite (title_get d d1 k_content T1) by discriminate; reflexivity).
    rewrite Ech in IHc. apply nontext_cons; [repeat split; cbn [e_head]; eapply head_similar; eauto|].
    rewrite !filter_app. apply Forall2_app; eauto.
  - auto.
  - auto.
  - intros d Hn app dep es es' W W'. rewrite (walk_fun _ _ _ _ W _ W'). apply RF.
  - intros d l l' Ht Hg _ IH app dep es es' W W'. unfold children in W, W'. rewrite Hg in W. rewrite get_set_same in W'. eauto.
  - intros d l l' Ht Hg _ IH app dep es es' W W'. unfold children in W, W'. rewrite Hg in W. rewrite get_set_same in W'. eauto.
  - intros app dep es es' W W'. inversion W; inversion W'; subst. constructor.
  - intros l l' r r' Hl _ R IH app dep es es' W W'. inversion W; inversion W'; subst.
    apply nontext_cons; [|eauto]. repeat split. cbn [e_head]. right. left. exists l, l', false. auto.
Qed.

(* ------------------------------------------------------------------ *)
(** * Numbers do not depend on texts *)
Lemma count_filter : forall p l, (forall e, p e = true -> nontext_event e = true) -> count p (filter nontext_event l) = count p l.
Proof.
  intros p l H. unfold count. induction l as [|e l IH]; [reflexivity|]. cbn [filter].
  destruct (nontext_event e) eqn:E; cbn [filter]; destruct (p e) eqn:P; cbn [length]; try (rewrite IH; reflexivity).
  rewrite (H e P) in E. discriminate.
Qed.
Lemma existsb_filter : forall p l, (forall e, p e = true -> nontext_event e = true) -> existsb p (filter nontext_event l) = existsb p l.
Proof.
  intros p l H. induction l as [|e l IH]; [reflexivity|]. cbn [filter existsb].
  destruct (nontext_event e) eqn:E; cbn [existsb]; rewrite IH; [reflexivity|].
  destruct (p e) eqn:P; [rewrite (H e P) in E; discriminate|reflexivity].
Qed.
Lemma since_filter : forall p l, (forall e, p e = true -> nontext_event e = true) -> since p (filter nontext_event l) = filter nontext_event (since p l).
Proof.
  intros p l H. induction l as [|e l IH]; [reflexivity|]. cbn [filter since].
  destruct (nontext_event e) eqn:E; cbn [since].
  - rewrite existsb_filter by exact H. destruct (existsb p l); [exact IH|]. destruct (p e); [reflexivity|]. cbn [filter]. rewrite E. reflexivity.
  - rewrite IH. destruct (existsb p l) eqn:X; [reflexivity|]. destruct (p e) eqn:P; [rewrite (H e P) in E; discriminate|]. cbn [filter]. rewrite E.
    assert (S : since p l = l).
    { clear IH. destruct l as [|x l]; [reflexivity|]. cbn [since existsb] in *. apply orb_false_iff in X as [-> ->]. reflexivity. }
    rewrite S. reflexivity.
Qed.

Lemma typed_nontext : forall s e, has_type s e = true -> s <> "text"%string -> nontext_event e = true.
Proof.
  intros s [a b v] H Hs. unfold nontext_event, has_type in *. cbn [e_head] in *. destruct v as [| | | | |d]; try discriminate.
  destruct (is_str (get k_type d) "text") eqn:E; [|reflexivity]. apply is_str_true in E, H. rewrite E in H. injection H as H.
  exfalso. apply Hs. clear - H. change (lit "text" = lit s) in H.
  assert (INJ : forall a b, lit a = lit b -> a = b).
  { induction a as [|x a IH]; intros [|y b] K; try discriminate; [reflexivity|]. cbn in K. injection K as K1 K2. f_equal; [|apply IH; exact K2].
    apply (f_equal Ascii.ascii_of_N) in K1. rewrite !Ascii.ascii_N_embedding in K1. exact K1. }
  symmetry. apply INJ. exact H.
Qed.
Lemma numbered_nontext : forall s e, s <> "text"%string -> numbered_as s e = true -> nontext_event e = true.
Proof. intros s e Hs H. unfold numbered_as in H. apply andb_prop in H as [H _]. eapply typed_nontext; eauto. Qed.
Lemma section_type : forall e z, numbered_section e = Some z -> has_type "section" e = true.
Proof.
  intros [a b v] z H. unfold numbered_section, has_type in *. cbn [e_head] in *. destruct v as [| | | | |d]; try discriminate.
  destruct (is_str (get k_type d) "section"); [reflexivity|discriminate].
Qed.
Lemma at_level_nontext : forall z e, at_level z e = true -> nontext_event e = true.
Proof.
  intros z e H. unfold at_level in H. destruct (numbered_section e) eqn:E; [|discriminate]. apply section_type in E. eapply typed_nontext; [exact E|discriminate].
Qed.
Lemma restarts_nontext : forall z e, restarts z e = true -> nontext_event e = true.
Proof.
  intros z e H. unfold restarts in H. apply orb_prop in H as [H|H]; [eapply typed_nontext; [exact H|discriminate]|].
  destruct (numbered_section e) eqn:E; [|discriminate]. apply section_type in E. eapply typed_nontext; [exact E|discriminate].
Qed.
Lemma level_one_nontext : forall e, level_one_section e = true -> nontext_event e = true.
Proof.
  intros e H. apply (typed_nontext "section"); [|discriminate]. unfold level_one_section, has_type in *. destruct (e_head e); try discriminate.
  apply andb_prop in H. apply H.
Qed.
Lemma section_count_filter : forall z l, section_count z (filter nontext_event l) = section_count z l.
Proof.
  intros z l. unfold section_count. rewrite since_filter by apply restarts_nontext. apply count_filter. apply at_level_nontext.
Qed.
Lemma number_of_filter : forall before e, number_of (filter nontext_event before) e = number_of before e \/ nontext_event e = false.
Proof.
  intros before e. destruct (nontext_event e) eqn:E; [left|right; reflexivity]. unfold number_of.
  assert (ST : forall s, In s simple_types -> s <> "text"%string) by (intros s H ->; cbn in H; repeat (destruct H as [H|H]; [discriminate|]); exact H).
  destruct (find (fun s => numbered_as s e) simple_types) as [s|] eqn:F.
  - apply find_some in F as [Hin _]. rewrite count_filter; [reflexivity|]. intros x. apply numbered_nontext. apply ST. exact Hin.
  - rewrite section_count_filter, since_filter by apply level_one_nontext. rewrite count_filter by (intros x; apply numbered_nontext; discriminate).
    destruct (numbered_as "math_env" e); [reflexivity|]. destruct (numbered_section e) as [z|]; [|reflexivity]. f_equal.
    assert (EA : filter nontext_event before ++ [e] = filter nontext_event (before ++ [e])) by (rewrite filter_app; cbn [filter]; rewrite E; reflexivity).
    rewrite EA. unfold section_number. rewrite section_count_filter. do 2 f_equal. apply map_ext. intros i. rewrite section_count_filter. reflexivity.
Qed.

Lemma decorate_nontext : forall before e, nontext (decorate before e) = nontext_event e.
Proof.
  intros before [a b v]. unfold nontext, nontext_event, is_text, has_type, decorate. cbn [e_head]. destruct v as [| | | | |d]; try reflexivity.
  f_equal. f_equal. cbv zeta.
  destruct (has_type "list" {| e_app := a; e_depth := b; e_head := VDict d |}); rewrite ?(get_set_other k_type k_depth) by discriminate;
    destruct (number_of before {| e_app := a; e_depth := b; e_head := VDict d |}); rewrite ?get_set_other by discriminate; reflexivity.
Qed.
Lemma annotate_filter : forall es before, filter nontext (annotate before es) = annotate (filter nontext_event before) (filter nontext_event es).
Proof.
  induction es as [|e es IH]; intros before; [reflexivity|]. cbn [annotate filter]. rewrite decorate_nontext.
  destruct (nontext_event e) eqn:E; cbn [annotate].
  - f_equal.
    + unfold decorate. destruct (number_of_filter before e) as [->|K]; [reflexivity|rewrite E in K; discriminate].
    + rewrite IH, filter_app. cbn [filter]. rewrite E. reflexivity.
  - rewrite IH, filter_app. cbn [filter]. rewrite E, app_nil_r. reflexivity.
Qed.

(* ------------------------------------------------------------------ *)
(** * ... nor on titles *)
Lemma similar_get : forall k v v', similar v v' -> k <> k_title ->
  (exists d d', v = VDict d /\ v' = VDict d' /\ lookup k d = lookup k d') \/ (~ is_dict v /\ ~ is_dict v').
Proof.
  intros k v v' [->|[(l & l' & b & -> & -> & _)|(d & l & l' & -> & Hg & Hl & ->)]] Hk.
  - destruct v' as [| | | | |d]; try (right; split; intros X; exact X). left. exists d, d. auto.
  - right. split; intros X; exact X.
  - left. do 2 eexists. split; [reflexivity|]. split; [reflexivity|]. rewrite lookup_set_other by exact Hk. reflexivity.
Qed.
Ltac sim_get H k := destruct (similar_get k _ _ H ltac:(discriminate)) as [(?d & ?d' & ?E & ?E' & ?L)|(?N & ?N')].

Section Sim.
Variables (e e' : event).
Hypothesis H : simev e e'.
Let sim_fields : (exists d d', e_head e = VDict d /\ e_head e' = VDict d' /\ get k_type d = get k_type d' /\ get k_numbered d = get k_numbered d' /\
   (forall x, get_default k_numbered x d = get_default k_numbered x d') /\ get k_level d = get k_level d' /\ (forall x, get_default k_level x d = get_default k_level x d')) \/
  (~ is_dict (e_head e) /\ ~ is_dict (e_head e')).
Proof.
  destruct H as (_ & _ & S). destruct S as [E|[(l & l' & b & E & E' & _)|(d & l & l' & E & Hg & Hl & E')]].
  - rewrite <- E. destruct (e_head e) as [| | | | |d]; try (right; split; intros X; exact X). left. exists d, d. repeat split; auto.
  - right. rewrite E, E'. split; intros X; exact X.
  - left. rewrite E, E'. do 2 eexists. split; [reflexivity|]. split; [reflexivity|].
    unfold get_default. rewrite !get_set_other by discriminate. rewrite !lookup_set_other by discriminate. repeat split; auto.
Qed.
Lemma sim_has_type : forall s, has_type s e = has_type s e'.
Proof.
  intros s. unfold has_type. destruct sim_fields as [(d & d' & -> & -> & -> & _)|(N1 & N2)]; [reflexivity|].
  destruct (e_head e); destruct (e_head e'); try reflexivity; exfalso; try (apply N1; exact I); apply N2; exact I.
Qed.
Lemma sim_numbered_as : forall s, numbered_as s e = numbered_as s e'.
Proof.
  intros s. unfold numbered_as. rewrite sim_has_type. destruct sim_fields as [(d & d' & -> & -> & _ & -> & _)|(N1 & N2)]; [reflexivity|].
  destruct (e_head e); destruct (e_head e'); try reflexivity; exfalso; try (apply N1; exact I); apply N2; exact I.
Qed.
Lemma sim_section : numbered_section e = numbered_section e'.
Proof.
  unfold numbered_section. destruct sim_fields as [(d & d' & -> & -> & -> & _ & Hn & _ & Hl)|(N1 & N2)]; [rewrite Hn, Hl; reflexivity|].
  destruct (e_head e); destruct (e_head e'); try reflexivity; exfalso; try (apply N1; exact I); apply N2; exact I.
Qed.
Lemma sim_level_one : level_one_section e = level_one_section e'.
Proof.
  unfold level_one_section. destruct sim_fields as [(d & d' & -> & -> & -> & _ & _ & -> & _)|(N1 & N2)]; [reflexivity|].
  destruct (e_head e); destruct (e_head e'); try reflexivity; exfalso; try (apply N1; exact I); apply N2; exact I.
Qed.
Lemma sim_at : forall z, at_level z e = at_level z e'.
Proof. intros z. unfold at_level. rewrite sim_section. reflexivity. Qed.
Lemma sim_restarts : forall z, restarts z e = restarts z e'.
Proof. intros z. unfold restarts. rewrite sim_section, sim_has_type. reflexivity. Qed.
End Sim.

Lemma sim_count : forall p, (forall e e', simev e e' -> p e = p e') -> forall l l', Forall2 simev l l' -> count p l = count p l'.
Proof.
  intros p Hp l l' F. unfold count. induction F as [|e e' l l' S F IH]; [reflexivity|]. cbn [filter]. rewrite (Hp _ _ S). destruct (p e'); cbn [length]; congruence.
Qed.
Lemma sim_since : forall p, (forall e e', simev e e' -> p e = p e') -> forall l l', Forall2 simev l l' -> Forall2 simev (since p l) (since p l').
Proof.
  intros p Hp l l' F. induction F as [|e e' l l' S F IH]; [constructor|]. cbn [since]. rewrite (Hp _ _ S).
  assert (X : existsb p l = existsb p l') by (clear - Hp F; induction F as [|e e' l l' S F IH]; [reflexivity|]; cbn; rewrite (Hp _ _ S), IH; reflexivity).
  rewrite X. destruct (existsb p l'); [exact IH|]. destruct (p e'); [exact F|constructor; assumption].
Qed.
Lemma sim_section_count : forall z l l', Forall2 simev l l' -> section_count z l = section_count z l'.
Proof. intros z l l' F. unfold section_count. apply sim_count; [intros; apply sim_at; assumption|]. apply sim_since; [intros; apply sim_restarts; assumption|exact F]. Qed.
Lemma sim_number_of : forall l l' e e', Forall2 simev l l' -> simev e e' -> number_of l e = number_of l' e'.
Proof.
  intros l l' e e' F S. unfold number_of.
  assert (X : find (fun s => numbered_as s e) simple_types = find (fun s => numbered_as s e') simple_types).
  { unfold simple_types. cbn [find]. rewrite !(sim_numbered_as e e' S). reflexivity. }
  rewrite X. clear X. destruct (find (fun s => numbered_as s e') simple_types) as [s|].
  - do 3 f_equal. apply sim_count; [intros; apply sim_numbered_as; assumption|exact F].
  - rewrite (sim_numbered_as e e' S), (sim_section e e' S), (sim_section_count 1 l l' F).
    assert (CM : count (numbered_as "math_env") (since level_one_section l) = count (numbered_as "math_env") (since level_one_section l')).
    { apply sim_count; [intros; apply sim_numbered_as; assumption|]. apply sim_since; [intros; apply sim_level_one; assumption|exact F]. }
    rewrite CM.
    destruct (numbered_as "math_env" e'); [reflexivity|]. destruct (numbered_section e') as [z|]; [|reflexivity]. f_equal.
    assert (F' : Forall2 simev (l ++ [e]) (l' ++ [e'])) by (apply Forall2_app; [exact F|constructor; [exact S|constructor]]).
    unfold section_number. rewrite (sim_section_count 1 _ _ F'). destruct S as (-> & _). do 2 f_equal. apply map_ext. intros i.
    rewrite (sim_section_count _ _ _ F'). reflexivity.
Qed.
Lemma sim_decorate : forall l l' e e', Forall2 simev l l' -> simev e e' -> similar (decorate l e) (decorate l' e').
Proof.
  intros l l' e e' F S. unfold decorate. rewrite <- (sim_number_of l l' e e' F S), <- (sim_has_type e e' S "list").
  pose proof S as (_ & Hdep & Sh). rewrite <- Hdep. generalize (number_of l e) as num. generalize (has_type "list" e) as isl. intros isl num.
  destruct Sh as [E|[(x & x' & b & E & E' & T)|(d & x & x' & E & Hg & Ht & E')]].
  - rewrite <- E. apply similar_refl.
  - rewrite E, E'. right. left. exists x, x', b. auto.
  - rewrite E, E'. cbv zeta. right. right.
    set (d1 := match num with Some s => set k_numbering (VStr s) d | None => d end).
    assert (L1 : lookup k_title d1 = Some (VList x)).
    { unfold d1. destruct num; [rewrite lookup_set_other by discriminate|]; apply get_list_lookup; exact Hg. }
    assert (E1 : match num with Some s => set k_numbering (VStr s) (set k_title (VList x') d) | None => set k_title (VList x') d end = set k_title (VList x') d1).
    { unfold d1. destruct num; [|reflexivity]. eapply set_comm; [discriminate|]. apply get_list_lookup. exact Hg. }
    rewrite E1. destruct isl.
    + do 3 eexists. split; [reflexivity|]. split; [rewrite get_set_other by discriminate; unfold get; rewrite L1; reflexivity|]. split; [exact Ht|].
      f_equal. eapply set_comm; [discriminate|exact L1].
    + do 3 eexists. split; [reflexivity|]. split; [unfold get; rewrite L1; reflexivity|]. split; [exact Ht|reflexivity].
Qed.
Lemma sim_annotate : forall es es', Forall2 simev es es' -> forall l l', Forall2 simev l l' -> Forall2 similar (annotate l es) (annotate l' es').
Proof.
  intros es es' F. induction F as [|e e' es es' S F IH]; intros l l' G; cbn [annotate]; [constructor|]. constructor.
  - apply sim_decorate; assumption.
  - apply IH. apply Forall2_app; [exact G|constructor; [exact S|constructor]].
Qed.
