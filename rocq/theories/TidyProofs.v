From Coq Require Import List NArith ZArith PeanoNat Lia Bool String.
From Verif Require Import PyStr Json BuilderModel BuilderSpec BuilderProofs BuilderProofs2 TidySpec.
Import ListNotations.
Notation length := List.length.
Notation concat := List.concat.
Open Scope list_scope.

Lemma type_bool : forall s d, is_str (get k_type d) s = true <-> of_type s d.
Proof.
  intros s d. rewrite is_str_true. unfold get, of_type. destruct (lookup k_type d) as [v|].
  - split; intros H; [rewrite H; reflexivity|injection H; auto].
  - split; discriminate.
Qed.
Lemma type_bool_false : forall s d, is_str (get k_type d) s = false <-> ~ of_type s d.
Proof. intros s d. rewrite <- type_bool. destruct (is_str (get k_type d) s); split; congruence. Qed.

(* ------------------------------------------------------------------ *)
(** * The junction *)
Lemma starts1 : forall x s, startswith s [x] = true <-> exists r, s = x :: r.
Proof. intros x s. rewrite startswith_spec. reflexivity. Qed.
Lemma ends1 : forall x s, endswith s [x] = true <-> exists r, s = r ++ [x].
Proof.
  intros x s. unfold endswith. change (rev [x]) with [x]. rewrite starts1. split; intros (r & H).
  - exists (rev r). rewrite <- (rev_involutive s), H. reflexivity.
  - exists (rev r). rewrite H, rev_app_distr. reflexivity.
Qed.
Lemma closing_spec : forall b, (startswith b (lit " ") || existsb (startswith b) CLOSING_PUNCTUATION) = true <-> closed_left b.
Proof.
  intros b. assert (E : startswith b (lit " ") || existsb (startswith b) CLOSING_PUNCTUATION = existsb (fun c => startswith b [c]) (lit " .,!?:;)]}")).
  { cbv [CLOSING_PUNCTUATION map]. cbn [existsb lit]. reflexivity. }
  rewrite E, existsb_exists. split.
  - intros (c & Hin & H). apply starts1 in H as (r & ->). exists c, r. auto.
  - intros (c & r & -> & Hin). exists c. split; [exact Hin|]. apply starts1. eauto.
Qed.
Lemma opening_spec : forall a, (endswith a (lit " ") || existsb (endswith a) OPENING_PUNCTUATION) = true <-> closed_right a.
Proof.
  intros a. assert (E : endswith a (lit " ") || existsb (endswith a) OPENING_PUNCTUATION = existsb (fun c => endswith a [c]) (lit " ([{'" ++ [34%N])).
  { cbv [OPENING_PUNCTUATION map]. cbn [existsb lit app]. reflexivity. }
  rewrite E, existsb_exists. split.
  - intros (c & Hin & H). apply ends1 in H as (r & ->). exists r, c. split; [reflexivity|].
    apply in_app_iff in Hin as [Hin|[<-|[]]]; [right; exact Hin|left; reflexivity].
  - intros (r & c & -> & Hin). exists c. split; [|apply ends1; eauto].
    apply in_app_iff. destruct Hin as [<-|Hin]; [right; left; reflexivity|left; exact Hin].
Qed.

Lemma space_ok : forall d c a b, of_type "text" d -> of_type "text" c -> lookup k_content d = Some (VStr b) -> lookup k_content c = Some (VStr a) ->
  exists x, should_add_space (VDict d) (VDict c) = Ok x /\ glued a b (a ++ (if x then lit " " ++ b else b)).
Proof.
  intros d c a b Hd Hc Eb Ea. unfold should_add_space.
  rewrite (proj2 (type_bool "text" d) Hd). cbn [negb].
  assert (EI : is_inline_token (VDict c) = true).
  { unfold is_inline_token. destruct (is_str (get k_type c) "equation"); [reflexivity|]. unfold INLINE_TOKEN_TYPES. cbn [existsb].
    rewrite (proj2 (type_bool "text" c) Hc). reflexivity. }
  rewrite EI. unfold get_default. rewrite Eb. cbn [str_of bind]. rewrite (proj2 (type_bool "text" c) Hc), andb_true_r.
  pose proof (closing_spec b) as CB. pose proof (opening_spec a) as OA.
  destruct (startswith b (lit " ")); [|destruct (existsb (startswith b) CLOSING_PUNCTUATION)]; cbn [negb andb orb] in *;
    try (exists false; split; [reflexivity|]; apply gl_plain; left; apply CB; reflexivity).
  rewrite Ea. cbn [str_of bind].
  destruct (endswith a (lit " ")); [|destruct (existsb (endswith a) OPENING_PUNCTUATION)]; cbn [negb andb orb] in *;
    try (exists false; split; [reflexivity|]; apply gl_plain; right; apply OA; reflexivity).
  exists true. split; [reflexivity|]. apply gl_space.
  - intros K. apply CB in K. discriminate.
  - intros K. apply OA in K. discriminate.
Qed.

Lemma glued_fun : forall a b s, glued a b s -> forall s', glued a b s' -> s = s'.
Proof. intros a b s H s' H'. inversion H; inversion H'; subst; try reflexivity; exfalso; tauto. Qed.

(* ------------------------------------------------------------------ *)
(** * The loop *)
Lemma set_present : forall k v d, lookup k d = Some v -> set k v d = d.
Proof.
  intros k v d. induction d as [|[k' w] d IH]; [discriminate|]. cbn [lookup set]. destruct (str_eqb k k') eqn:E.
  - intros H. injection H as ->. apply str_eqb_spec in E. subst. reflexivity.
  - intros H. rewrite IH by exact H. reflexivity.
Qed.
Lemma set_set : forall k v w d, set k v (set k w d) = set k v d.
Proof.
  intros k v w d. induction d as [|[k' x] d IH]; cbn [set]; [rewrite str_eqb_refl; reflexivity|].
  destruct (str_eqb k k') eqn:E; cbn [set]; rewrite E; [reflexivity|]. rewrite IH. reflexivity.
Qed.
(** a present key can be set before or after *)
Lemma set_comm : forall k v k' v' x d, k <> k' -> lookup k d = Some x -> set k' v' (set k v d) = set k v (set k' v' d).
Proof.
  intros k v k' v' x d Hk. induction d as [|[k0 w] d IH]; [discriminate|]. cbn [lookup set]. destruct (str_eqb k k0) eqn:E0.
  - intros _. apply str_eqb_spec in E0. subst k0. cbn [set]. rewrite (str_eqb_neq k' k) by congruence. cbn [set]. rewrite str_eqb_refl. reflexivity.
  - intros Q. cbn [set]. destruct (str_eqb k' k0) eqn:E1; cbn [set]; rewrite E0; [reflexivity|]. rewrite IH by exact Q. reflexivity.
Qed.

Lemma styled_set : forall d s, get k_styles (set k_content s d) = get k_styles d.
Proof. intros. apply get_set_other. discriminate. Qed.
Lemma type_set : forall t d s, of_type t (set k_content s d) <-> of_type t d.
Proof. intros. unfold of_type. rewrite lookup_set_other by discriminate. reflexivity. Qed.

Lemma texts_ok_cons : forall v l, texts_ok (v :: l) -> texts_ok l.
Proof. intros v l H d Hin. apply H. right. exact Hin. Qed.
Lemma not_text_dict : forall d, ~ of_type "text" d -> ~ text_token (VDict d).
Proof. intros d H (d' & E & K). injection E as <-. exact (H K). Qed.
Lemma not_continues_other : forall styles v r, ~ text_token v -> ~ continues styles (v :: r).
Proof. intros styles v r H (d & r' & E & K & _). injection E as -> _. apply H. exists d. auto. Qed.

(** the accumulated token [c] stands for a started run *)
Lemma concat_ok : forall l, texts_ok l ->
  (forall acc, exists o, concat_loop l None acc = Ok (rev acc ++ o) /\ joined l o) /\
  (forall c a acc, of_type "text" c -> lookup k_content c = Some (VStr a) ->
     exists cs ds s r o, l = map VDict ds ++ r /\ Forall2 (is_text_of (get k_styles c)) cs ds /\ glued_all a cs s /\
       ~ continues (get k_styles c) r /\ joined r o /\
       concat_loop l (Some c) acc = Ok (rev acc ++ VDict (set k_content (VStr s) c) :: o)).
Proof.
  induction l as [|v l IH]; intros Hok.
  { split.
    - intros acc. exists []. cbn. rewrite app_nil_r. split; [reflexivity|constructor].
    - intros c a acc Hc Ha. exists [], [], a, [], []. cbn [concat_loop rev app map]. rewrite (set_present _ _ _ Ha).
      repeat split; try constructor. intros (? & ? & ? & _). discriminate. }
  destruct (IH (texts_ok_cons _ _ Hok)) as [IH0 IH1]. clear IH.
  assert (TD : text_token v \/ ~ text_token v).
  { destruct v as [| | | | |d]; try (right; intros (? & ? & _); discriminate).
    destruct (of_type_dec "text" d) as [T|T]; [left; exists d; auto|right; apply not_text_dict; exact T]. }
  assert (NT : ~ text_token v -> forall cur acc, concat_loop (v :: l) cur acc =
            concat_loop l None (v :: match cur with Some c => VDict c :: acc | None => acc end)).
  { intros T cur acc. destruct v as [| | | | |d]; try reflexivity. cbn [concat_loop].
    destruct (is_str (get k_type d) "text") eqn:E; [|reflexivity]. exfalso. apply T. exists d. split; [reflexivity|apply type_bool; exact E]. }
  destruct TD as [T|T].
  2:{ split.
      - intros acc. rewrite NT by exact T. destruct (IH0 (v :: acc)) as (o & E & J). exists (v :: o). rewrite E. cbn [rev].
        rewrite <- app_assoc. split; [reflexivity|]. constructor; assumption.
      - intros c a acc Hc Ha. rewrite NT by exact T. destruct (IH0 (v :: VDict c :: acc)) as (o & E & J).
        exists [], [], a, (v :: l), (v :: o). rewrite E. cbn [rev]. rewrite <- !app_assoc. cbn [app].
        split; [reflexivity|]. split; [constructor|]. split; [constructor|]. split; [apply not_continues_other; exact T|].
        split; [constructor; assumption|]. rewrite (set_present _ _ _ Ha). reflexivity. }
  destruct T as (d & -> & Td). destruct (Hok d (or_introl eq_refl) Td) as (b & Hb).
  split.
  - intros acc. cbn [concat_loop]. rewrite (proj2 (type_bool "text" d) Td).
    destruct (IH1 d b acc Td Hb) as (cs & ds & s & r & o & El & F & G & NC & J & E).
    exists (VDict (set k_content (VStr s) d) :: o). split; [exact E|]. rewrite El. eapply jn_run; eauto. repeat split; auto.
  - intros c a acc Hc Ha. cbn [concat_loop]. rewrite (proj2 (type_bool "text" d) Td). unfold getitem. rewrite Hb, Ha. cbn [bind].
    destruct (val_eqb (get k_styles c) (get k_styles d)) eqn:Es.
    + apply val_eqb_spec in Es. destruct (space_ok d c a b Td Hc Hb Ha) as (x & Ex & Gx). rewrite Ex. cbn [bind].
      set (ab := a ++ (if x then lit " " ++ b else b)) in *.
      destruct (IH1 (set k_content (VStr ab) c) ab acc) as (cs & ds & s & r & o & El & F & G & NC & J & E).
      { apply type_set. exact Hc. } { apply lookup_set_same. }
      rewrite styled_set in *. exists (b :: cs), (d :: ds), s, r, o. cbn [map app]. rewrite El. split; [reflexivity|].
      split; [constructor; [repeat split; auto|exact F]|]. split; [econstructor; eauto|]. split; [exact NC|]. split; [exact J|].
      rewrite set_set in E. rewrite El in E. exact E.
    + assert (Hne : get k_styles d <> get k_styles c).
      { intros K. rewrite (proj2 (val_eqb_spec _ _)) in Es; [discriminate|]. symmetry. exact K. }
      destruct (IH1 d b (VDict c :: acc) Td Hb) as (cs & ds & s & r & o & El & F & G & NC & J & E).
      exists [], [], a, (VDict d :: l), (VDict (set k_content (VStr s) d) :: o). split; [reflexivity|]. split; [constructor|]. split; [constructor|].
      split; [intros (d' & r' & K & _ & K2); injection K as <- _; exact (Hne K2)|].
      split; [rewrite El; eapply jn_run; eauto; repeat split; auto|].
      etransitivity; [exact E|]. cbn [rev]. rewrite <- app_assoc. cbn [app]. rewrite (set_present _ _ _ Ha). reflexivity.
Qed.

Theorem concat_texts : forall l, texts_ok l -> exists o, concat_text_with_same_styles l = Ok o /\ joined l o.
Proof. intros l H. destruct (proj1 (concat_ok l H) []) as (o & E & J). exists o. split; assumption. Qed.

(* ------------------------------------------------------------------ *)
(** * Consequences of [joined] *)
Lemma joined_fun : forall l o, joined l o -> forall o', joined l o' -> o = o'.
Proof.
  assert (GA : forall a cs s, glued_all a cs s -> forall s', glued_all a cs s' -> s = s').
  { induction 1 as [a|a b ab r s G H IH]; intros s' H'; inversion H'; subst; [reflexivity|]. apply IH.
    match goal with K : glued a b ?x |- _ => rewrite (glued_fun _ _ _ G _ K) end. assumption. }
  assert (RUN : forall styles ds1 ds2 cs1 cs2 r1 r2, map VDict ds1 ++ r1 = map VDict ds2 ++ r2 ->
      Forall2 (is_text_of styles) cs1 ds1 -> Forall2 (is_text_of styles) cs2 ds2 -> ~ continues styles r1 -> ~ continues styles r2 ->
      ds1 = ds2 /\ cs1 = cs2 /\ r1 = r2).
  { intros styles. induction ds1 as [|x ds1 IH]; intros ds2 cs1 cs2 r1 r2 E F1 F2 N1 N2; inversion F1; subst.
    - destruct ds2 as [|y ds2]; inversion F2; subst; cbn in E; [auto|]. exfalso. apply N1. subst r1.
      match goal with K : is_text_of _ _ y |- _ => destruct K as (K1 & K2 & _) end. exists y, (map VDict ds2 ++ r2). auto.
    - destruct ds2 as [|y ds2]; inversion F2; subst; cbn in E.
      + exfalso. apply N2. subst r2.
        match goal with K : is_text_of _ _ x |- _ => destruct K as (K1 & K2 & _) end. exists x, (map VDict ds1 ++ r1). auto.
      + injection E as <- E. match goal with K : Forall2 _ ?l1 ds1, K' : Forall2 _ ?l2 ds2 |- _ => destruct (IH ds2 l1 l2 r1 r2 E K K' N1 N2) as (-> & -> & ->) end.
        match goal with K : is_text_of _ ?a x, K' : is_text_of _ ?b x |- _ => destruct K as (_ & _ & K), K' as (_ & _ & K'); rewrite K in K'; injection K' as -> end.
        auto. }
  induction 1 as [|v r o T J IH|d styles c ds cs s r o Hd F G NC J IH]; intros o' H'.
  - inversion H'; reflexivity.
  - inversion H' as [|v' r' o1 T' J'|d styles c ds cs s r' o1 Hd F G NC J']; subst; [f_equal; auto|].
    exfalso. apply T. exists d. split; [reflexivity|apply Hd].
  - inversion H' as [|v' r' o1 T' J'|d1 styles1 c1 ds1 cs1 s1 r1 o1 Hd1 F1 G1 NC1 J1]; subst.
    + exfalso. apply T'. exists d. split; [reflexivity|apply Hd].
    + destruct Hd as (T1 & S1 & C1), Hd1 as (T2 & S2 & C2). rewrite S1 in S2. subst styles1. rewrite C1 in C2. injection C2 as <-.
      match goal with K : map VDict ds1 ++ r1 = map VDict ds ++ r |- _ =>
        destruct (RUN styles ds1 ds cs1 cs r1 r K F1 F NC1 NC) as (-> & -> & ->) end.
      rewrite (GA _ _ _ G _ G1). f_equal. auto.
Qed.

Lemma joined_first : forall styles l o, joined l o -> continues styles o -> continues styles l.
Proof.
  intros styles l o J (d & r & E & T & S). inversion J as [|v r' o1 T' J'|d1 styles1 c1 ds1 cs1 s1 r1 o1 Hd1 F1 G1 NC1 J1]; subst; try discriminate.
  - injection H0 as -> _. exfalso. apply T'. exists d. auto.
  - injection H0 as <- _. rewrite styled_set. exists d1. eexists. split; [reflexivity|]. split; [apply Hd1|reflexivity].
Qed.

Lemma joined_separated : forall l o, joined l o -> separated o.
Proof.
  induction 1 as [|v r o T J IH|d styles c ds cs s r o Hd F G NC J IH]; intros a d1 d2 b E T1 T2.
  - destruct a; discriminate.
  - destruct a as [|x a]; cbn in E; injection E as -> E.
    + exfalso. apply T. exists d1. auto.
    + eapply IH; eauto.
  - destruct a as [|x a]; cbn in E; injection E as E1 E2.
    + subst d1. rewrite styled_set. intros K. apply NC. apply (joined_first styles r o J). exists d2, b. split; [exact E2|]. split; [exact T2|].
      rewrite <- K. apply Hd.
    + eapply IH; eauto.
Qed.

Definition vis (s : str) : str := filter (fun c => negb (N.eqb c 32)) s.
Lemma vis_app : forall a b, vis (a ++ b) = vis a ++ vis b.
Proof. intros. apply filter_app. Qed.
Lemma glued_vis : forall a b s, glued a b s -> vis s = vis a ++ vis b.
Proof. intros a b s H. inversion H; subst; rewrite !vis_app; reflexivity. Qed.
Lemma glued_all_vis : forall a cs s, glued_all a cs s -> vis s = vis a ++ vis (concat cs).
Proof.
  induction 1 as [a|a b ab r s G H IH]; cbn [concat]; [cbn; rewrite app_nil_r; reflexivity|].
  rewrite IH, (glued_vis _ _ _ G), vis_app, app_assoc. reflexivity.
Qed.
Lemma content_of_text : forall styles c d, is_text_of styles c d -> content_of (VDict d) = c.
Proof. intros styles c d (T & _ & C). unfold content_of. rewrite (proj2 (type_bool "text" d) T). unfold get. rewrite C. reflexivity. Qed.
Lemma joined_visible : forall l o, joined l o -> visible o = visible l.
Proof.
  unfold visible. fold (vis (concat (map content_of []))).
  induction 1 as [|v r o T J IH|d styles c ds cs s r o Hd F G NC J IH]; [reflexivity| |].
  - cbn [map concat]. fold (vis (content_of v ++ concat (map content_of o))). fold (vis (content_of v ++ concat (map content_of r))).
    rewrite !vis_app. unfold vis. rewrite IH. reflexivity.
  - cbn [map concat]. rewrite map_app, concat_app.
    assert (EC : content_of (VDict (set k_content (VStr s) d)) = s).
    { apply (content_of_text styles). destruct Hd as (T & S & C). repeat split; [apply type_set; exact T|rewrite styled_set; exact S|apply lookup_set_same]. }
    rewrite EC, (content_of_text _ _ _ Hd).
    assert (EM : concat (map content_of (map VDict ds)) = concat cs).
    { clear - F. induction F as [|x y cs ds K F IH]; [reflexivity|]. cbn [map concat]. rewrite (content_of_text _ _ _ K), IH. reflexivity. }
    rewrite EM. fold (vis (s ++ concat (map content_of o))). fold (vis (c ++ concat cs ++ concat (map content_of r))).
    rewrite !vis_app, (glued_all_vis _ _ _ G), <- app_assoc. do 2 f_equal. exact IH.
Qed.

(** everything but the texts is untouched, in order *)
Lemma joined_nontext : forall l o, joined l o -> filter nontext o = filter nontext l.
Proof.
  assert (NT : forall d, of_type "text" d -> nontext (VDict d) = false).
  { intros d T. unfold nontext, is_text. rewrite (proj2 (type_bool "text" d) T). reflexivity. }
  induction 1 as [|v r o T J IH|d styles c ds cs s r o Hd F G NC J IH]; [reflexivity| |].
  - cbn [filter]. rewrite IH. reflexivity.
  - cbn [filter]. rewrite filter_app, (NT d), (NT (set k_content (VStr s) d)); [|apply type_set; apply Hd|apply Hd].
    assert (EM : filter nontext (map VDict ds) = []).
    { clear - F NT. induction F as [|x y cs ds K F IH]; [reflexivity|]. cbn [map filter]. rewrite (NT y) by apply K. exact IH. }
    rewrite EM. exact IH.
Qed.
