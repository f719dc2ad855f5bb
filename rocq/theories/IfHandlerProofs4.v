(** C84: the four patterns read a text that [fits] as its items. *)
From Coq Require Import List NArith PeanoNat Lia Bool String.
From Verif Require Import PyStr Regex RegexLemmas RegexHead Json TexUtilsModel DelimSpec CommandModel CommandSpec CommandProofs CommandProofs2 IfModel IfSpec IfProofs IfProofs2 IfProofs3 IfHandlerModel IfHandlerSpec IfHandlerProofs IfHandlerProofs2 IfHandlerProofs3.
Import ListNotations. Notation length := List.length. Notation concat := List.concat. Open Scope list_scope.

Lemma not_start : forall (t : str) i, (forall p r, In p commands_apart -> skipn i t <> p ++ r) -> forall p, In p commands_apart -> startswith (skipn i t) p = false.
Proof. intros t i H p I. destruct (startswith (skipn i t) p) eqn:E; [|reflexivity]. apply startswith_spec in E as (r & E). exfalso. exact (H p r I E). Qed.
Lemma finds_group : forall names P kind, (forall s, kind (Txt s) = false) ->
  (forall t i, (forall p r, In p commands_apart -> skipn i t <> p ++ r) -> rm P t i [] = []) ->
  (forall i r t k, fits names (i :: r) -> is_txt i = false -> skipn k t = item_text i ++ render r ->
     if kind i then exists c', first_match P t k [] (k + length (item_text i)) c' else rm P t k [] = []) ->
  forall items, fits names items -> span (re_search P (render items)) = spot (first_of kind items 0).
Proof.
  intros names P kind T O I items F. unfold re_search. exact (read_all names P kind O I T items (render items) [] F eq_refl).
Qed.
Lemma fits_suffix : forall names a b, fits names (a ++ b) -> fits names b.
Proof. induction a as [|i a IH]; intros b F; [exact F|]. apply IH. inversion F; assumption. Qed.
Lemma no_elsif : forall names items, fits names items -> forall k, first_of is_elsif items k = None.
Proof. induction 1; intros k; cbn [first_of is_elsif]; auto. Qed.
Lemma no_condition : forall names items, fits names items -> forall kind k o, first_of kind items k = Some o -> snd o = None.
Proof.
  induction 1; intros kd k o E; cbn [first_of] in E; [discriminate| | | |]; destruct (kd _); try (injection E as <-; reflexivity); eauto.
Qed.
Lemma fits_marker : forall names items, fits names items -> forall i, In i items -> is_txt i = false -> item_text i <> [].
Proof. induction 1; intros i I T; cbn [In] in I; (destruct I as [<-|I] || destruct I); try discriminate; eauto. Qed.
Lemma finds_plain : forall names P kind, (forall items, fits names items -> span (re_search P (render items)) = spot (first_of kind items 0)) ->
  forall items, fits names items -> finds (searcher P) kind items.
Proof.
  intros names P kind H items F a b E. subst items. pose proof (fits_suffix _ _ _ F) as Fb. specialize (H b Fb). pose proof (no_condition _ _ Fb kind 0) as C. unfold searcher.
  destruct (re_search P (render b)) as [m|]; destruct (first_of kind b 0) as [[[x y] z]|]; cbn [span spot option_map fst snd] in *; try discriminate; [|reflexivity].
  injection H as -> ->. rewrite (C _ eq_refl : z = None). reflexivity.
Qed.
Theorem fits_reads : forall names items, Forall word names -> fits names items ->
  reads (searcher (compiled (declared_ifs names))) (searcher FI_PATTERN) (searcher ELSE_PATTERN) (searcher_group ELSIF_PATTERN) items.
Proof.
  intros names items Wn F.
  assert (Sw : forall (t : str) k p q, skipn k t = p ++ q -> forall s, startswith p s = false -> startswith s p = false -> startswith (skipn k t) s = false).
  { intros t k p q E. rewrite E. clear E. induction p as [|x p IH]; intros s H1 H2; [destruct s; discriminate|]. destruct s as [|y s]; [discriminate|]. cbn [List.app startswith] in *.
    destruct (N.eqb y x) eqn:Ex; [|reflexivity]. apply N.eqb_eq in Ex. subst y. rewrite N.eqb_refl in H2. cbn [andb] in *. apply IH; assumption. }
  repeat split.
  - apply (finds_plain names); [|exact F]. apply finds_group.
    + reflexivity.
    + intros t i H. pose proof (not_start t i H) as N. apply compiled_none; apply N; vm_compute; tauto.
    + intros i r t k Fi T E. inversion Fi as [|s r0 Q F'|name r0 H F'|r0 B F'|r0 B F']; subst; cbn [is_txt is_open item_text] in *; try discriminate.
      * destruct (compiled_match names name (render r) t k [] Wn H) as (c' & Fm); [exact E|]. exists c'. rewrite <- Nat.add_assoc in Fm. exact Fm.
      * apply compiled_none; rewrite E; reflexivity.
      * apply compiled_none; rewrite E; reflexivity.
  - apply (finds_plain names); [|exact F]. apply finds_group.
    + reflexivity.
    + intros t i H. pose proof (not_start t i H) as N. apply fi_none; apply N; vm_compute; tauto.
    + intros i r t k Fi T E. inversion Fi as [|s r0 Q F'|name r0 H F'|r0 B F'|r0 B F']; subst; cbn [is_txt is_close item_text] in *; try discriminate.
      * apply fi_none. rewrite E. reflexivity.
      * exists []. exists []. exact (fi_match t k [] (render r) E B).
      * apply fi_none. rewrite E. reflexivity.
  - apply (finds_plain names); [|exact F]. apply finds_group.
    + reflexivity.
    + intros t i H. pose proof (not_start t i H) as N. apply else_none. pose proof (N (lit "\els") ltac:(vm_compute; tauto)) as N1. exact (sw_app _ (lit "\els") (lit "e") N1).
    + intros i r t k Fi T E. inversion Fi as [|s r0 Q F'|name r0 H F'|r0 B F'|r0 B F']; subst; cbn [is_txt is_else item_text] in *; try discriminate.
      * apply else_none. rewrite E. reflexivity.
      * apply else_none. rewrite E. reflexivity.
      * exists []. exists []. exact (else_match t k [] (render r) E B).
  - intros a b E. subst items. pose proof (fits_suffix _ _ _ F) as Fb. rewrite (no_elsif names b Fb 0).
    assert (H : span (re_search ELSIF_PATTERN (render b)) = spot (first_of is_elsif b 0)).
    { refine (finds_group names ELSIF_PATTERN is_elsif (fun _ => eq_refl) _ _ b Fb).
    + intros t i H. pose proof (not_start t i H) as N. apply elsif_none; apply N; vm_compute; tauto.
    + intros i r t k Fi T E. inversion Fi as [|s r0 Q F'|name r0 H F'|r0 B F'|r0 B F']; subst; cbn [is_txt is_elsif item_text] in *; try discriminate.
      * apply elsif_none; rewrite E; reflexivity.
      * apply elsif_none; rewrite E; reflexivity.
      * exact (else_no_elsif t k [] (render r) E B). }
    rewrite (no_elsif names b Fb 0) in H. unfold searcher_group. destruct (re_search ELSIF_PATTERN (render b)); [discriminate H|reflexivity].
  - apply (fits_marker names). exact F.
Qed.
