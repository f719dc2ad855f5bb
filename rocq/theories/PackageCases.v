(** Concrete cases for the package handlers. *)
From Coq Require Import List NArith PeanoNat Lia Bool String.
From Verif Require Import PyStr Regex Json TexUtilsModel DelimSpec DelimProofs DelimFinal EtoolModel EtoolSpec EtoolProofs SubstModel KeyvalModel KeyvalSpec KeyvalProofs2.
Import ListNotations. Notation length := List.length. Notation concat := List.concat. Open Scope list_scope.

Definition ex_texts : list str := [lit "\newbool{a}"; lit "\booltrue {a} x"; lit "\setbool{b}{true}"; lit "hello"; lit "\setbool{a}{False}"; lit "\providebool{a}"].
Definition ex_hist : history := [Some (lit "a", BNew); Some (lit "a", BSet true); Some (lit "b", BSet true); None; Some (lit "a", BSet false); Some (lit "a", BProvide)].
Lemma no_rb : forall s, forallb (fun x => negb (N.eqb x c_rb)) s = true -> ~ In c_rb s.
Proof. intros s H. apply notin_forallb. exact H. Qed.
Lemma ex_events : Forall2 event ex_texts ex_hist.
Proof.
  unfold ex_texts, ex_hist. constructor; [|constructor; [|constructor; [|constructor; [|constructor; [|constructor; [|constructor]]]]]]; cbn [event].
  - apply says_new with (rest := []). exists []. split; [reflexivity|]. split; [reflexivity|apply no_rb; reflexivity].
  - apply says_true with (rest := lit " x"). exists [c_sp]. split; [reflexivity|]. split; [reflexivity|apply no_rb; reflexivity].
  - apply says_set_true with (rest := lit "{true}") (b := lit "true") (n := 6).
    + exists []. split; [reflexivity|]. split; [reflexivity|apply no_rb; reflexivity].
    + apply (proj1 (extract_nested_content_iff c_lb c_rb _ _ _ delims_curly)); reflexivity.
    + apply is_true_word_spec. reflexivity.
  - intros n c H. destruct H as [r H|r H|r H|r H|r b k H|r b k H]; destruct H as (ws & E & _); cbn in E; discriminate E.
  - apply says_set_false with (rest := lit "{False}") (b := lit "False") (n := 7).
    + exists []. split; [reflexivity|]. split; [reflexivity|apply no_rb; reflexivity].
    + apply (proj1 (extract_nested_content_iff c_lb c_rb _ _ _ delims_curly)); reflexivity.
    + rewrite <- is_true_word_spec. discriminate.
  - apply says_provide with (rest := []). exists []. split; [reflexivity|]. split; [reflexivity|apply no_rb; reflexivity].
Qed.
Definition ex_defs : kdefs := snd (1, fst (keyval_handle (fun _ => false) [] (lit "\define@key{pub}{note}[yes]{\set{#1}} "))).
Definition ex_good : list str := [lit "article=no"; lit ""; lit " note= a b "; lit " other "; lit "note=#1"].
Definition ex_outs : list (option (str * str)) := [Some (lit "article", lit "no"); None; Some (lit "note", lit "a b"); Some (lit "other", lit "true"); Some (lit "note", lit "#1")].
Lemma good_key_b : forall k, k <> [] -> forallb (fun x => negb (N.eqb x c_eq || N.eqb x c_comma || isspace x)) k = true -> good_key k.
Proof.
  intros k Hk H. split; [exact Hk|]. rewrite forallb_forall in H. intros x Hx. specialize (H x Hx). apply negb_true_iff in H. apply orb_false_iff in H as [H H3]. apply orb_false_iff in H as [H1 H2].
  apply N.eqb_neq in H1, H2. auto.
Qed.
Lemma ex_settings : Forall2 setting ex_good ex_outs.
Proof.
  unfold ex_good, ex_outs.
  assert (G : forall s, s <> [] -> forallb (fun x => negb (N.eqb x c_eq || N.eqb x c_comma || isspace x)) s = true -> good_key s) by apply good_key_b.
  constructor; [|constructor; [|constructor; [|constructor; [|constructor; [|constructor]]]]].
  - apply (set_value [] (lit "article") (lit "no")); [reflexivity|apply G; [discriminate|reflexivity]|discriminate|apply notin_forallb; reflexivity].
  - apply set_nothing. reflexivity.
  - apply (set_value (lit " ") (lit "note") (lit " a b ")); [reflexivity|apply G; [discriminate|reflexivity]|discriminate|apply notin_forallb; reflexivity].
  - apply (set_flag (lit " ") (lit "other") (lit " ")); [reflexivity|apply G; [discriminate|reflexivity]|reflexivity].
  - apply (set_value [] (lit "note") (lit "#1")); [reflexivity|apply G; [discriminate|reflexivity]|discriminate|apply notin_forallb; reflexivity].
Qed.
Lemma ex_groups : groups_at c_lb c_rb (lit " {pub} {article=no,, note= a b , other ,note=#1} tail") [lit "pub"; join [c_comma] ex_good] 48.
Proof.
  change 48 with (6 + (42 + 0)). apply ga_cons.
  - apply (proj1 (extract_nested_content_iff c_lb c_rb _ _ _ delims_curly)). reflexivity.
  - apply ga_cons; [|apply ga_nil]. apply (proj1 (extract_nested_content_iff c_lb c_rb _ _ _ delims_curly)). reflexivity.
Qed.
Lemma ex_def_groups : groups_at c_lb c_rb (lit "{pub}{note}[yes]{\set{#1}} ") [lit "pub"; lit "note"] 11 /\
  group_at c_lk c_rk (skipn 11 (lit "{pub}{note}[yes]{\set{#1}} ")) (lit "yes") 5 /\ group_at c_lb c_rb (skipn 16 (lit "{pub}{note}[yes]{\set{#1}} ")) (lit "\set{#1}") 10.
Proof.
  split; [|split].
  - change 11 with (5 + (6 + 0)). apply ga_cons; [|apply ga_cons; [|apply ga_nil]]; apply (proj1 (extract_nested_content_iff c_lb c_rb _ _ _ delims_curly)); reflexivity.
  - apply (proj1 (extract_nested_content_iff c_lk c_rk _ _ _ delims_square)). reflexivity.
  - apply (proj1 (extract_nested_content_iff c_lb c_rb _ _ _ delims_curly)). reflexivity.
Qed.
