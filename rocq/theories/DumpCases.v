(** Uniqueness and cases for DumpProofs.v. *)
From Coq Require Import List NArith ZArith PeanoNat Lia Bool String.
From Verif Require Import PyStr Json DumpModel DumpSpec DumpProofs JsonTextSpec.
Import ListNotations. Notation length := List.length. Notation concat := List.concat. Open Scope list_scope.

Scheme shows_mut := Induction for shows Sort Prop
with all_mut := Induction for all_shown Sort Prop
with members_mut := Induction for members_shown Sort Prop
with fields_mut := Induction for fields_shown Sort Prop.
Combined Scheme shows_induct from shows_mut, all_mut, members_mut, fields_mut.
Lemma shows_once : (forall v w, shows v w -> forall w', shows v w' -> w = w') /\ (forall l m, all_shown l m -> forall m', all_shown l m' -> m = m') /\
  (forall d e, members_shown d e -> forall e', members_shown d e' -> e = e') /\ (forall f e, fields_shown f e -> forall e', fields_shown f e' -> e = e').
Proof.
  apply (shows_induct (fun v w _ => forall w', shows v w' -> w = w') (fun l m _ => forall m', all_shown l m' -> m = m')
    (fun d e _ => forall e', members_shown d e' -> e = e') (fun f e _ => forall e', fields_shown f e' -> e = e'));
  try (intros; match goal with H : _ |- _ => inversion H; subst; reflexivity end);
  intros; match goal with H : shows _ ?w' |- _ = ?w' => inversion H; subst | H : all_shown _ ?w' |- _ = ?w' => inversion H; subst | H : members_shown _ ?w' |- _ = ?w' => inversion H; subst | H : fields_shown _ ?w' |- _ = ?w' => inversion H; subst end;
  try contradiction; repeat (match goal with IH : forall w', ?R w' -> ?w = w' |- _ => erewrite IH by eassumption; clear IH end); reflexivity.
Qed.
Lemma dump_only : forall t w, nested false t -> shows t w -> w = model_dump t.
Proof. intros t w N H. exact (proj1 shows_once t w H _ (model_dump_shown t N)). Qed.

(** ** cases *)
Definition text_token (s : string) : pv := PTok (lit "text") [(lit "type", PStr (lit "text")); (lit "styles", PNone); (lit "content", PStr (lit s)); (lit "labels", PNone)].
Definition formula : pv := PTok (lit "equation") [(lit "type", PStr (lit "equation")); (lit "styles", PNone); (lit "content", PStr (lit "x")); (lit "labels", PNone);
  (lit "align", PNone); (lit "display", PStr (lit "block")); (lit "numbering", PStr (lit "1")); (lit "placeholders", PNone)].
Definition grid : pv := PTok (lit "tabular") [(lit "type", PStr (lit "tabular")); (lit "styles", PNone);
  (lit "content", PList [PList [PNone; PCell (PList [text_token "a"; formula]) (PInt 2) (PInt 1)]; PList [formula; PStr (lit "b")]]); (lit "labels", PNone)].
Definition cite_token (title : list pv) : pv := PTok (lit "citation") [(lit "type", PStr (lit "citation")); (lit "styles", PNone); (lit "content", PList [PStr (lit "key")]); (lit "labels", PNone); (lit "title", PList title)].
Definition sec : pv := PTok (lit "section") [(lit "type", PStr (lit "section")); (lit "styles", PList [PStr (lit "bold")]); (lit "content", PList [grid; cite_token [text_token "see"]]);
  (lit "labels", PNone); (lit "title", PList [formula]); (lit "level", PInt 1); (lit "numbering", PNone)].
Ltac in_cases := repeat match goal with
  | H : In _ _ |- _ => cbn [In] in H
  | H : _ \/ _ |- _ => destruct H as [H|H]
  | H : False |- _ => destruct H
  | H : (_, _) = (_, _) |- _ => injection H as <- <-
  end.
Ltac absurd_place := match goal with
  | H : holds_tokens _ _ |- _ => exfalso; unfold holds_tokens in H; cbn [In] in H; repeat match goal with Q : _ \/ _ |- _ => destruct Q as [Q|Q] | Q : _ /\ _ |- _ => destruct Q | Q : False |- _ => destruct Q end; discriminate
  | H : ~ holds_tokens _ (lit "content") |- _ => exfalso; apply H; left; reflexivity
  | H : ~ holds_tokens (lit "section") (lit "title") |- _ => exfalso; apply H; right; left; split; [reflexivity|left; reflexivity]
  | H : lit _ = lit "tabular" |- _ => discriminate H
  | H : lit "tabular" <> lit "tabular" |- _ => exfalso; apply H; reflexivity
  end.
Ltac settle := try absurd_place; try (constructor; fail).
Lemma light_text : forall s, light (text_token s).
Proof. intros s. constructor; intros k x I; in_cases; try (intros N; try contradiction; unfold common; cbn [In]; auto); constructor. Qed.
Lemma nested_text : forall c s, nested c (text_token s).
Proof. intros c s. constructor; intros k x I; in_cases; intros; settle; constructor. Qed.
Lemma nested_formula : forall c, nested c formula.
Proof. intros c. constructor; intros k x I; in_cases; intros; settle; constructor. Qed.
Lemma nested_grid : forall c, nested c grid.
Proof.
  intros c. constructor; intros k x I; in_cases; intros; settle. constructor. intros x I. in_cases; subst.
  - constructor. intros x I. in_cases; subst; constructor; try constructor. intros x I. in_cases; subst; [apply nested_text|apply nested_formula].
  - constructor. intros x I. in_cases; subst; [apply nested_formula|constructor].
Qed.
Lemma nested_sec : nested false sec.
Proof.
  constructor; intros k x I; in_cases; intros; settle.
  - constructor. intros x I. in_cases; subst. constructor.
  - constructor. intros x I. in_cases; subst; [apply nested_grid|]. constructor; intros k x I; in_cases; intros; settle.
    + constructor. intros x I. in_cases; subst. apply light_text.
    + constructor. intros x I. in_cases; subst. constructor.
  - constructor. intros x I. in_cases; subst. apply nested_formula.
Qed.
Definition shown_text (s : string) : val := VDict [(lit "type", VStr (lit "text")); (lit "content", VStr (lit s))].
Definition shown_formula : val := VDict [(lit "type", VStr (lit "equation")); (lit "content", VStr (lit "x")); (lit "display", VStr (lit "block")); (lit "numbering", VStr (lit "1"))].
Lemma sec_case : nested false sec /\ model_dump sec =
  VDict [(lit "type", VStr (lit "section")); (lit "styles", VList [VStr (lit "bold")]);
    (lit "content", VList [
       VDict [(lit "type", VStr (lit "tabular")); (lit "content", VList [
         VList [VNone; VDict [(lit "content", VList [shown_text "a"; shown_formula]); (lit "rowspan", VInt 2); (lit "colspan", VInt 1)]];
         VList [shown_formula; VStr (lit "b")]])];
       VDict [(lit "type", VStr (lit "citation")); (lit "content", VList [VStr (lit "key")]); (lit "title", VList [shown_text "see"])]]);
    (lit "title", VList [shown_formula]); (lit "level", VInt 1)].
Proof. split; [exact nested_sec|vm_compute; reflexivity]. Qed.
(** an equation in the title of a citation *)
Lemma cite_case : model_dump (cite_token [formula]) = VDict [(lit "type", VStr (lit "citation")); (lit "content", VList [VStr (lit "key")]);
  (lit "title", VList [VDict [(lit "type", VStr (lit "equation")); (lit "content", VStr (lit "x"))]])].
Proof. vm_compute. reflexivity. Qed.
Lemma cite_lost : ~ shows (cite_token [formula]) (model_dump (cite_token [formula])).
Proof.
  rewrite cite_case. intros H. inversion H as [| | | | | | |c f e F]; subst.
  repeat match goal with F : fields_shown _ _ |- _ => inversion F; subst; clear F end. try contradiction.
  repeat match goal with S : shows (PList _) _ |- _ => inversion S; subst; clear S end.
  repeat match goal with S : all_shown _ _ |- _ => inversion S; subst; clear S end.
  match goal with S : shows formula _ |- _ => inversion S; subst; clear S end.
  repeat match goal with F : fields_shown _ _ |- _ => inversion F; subst; clear F; try contradiction end.
Qed.
(** two answers with the same text *)
Lemma same_json : forall cm, to_json [cite_token [formula]] cm = to_json [cite_token [PTok (lit "equation") [(lit "type", PStr (lit "equation")); (lit "styles", PNone); (lit "content", PStr (lit "x")); (lit "labels", PNone);
  (lit "align", PNone); (lit "display", PStr (lit "inline")); (lit "numbering", PNone); (lit "placeholders", PNone)]]] cm.
Proof. intros cm. unfold to_json. f_equal. Qed.
Lemma cut_formula : no_cells (PList [formula]) /\ cut (PList [formula]) (PList [PTok (lit "equation") [(lit "type", PStr (lit "equation")); (lit "styles", PNone); (lit "content", PStr (lit "x")); (lit "labels", PNone)]]).
Proof.
  split.
  - constructor. intros x I. in_cases; subst. constructor. intros k x I. in_cases; constructor.
  - constructor. constructor; [|constructor]. constructor.
    repeat (apply cf_keep; [unfold common; cbn [In]; tauto|constructor|]).
    repeat (apply cf_drop; [unfold common; cbn [In]; intros Q; repeat destruct Q as [Q|Q]; try discriminate Q; destruct Q|]). constructor.
Qed.
