(** C24: the document. *)
From Coq Require Import List NArith ZArith PeanoNat Lia Bool String.
From Verif Require Import PyStr Json BuilderModel BuilderSample FactoryModel FactoryProofs.
Import ListNotations. Notation length := List.length. Notation concat := List.concat. Open Scope list_scope.

(** [shown created out]: the true values of [created] (not None, not the empty string), in order *)
Inductive shown : list val -> list val -> Prop :=
| sh_nil : shown [] []
| sh_drop : forall v l o, truthy v = false -> shown l o -> shown (v :: l) o
| sh_keep : forall v l o, truthy v = true -> shown l o -> shown (v :: l) (v :: o).
Lemma shown_filter : forall l, shown l (filter truthy l).
Proof. induction l as [|v l IH]; [apply sh_nil|]. cbn [filter]. destruct (truthy v) eqn:E; [apply sh_keep; assumption|apply sh_drop; assumption]. Qed.
Lemma shown_none : forall l o, shown l o -> ~ In VNone o.
Proof. induction 1 as [|v l o H _ IH|v l o N _ IH]; [intros []|exact IH|]. intros [E|I]; [subst v; discriminate N|exact (IH I)]. Qed.
Lemma build_created : forall validate table_cell tokens out, build_loop validate table_cell tokens = Ok out ->
  exists created, Forall2 (fun t w => factory_create validate table_cell t = Ok w) tokens created /\ out = filter truthy created.
Proof.
  induction tokens as [|t r IH]; intros out E; cbn [build_loop] in E; [injection E as <-; exists []; split; [constructor|reflexivity]|].
  destruct (factory_create validate table_cell t) as [w|] eqn:Et; cbn [bind] in E; [|discriminate]. destruct (build_loop validate table_cell r) as [o|] eqn:Er; cbn [bind] in E; [|discriminate].
  destruct (IH o eq_refl) as (cr & F & ->). exists (w :: cr). split; [constructor; assumption|]. injection E as <-. cbn [filter]. destruct (truthy w); reflexivity.
Qed.
Theorem document : forall validate table_cell st tokens st' out, 
  build validate table_cell st tokens = (st', Ok out) ->
  exists organized created, organize_content false st tokens = (st', Ok organized) /\
    Forall2 (fun t w => factory_create validate table_cell t = Ok w) organized created /\ shown created out /\ ~ In VNone out.
Proof.
  intros validate table_cell st tokens st' out E. unfold build in E. destruct (organize_content false st tokens) as [s o]. injection E as <- E. destruct o as [o|]; cbn [bind] in E; [|discriminate].
  destruct (build_created _ _ _ _ E) as (cr & F & ->). exists o, cr. split; [reflexivity|]. split; [exact F|].
  split; [apply shown_filter|exact (shown_none _ _ (shown_filter cr))].
Qed.
Lemma document_case : snd (build record record' cleared [tok "date" []; txt "a"; VStr []; tok "nonsense" []; VStr (lit "b")]) = Ok [txt "a"; VStr (lit "b")].
Proof. vm_compute. reflexivity. Qed.
