(** C67: the names given by \newtheorem and \floatname. *)
From Coq Require Import List NArith PeanoNat Lia Bool String.
From Verif Require Import PyStr Regex Json TexUtilsModel DelimSpec EnvSpec EnvHandlerModel EnvHandlerSpec EnvHandlerProofs EnvHandlerProofs2.
Import ListNotations. Notation length := List.length. Notation concat := List.concat. Open Scope list_scope.

(** A declaration met by the parser (tex_parser.py:268-274). *)
Inductive declaration := NewTheorem (name title : str) | FloatName (name title : str).
Definition declare (st : env_state) (d : declaration) : env_state :=
  match d with NewTheorem n t => process_newtheorem st n t | FloatName n t => process_floatname st n t end.
(** all declarations of a document, oldest first *)
Definition declared (h : list declaration) : env_state := fold_left declare h env_clear.

Lemma declared_snoc : forall h d, declared (h ++ [d]) = declare (declared h) d.
Proof. intros. unfold declared. rewrite fold_left_app. reflexivity. Qed.
Lemma no_envs : forall h, es_envs (declared h) = [].
Proof. induction h as [|d h IH] using rev_ind; [reflexivity|]. rewrite declared_snoc. destruct d; exact IH. Qed.
Lemma thm_none : forall h n, (forall t, ~ In (NewTheorem n t) h) -> dget n (es_theorems (declared h)) = None.
Proof.
  induction h as [|d h IH] using rev_ind; intros n H; [reflexivity|]. rewrite declared_snoc.
  assert (IH' : dget n (es_theorems (declared h)) = None) by (apply IH; intros t I; apply (H t); apply in_or_app; left; exact I).
  destruct d as [m t|m t]; cbn [declare process_newtheorem process_floatname es_theorems dget]; [|exact IH'].
  destruct (str_eqb n m) eqn:E; [|exact IH']. apply str_eqb_spec in E as <-. exfalso. apply (H t). apply in_or_app. right. left. reflexivity.
Qed.
Lemma float_none : forall h n, (forall t, ~ In (FloatName n t) h) -> dget n (es_floats (declared h)) = None.
Proof.
  induction h as [|d h IH] using rev_ind; intros n H; [reflexivity|]. rewrite declared_snoc.
  assert (IH' : dget n (es_floats (declared h)) = None) by (apply IH; intros t I; apply (H t); apply in_or_app; left; exact I).
  destruct d as [m t|m t]; cbn [declare process_newtheorem process_floatname es_floats dget]; [exact IH'|].
  destruct (str_eqb n m) eqn:E; [|exact IH']. apply str_eqb_spec in E as <-. exfalso. apply (H t). apply in_or_app. right. left. reflexivity.
Qed.
Lemma thm_last : forall h1 h2 n t, (forall u, ~ In (NewTheorem n u) h2) -> dget n (es_theorems (declared (h1 ++ NewTheorem n t :: h2))) = Some t.
Proof.
  intros h1 h2. induction h2 as [|d h IH] using rev_ind; intros n t H.
  - rewrite declared_snoc. cbn. rewrite str_eqb_refl. reflexivity.
  - rewrite app_comm_cons, app_assoc, declared_snoc. assert (IH' := IH n t (fun u I => H u (in_or_app _ _ _ (or_introl I)))).
    destruct d as [m u|m u]; cbn [declare process_newtheorem process_floatname es_theorems dget]; [|exact IH'].
    destruct (str_eqb n m) eqn:E; [|exact IH']. apply str_eqb_spec in E as <-. exfalso. apply (H u). apply in_or_app. right. left. reflexivity.
Qed.
Lemma float_last : forall h1 h2 n t, (forall u, ~ In (FloatName n u) h2) -> dget n (es_floats (declared (h1 ++ FloatName n t :: h2))) = Some t.
Proof.
  intros h1 h2. induction h2 as [|d h IH] using rev_ind; intros n t H.
  - rewrite declared_snoc. cbn. rewrite str_eqb_refl. reflexivity.
  - rewrite app_comm_cons, app_assoc, declared_snoc. assert (IH' := IH n t (fun u I => H u (in_or_app _ _ _ (or_introl I)))).
    destruct d as [m u|m u]; cbn [declare process_newtheorem process_floatname es_floats dget]; [exact IH'|].
    destruct (str_eqb n m) eqn:E; [|exact IH']. apply str_eqb_spec in E as <-. exfalso. apply (H u). apply in_or_app. right. left. reflexivity.
Qed.
Lemma renamed_dget : forall tab name shown, renamed tab name shown -> shown = match dget name tab with Some t => t | None => name end.
Proof. intros tab name shown [N|[U ->]]; [rewrite (newest_dget _ _ _ _ N); reflexivity|rewrite (unknown_dget _ _ _ U); reflexivity]. Qed.
Lemma unstarred_same : forall name, ~ In 42%N name -> filter (fun x => negb (N.eqb x 42%N)) name = name.
Proof.
  induction name as [|x r IH]; intros H; [reflexivity|]. cbn [filter]. destruct (N.eqb x 42) eqn:E; [apply N.eqb_eq in E; subst; destruct H; left; reflexivity|].
  cbn [negb]. f_equal. apply IH. intros I. apply H. right. exact I.
Qed.
Lemma name_shown : forall w lower isalpha h ws name rest j s e text, text = lit "\begin" ++ ws ++ [c_lb] ++ name ++ [c_rb] ++ rest -> blank ws -> ~ In c_rb name -> ~ In 42%N name -> strip name = name -> name <> lit "comment" ->
  j = 6 + length ws + length name + 2 -> closed_at name text j s e ->
  exists t, handle w lower isalpha (declared h) text = (declared h, Out (Some t) e) /\
    et_name t = (let k := match dget name (es_theorems (declared h)) with Some t => t | None => name end in match dget k (es_floats (declared h)) with Some t => t | None => k end).
Proof.
  intros w lower isalpha h ws name rest j s e text -> B N N42 S NC Ej C.
  destruct (regular_env w lower isalpha (declared h) _ ws name rest j s e eq_refl B N S NC Ej C) as (t & H & base & key & r & n & rs & p & U & R1 & R2 & _).
  { rewrite no_envs. intros v I. exact I. }
  exists t. split; [exact H|]. unfold unstarred in U. rewrite (unstarred_same _ N42) in U. subst base. apply renamed_dget in R1. apply renamed_dget in R2. cbv zeta. rewrite <- R1. exact R2.
Qed.
Theorem names_shown : forall w lower isalpha h ws name rest j s e text, text = lit "\begin" ++ ws ++ [c_lb] ++ name ++ [c_rb] ++ rest -> blank ws -> ~ In c_rb name -> ~ In 42%N name -> strip name = name -> name <> lit "comment" ->
  j = 6 + length ws + length name + 2 -> closed_at name text j s e ->
  exists t, handle w lower isalpha (declared h) text = (declared h, Out (Some t) e) /\
    (forall h1 h2 u, (forall v, ~ In (NewTheorem name v) h) -> h = h1 ++ FloatName name u :: h2 -> (forall v, ~ In (FloatName name v) h2) -> et_name t = u) /\
    (forall h1 h2 u, h = h1 ++ NewTheorem name u :: h2 -> (forall v, ~ In (NewTheorem name v) h2) -> (forall v, ~ In (FloatName u v) h) -> et_name t = u) /\
    ((forall v, ~ In (NewTheorem name v) h) -> (forall v, ~ In (FloatName name v) h) -> et_name t = name).
Proof.
  intros w lower isalpha h ws name rest j s e text E B N N42 S NC Ej C.
  destruct (name_shown w lower isalpha h ws name rest j s e text E B N N42 S NC Ej C) as (t & H & Et). exists t. split; [exact H|]. cbv zeta in Et. rewrite Et.
  split; [|split].
  - intros h1 h2 u Nt Eh Nf. rewrite (thm_none _ _ Nt). subst h. rewrite (float_last _ _ _ _ Nf). reflexivity.
  - intros h1 h2 u Eh Nt Nf. assert (Q : dget name (es_theorems (declared h)) = Some u) by (subst h; apply thm_last; exact Nt). rewrite Q, (float_none _ _ Nf). reflexivity.
  - intros Nt Nf. rewrite (thm_none _ _ Nt), (float_none _ _ Nf). reflexivity.
Qed.
Lemma names_case : let h := [FloatName (lit "program") (lit "Prog"); NewTheorem (lit "thm") (lit "Theorem"); FloatName (lit "program") (lit "Program")] in
  (forall v, ~ In (NewTheorem (lit "program") v) h) /\ h = [FloatName (lit "program") (lit "Prog"); NewTheorem (lit "thm") (lit "Theorem")] ++ FloatName (lit "program") (lit "Program") :: [] /\ (forall v, ~ In (FloatName (lit "program") v) []).
Proof. cbv zeta. split; [|split; [reflexivity|intros v []]]. intros v [I|[I|[I|[]]]]; discriminate I. Qed.
