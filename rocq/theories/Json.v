(** Python values as the parser and the builder exchange them: None, booleans,
    integers, strings, lists and dicts.  Dicts are association lists in
    insertion order.  Object identity and sharing are not modelled: a value is
    a tree.  Python exceptions are results. *)
From Coq Require Import List NArith ZArith PeanoNat Lia Bool String.
From Verif Require Import PyStr.
Import ListNotations.
Notation length := List.length.
Notation concat := List.concat.
Open Scope list_scope.

Inductive val :=
| VNone
| VBool (b : bool)
| VInt (z : Z)
| VStr (s : str)
| VList (l : list val)
| VDict (d : list (str * val)).
Definition dict := list (str * val).

(** Exceptions of the runtime that the modelled code can raise. *)
Inductive exn := KeyError | TypeError | ValueError | AttributeError | IndexError | NoFuel.
Inductive res (A : Type) := Ok (a : A) | Raise (e : exn).
Arguments Ok {A}. Arguments Raise {A}.
Definition bind {A B} (x : res A) (f : A -> res B) : res B :=
  match x with Ok a => f a | Raise e => Raise e end.
Notation "'do' x <- e ; f" := (bind e (fun x => f)) (at level 200, x pattern, e at level 100, f at level 200).

(** [d.get(k)] as an option, [d.get(k)] with default None, [d[k]] *)
Fixpoint lookup (k : str) (d : dict) : option val :=
  match d with [] => None | (k', v) :: r => if str_eqb k k' then Some v else lookup k r end.
Definition get (k : str) (d : dict) : val := match lookup k d with Some v => v | None => VNone end.
Definition getitem (k : str) (d : dict) : res val :=
  match lookup k d with Some v => Ok v | None => Raise KeyError end.
(** [d[k] = v] *)
Fixpoint set (k : str) (v : val) (d : dict) : dict :=
  match d with [] => [(k, v)] | (k', w) :: r => if str_eqb k k' then (k', v) :: r else (k', w) :: set k v r end.
(** [del d[k]] when present *)
Fixpoint remove (k : str) (d : dict) : dict :=
  match d with [] => [] | (k', w) :: r => if str_eqb k k' then remove k r else (k', w) :: remove k r end.

(** [bool(v)] *)
Definition truthy (v : val) : bool :=
  match v with
  | VNone => false
  | VBool b => b
  | VInt z => negb (Z.eqb z 0)
  | VStr s => negb (str_eqb s [])
  | VList l => match l with [] => false | _ => true end
  | VDict d => match d with [] => false | _ => true end
  end.

(** [a == b]; the numeric identification of True with 1 is not modelled. *)
Fixpoint val_eqb (a b : val) {struct a} : bool :=
  match a, b with
  | VNone, VNone => true
  | VBool x, VBool y => Bool.eqb x y
  | VInt x, VInt y => Z.eqb x y
  | VStr x, VStr y => str_eqb x y
  | VList x, VList y =>
      (fix go (x y : list val) := match x, y with
         | [], [] => true
         | a :: x', b :: y' => val_eqb a b && go x' y'
         | _, _ => false end) x y
  | VDict x, VDict y =>
      (fix go (x y : list (str * val)) := match x, y with
         | [], [] => true
         | (k, a) :: x', (k', b) :: y' => str_eqb k k' && val_eqb a b && go x' y'
         | _, _ => false end) x y
  | _, _ => false
  end.

Definition is_str (v : val) (s : string) : bool :=
  match v with VStr t => str_eqb t (lit s) | _ => false end.

Fixpoint vsize (v : val) : nat :=
  match v with
  | VList l => S ((fix go l := match l with [] => 0 | x :: r => vsize x + go r end) l)
  | VDict d => S ((fix go (d : list (str * val)) := match d with [] => 0 | (_, x) :: r => vsize x + go r end) d)
  | _ => 1
  end.
Fixpoint lsize (l : list val) : nat := match l with [] => 0 | x :: r => vsize x + lsize r end.
Fixpoint dsize (d : dict) : nat := match d with [] => 0 | (_, x) :: r => vsize x + dsize r end.

(* ------------------------------------------------------------------ *)
(** * Lemmas *)
Lemma vsize_list : forall l, vsize (VList l) = S (lsize l).
Proof. reflexivity. Qed.
Lemma vsize_dict : forall d, vsize (VDict d) = S (dsize d).
Proof. reflexivity. Qed.
Lemma vsize_pos : forall v, 0 < vsize v.
Proof. destruct v; cbn; lia. Qed.
Lemma lookup_size : forall k d v, lookup k d = Some v -> vsize v <= dsize d.
Proof.
  induction d as [|[k' w] d IH]; cbn; intros v H; [discriminate|].
  destruct (str_eqb k k'); [injection H as <-; lia|]. specialize (IH _ H). lia.
Qed.
Lemma in_lsize : forall v l, In v l -> vsize v <= lsize l.
Proof. induction l as [|x l IH]; cbn; intros H; [destruct H|]. destruct H as [->|H]; [lia|]. specialize (IH H). lia. Qed.

Lemma str_eqb_neq : forall a b, a <> b -> str_eqb a b = false.
Proof. intros a b H. destruct (str_eqb a b) eqn:E; [|reflexivity]. apply str_eqb_spec in E. congruence. Qed.
Lemma str_eqb_sym : forall a b, str_eqb a b = str_eqb b a.
Proof.
  intros a b. destruct (str_eqb a b) eqn:E.
  - apply str_eqb_spec in E. subst. symmetry. apply str_eqb_refl.
  - destruct (str_eqb b a) eqn:E'; [|reflexivity]. apply str_eqb_spec in E'. subst. rewrite str_eqb_refl in E. discriminate.
Qed.

Lemma lookup_set_same : forall k v d, lookup k (set k v d) = Some v.
Proof. induction d as [|[k' w] d IH]; cbn; [rewrite str_eqb_refl; reflexivity|]. destruct (str_eqb k k') eqn:E; cbn; rewrite E; [reflexivity|exact IH]. Qed.
Lemma lookup_set_other : forall k k' v d, k <> k' -> lookup k (set k' v d) = lookup k d.
Proof.
  intros k k' v d H. induction d as [|[k0 w] d IH]; cbn; [rewrite str_eqb_neq by exact H; reflexivity|].
  destruct (str_eqb k' k0) eqn:E; cbn; [|rewrite IH; reflexivity].
  apply str_eqb_spec in E. subst. rewrite str_eqb_neq by exact H. reflexivity.
Qed.
Lemma remove_set_same : forall k v d, remove k (set k v d) = remove k d.
Proof. induction d as [|[k' w] d IH]; cbn; [rewrite str_eqb_refl; reflexivity|]. destruct (str_eqb k k') eqn:E; cbn; rewrite E; [reflexivity|rewrite IH; reflexivity]. Qed.
Lemma remove_set_other : forall k k' v d, k <> k' -> remove k (set k' v d) = set k' v (remove k d).
Proof.
  intros k k' v d H. induction d as [|[k0 w] d IH]; cbn; [rewrite str_eqb_neq by exact H; reflexivity|].
  destruct (str_eqb k' k0) eqn:E; cbn.
  - apply str_eqb_spec in E. subst. rewrite (str_eqb_neq k k0) by exact H. cbn. rewrite str_eqb_refl. reflexivity.
  - destruct (str_eqb k k0) eqn:E'; cbn; [exact IH|]. rewrite E, IH. reflexivity.
Qed.
Lemma lookup_remove_other : forall k k' d, k <> k' -> lookup k (remove k' d) = lookup k d.
Proof.
  intros k k' d H. induction d as [|[k0 w] d IH]; cbn; [reflexivity|].
  destruct (str_eqb k' k0) eqn:E; cbn; [|rewrite IH; reflexivity].
  apply str_eqb_spec in E. subst. rewrite str_eqb_neq by exact H. exact IH.
Qed.
Lemma remove_remove : forall k d, remove k (remove k d) = remove k d.
Proof. induction d as [|[k' w] d IH]; cbn; [reflexivity|]. destruct (str_eqb k k') eqn:E; cbn; [exact IH|]. rewrite E, IH. reflexivity. Qed.
Lemma remove_absent : forall k d, lookup k d = None -> remove k d = d.
Proof. induction d as [|[k' w] d IH]; cbn; intros H; [reflexivity|]. destruct (str_eqb k k'); [discriminate|]. rewrite IH by exact H. reflexivity. Qed.

Lemma get_set_same : forall k v d, get k (set k v d) = v.
Proof. intros. unfold get. rewrite lookup_set_same. reflexivity. Qed.
Lemma get_set_other : forall k k' v d, k <> k' -> get k (set k' v d) = get k d.
Proof. intros. unfold get. rewrite lookup_set_other by assumption. reflexivity. Qed.
Lemma get_remove_other : forall k k' d, k <> k' -> get k (remove k' d) = get k d.
Proof. intros. unfold get. rewrite lookup_remove_other by assumption. reflexivity. Qed.

Lemma is_str_true : forall v s, is_str v s = true <-> v = VStr (lit s).
Proof. intros v s. destruct v; cbn; split; intros H; try discriminate; [apply str_eqb_spec in H; congruence|]. injection H as ->. apply str_eqb_refl. Qed.

(** induction on values *)
Lemma val_size_ind : forall P : val -> Prop, (forall v, (forall w, vsize w < vsize v -> P w) -> P v) -> forall v, P v.
Proof.
  intros P H v. assert (G : forall n v, vsize v < n -> P v).
  { induction n as [|n IH]; intros w Hw; [lia|]. apply H. intros u Hu. apply IH. lia. }
  apply (G (S (vsize v))). lia.
Qed.

Lemma val_eqb_spec : forall a b, val_eqb a b = true <-> a = b.
Proof.
  induction a as [a IH] using val_size_ind. intros b.
  destruct a; destruct b; cbn; split; intros H; try discriminate; try reflexivity;
    try (injection H as H; subst).
  - apply eqb_prop in H. congruence.
  - apply eqb_reflx.
  - apply Z.eqb_eq in H. congruence.
  - apply Z.eqb_refl.
  - apply str_eqb_spec in H. congruence.
  - apply str_eqb_refl.
  - f_equal. rewrite vsize_list in IH. revert l0 H. induction l as [|x l IHl]; intros [|y l0] H; try discriminate; [reflexivity|].
    apply andb_true_iff in H as [H1 H2]. apply IH in H1; [|cbn; lia]. subst y. f_equal. apply IHl; [|exact H2].
    intros w Hw. apply IH. cbn. lia.
  - rewrite vsize_list in IH. induction l0 as [|x l IHl]; [reflexivity|]. apply andb_true_iff. split.
    + apply IH; [cbn; lia|reflexivity].
    + apply IHl. intros w Hw. apply IH. cbn. lia.
  - f_equal. rewrite vsize_dict in IH. revert d0 H. induction d as [|[k x] d IHl]; intros [|[k' y] d0] H; try discriminate; [reflexivity|].
    apply andb_true_iff in H as [H1 H2]. apply andb_true_iff in H1 as [H0 H1]. apply str_eqb_spec in H0.
    apply IH in H1; [|cbn; lia]. subst. f_equal. apply IHl; [|exact H2]. intros w Hw. apply IH. cbn. lia.
  - rewrite vsize_dict in IH. induction d0 as [|[k x] d IHl]; [reflexivity|]. rewrite str_eqb_refl. cbn [andb]. apply andb_true_iff. split.
    + apply IH; [cbn; lia|reflexivity].
    + apply IHl. intros w Hw. apply IH. cbn. lia.
Qed.
