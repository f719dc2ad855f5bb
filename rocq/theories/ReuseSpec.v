(** Which computations a reader forgets. *)
From Coq Require Import List Bool.
From Verif Require Import PyStr Json ReuseModel.
Import ListNotations. Open Scope list_scope.

(** the attributes of the handlers inside the two equation handlers that nothing clears *)
Definition remembered (a : attr) : Prop := In a [Eq_aliases; Pre_aliases; Pre_saved_boxes; Pre_numbered_boxes].
(** [same_but p q]: [p] and [q] do the same apart from reading and writing remembered
    attributes, whatever they find there. *)
Inductive same_but : run -> run -> Prop :=
| sb_return : forall v, same_but (Return v) (Return v)
| sb_throw : forall e, same_but (Throw e) (Throw e)
| sb_read : forall a k k', ~ remembered a -> (forall v, same_but (k v) (k' v)) -> same_but (Read a k) (Read a k')
| sb_write : forall a v k k', ~ remembered a -> same_but k k' -> same_but (Write a v k) (Write a v k')
| sb_read_left : forall a k q, remembered a -> (forall v, same_but (k v) q) -> same_but (Read a k) q
| sb_read_right : forall a k p, remembered a -> (forall v, same_but p (k v)) -> same_but p (Read a k)
| sb_write_left : forall a v k q, remembered a -> same_but k q -> same_but (Write a v k) q
| sb_write_right : forall a v k p, remembered a -> same_but p k -> same_but p (Write a v k).
(** What [p] does and returns does not depend on what it finds in the remembered attributes. *)
Definition ignores_remembered (p : run) : Prop := same_but p p.
(** the result of processing a file with a new reader in a new process *)
Definition from_scratch (p : run) : res val := fst (process_file new_world 0 p).
