(** Specification of key-value settings. *)
From Coq Require Import List NArith PeanoNat Bool String.
From Verif Require Import PyStr DelimSpec KeyvalModel.
Import ListNotations. Notation length := List.length. Notation concat := List.concat. Open Scope list_scope.

Definition good_key (k : str) : Prop := k <> [] /\ forall x, In x k -> x <> c_eq /\ x <> c_comma /\ isspace x = false.
(** what one comma-separated piece sets *)
Inductive setting : str -> option (str * str) -> Prop :=
| set_nothing : forall w, blank w -> setting w None
| set_flag : forall a k b, blank a -> good_key k -> blank b -> setting (a ++ k ++ b) (Some (k, lit "true"))
| set_value : forall a k v, blank a -> good_key k -> v <> [] -> ~ In c_comma v -> setting (a ++ k ++ [c_eq] ++ v) (Some (k, strip v)).
Fixpoint given {A} (l : list (option A)) : list A := match l with [] => [] | None :: r => given r | Some x :: r => x :: given r end.

(** the text [arg] is a sequence of brace groups with the given contents, [n] characters long *)
Definition args_are (arg : str) (contents : list str) (n : nat) : Prop := groups_at c_lb c_rb arg contents n.
(** [v] is the last value given to [k] *)
Definition last_value (k : str) (kvs : list (str * str)) (v : str) : Prop :=
  exists l1 l2, kvs = l1 ++ (k, v) :: l2 /\ ~ In k (map fst l2).
