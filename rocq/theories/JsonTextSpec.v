(** JSON texts (RFC 8259) and the data they denote.  Numbers are integers.
    An object is read as the list of its members. *)
From Coq Require Import List NArith ZArith PeanoNat Bool String.
From Verif Require Import PyStr Json.
Import ListNotations. Notation length := List.length. Notation concat := List.concat. Open Scope list_scope.

Definition digit (x : ch) : bool := ((48 <=? x) && (x <=? 57))%N.
Definition digits_value (ds : str) : nat := fold_left (fun n x => 10 * n + (N.to_nat x - 48)) ds 0.
(** digits without a leading zero *)
Definition number (ds : str) : Prop := ds <> [] /\ forallb digit ds = true /\ (forall r, ds = 48%N :: r -> r = []).
Definition white (w : str) : Prop := forall x, In x w -> In x [32%N; 9%N; 10%N; 13%N].
Definition hex_value (x : ch) : option N :=
  (if (48 <=? x) && (x <=? 57) then Some (x - 48) else if (97 <=? x) && (x <=? 102) then Some (x - 87)
   else if (65 <=? x) && (x <=? 70) then Some (x - 55) else None)%N.
(** backslash followed by the first character denotes the second *)
Definition short_escapes : list (ch * ch) :=
  [(34, 34); (92, 92); (47, 47); (98, 8); (102, 12); (110, 10); (114, 13); (116, 9)]%N.
(** [chars t s]: between quotes, [t] denotes [s] *)
Inductive chars : str -> str -> Prop :=
| chars_end : chars [] []
| chars_plain : forall x t s, (32 <= x)%N -> x <> 34%N -> x <> 92%N -> chars t s -> chars (x :: t) (x :: s)
| chars_short : forall e x t s, In (e, x) short_escapes -> chars t s -> chars (92%N :: e :: t) (x :: s)
| chars_code : forall a b c d va vb vc vd t s, hex_value a = Some va -> hex_value b = Some vb -> hex_value c = Some vc -> hex_value d = Some vd ->
    chars t s -> chars (92%N :: 117%N :: a :: b :: c :: d :: t) ((4096 * va + 256 * vb + 16 * vc + vd)%N :: s).
Inductive denotes : str -> val -> Prop :=
| d_null : denotes (lit "null") VNone
| d_true : denotes (lit "true") (VBool true)
| d_false : denotes (lit "false") (VBool false)
| d_int : forall ds, number ds -> denotes ds (VInt (Z.of_nat (digits_value ds)))
| d_negative : forall ds, number ds -> denotes (lit "-" ++ ds) (VInt (- Z.of_nat (digits_value ds)))
| d_string : forall t s, chars t s -> denotes ([34%N] ++ t ++ [34%N]) (VStr s)
| d_empty_array : forall w, white w -> denotes (lit "[" ++ w ++ lit "]") (VList [])
| d_array : forall t l, elements t l -> denotes (lit "[" ++ t ++ lit "]") (VList l)
| d_empty_object : forall w, white w -> denotes (lit "{" ++ w ++ lit "}") (VDict [])
| d_object : forall t d, members t d -> denotes (lit "{" ++ t ++ lit "}") (VDict d)
with elements : str -> list val -> Prop :=
| e_last : forall w1 t w2 v, white w1 -> white w2 -> denotes t v -> elements (w1 ++ t ++ w2) [v]
| e_more : forall w1 t w2 v r l, white w1 -> white w2 -> denotes t v -> elements r l -> elements (w1 ++ t ++ w2 ++ lit "," ++ r) (v :: l)
with members : str -> list (str * val) -> Prop :=
| m_last : forall w1 kt k w2 w3 t w4 v, white w1 -> white w2 -> white w3 -> white w4 -> chars kt k -> denotes t v ->
    members (w1 ++ [34%N] ++ kt ++ [34%N] ++ w2 ++ lit ":" ++ w3 ++ t ++ w4) [(k, v)]
| m_more : forall w1 kt k w2 w3 t w4 v r d, white w1 -> white w2 -> white w3 -> white w4 -> chars kt k -> denotes t v -> members r d ->
    members (w1 ++ [34%N] ++ kt ++ [34%N] ++ w2 ++ lit ":" ++ w3 ++ t ++ w4 ++ lit "," ++ r) ((k, v) :: d).
Scheme denotes_mut := Induction for denotes Sort Prop
with elements_mut := Induction for elements Sort Prop
with members_mut := Induction for members Sort Prop.
Combined Scheme json_ind from denotes_mut, elements_mut, members_mut.
(** [inside s v]: the string [s] is a value or a key somewhere in [v]. *)
Inductive inside (s : str) : val -> Prop :=
| inside_here : inside s (VStr s)
| inside_list : forall v l, In v l -> inside s v -> inside s (VList l)
| inside_key : forall v d, In (s, v) d -> inside s (VDict d)
| inside_dict : forall k v d, In (k, v) d -> inside s v -> inside s (VDict d).
(** the code points that UTF-8 cannot encode *)
Definition surrogate_code (x : ch) : Prop := (55296 <= x <= 57343)%N.
