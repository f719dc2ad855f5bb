(** Specification of macro parameters in a definition text. *)
From Coq Require Import List NArith PeanoNat Bool String.
From Verif Require Import PyStr.
Import ListNotations.
Notation length := List.length.
Notation concat := List.concat.
Open Scope list_scope.

Inductive piece :=
| PChar (c : ch)                       (** an ordinary character *)
| PEsc                                  (** an escaped hash \# *)
| PParam (hashes : nat) (digits : str). (** a parameter ##..#12 *)

Definition render (p : piece) : str :=
  match p with
  | PChar c => [c]
  | PEsc => [c_bs; c_hash]
  | PParam h d => repeat c_hash h ++ d
  end.
Definition render_all (ps : list piece) : str := concat (map render ps).

(** The text begins with a parameter. *)
Definition param_start (s : str) : Prop :=
  exists h d r, 0 < h /\ d <> [] /\ forallb isdigit d = true /\ s = repeat c_hash h ++ d ++ r.
Definition esc_start (s : str) : Prop := exists r, s = [c_bs; c_hash] ++ r.

(** Reading a definition from left to right; digits are read maximally. *)
Inductive reads_as : str -> list piece -> Prop :=
| ra_nil : reads_as [] []
| ra_esc : forall s ps, reads_as s ps -> reads_as ([c_bs; c_hash] ++ s) (PEsc :: ps)
| ra_param : forall h d s ps,
    0 < h -> d <> [] -> forallb isdigit d = true ->
    (forall x r, s = x :: r -> isdigit x = false) ->
    reads_as s ps -> reads_as (repeat c_hash h ++ d ++ s) (PParam h d :: ps)
| ra_char : forall c s ps,
    ~ esc_start (c :: s) -> ~ param_start (c :: s) ->
    reads_as s ps -> reads_as (c :: s) (PChar c :: ps).

(** The hash counts of the parameters, in order. *)
Fixpoint params (ps : list piece) : list nat :=
  match ps with [] => [] | PParam h _ :: r => h :: params r | _ :: r => params r end.

(** The smallest number of hashes of a parameter. *)
Definition min_hashes_of (ps : list piece) (m : nat) : Prop :=
  (exists d, In (PParam m d) ps) /\ forall h d, In (PParam h d) ps -> m <= h.

Definition head_is (p : ch -> bool) (s : str) : bool := match s with x :: _ => p x | [] => false end.
Definition last_is (p : ch -> bool) (s : str) : bool := head_is p (rev s).

(** Simultaneous substitution: a parameter of the smallest hash count with
    number k in 1..n becomes the k-th argument (an absent argument is empty; in
    math mode a non-empty argument next to a letter gets braces); everything
    else is copied.  [before] is the text already read. *)
Fixpoint subst_pieces (isalpha : ch -> bool) (math : bool) (args : list (option str)) (m : nat)
    (before : str) (ps : list piece) : str :=
  match ps with
  | [] => []
  | p :: rest =>
      let copy := render p in
      (match p with
       | PParam h d =>
           match int_of_str d with
           | Some (S k) =>
               match (if Nat.eqb h m then nth_error args k else None) with
               | Some (Some a) =>
                   if math && (last_is isalpha before || head_is isalpha (render_all rest)) && negb (str_eqb a [])
                   then [c_lb] ++ a ++ [c_rb] else a
               | Some None => []
               | None => copy
               end
           | _ => copy
           end
       | _ => copy
       end) ++ subst_pieces isalpha math args m (before ++ copy) rest
  end.

(** No parameter is numbered zero (#0, #00, ...). *)
Definition no_zero (ps : list piece) : Prop := forall h d, In (PParam h d) ps -> int_of_str d <> Some 0.
