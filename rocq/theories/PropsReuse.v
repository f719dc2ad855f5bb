(** Property C123: a reader that is used again gives what a new one gives
    (tex_reader.py:51-54, 103-125, 185-188 and every clear method below).  Vocabulary: ReuseSpec.v. *)
From Coq Require Import List NArith ZArith PeanoNat Bool String.
From Verif Require Import PyStr Json ReuseModel ReuseSpec ReuseProofs.
Import ListNotations. Notation length := List.length. Open Scope list_scope.

(** Whatever was processed before, by this reader and by others, and whatever failed, the result
    is that of a new reader in a new process, if it does not depend on what the equation handlers keep. *)
Theorem C123_forgets_partial : forall history r p, ignores_remembered p -> fst (process_file (fold_left happen history new_world) r p) = from_scratch p.
Proof. exact forgets. Qed.
Print Assumptions C123_forgets_partial.
(** After a file that did not fail nothing of it is left in the reader. *)
Theorem C123_left_clean_partial : forall w r p v w' a, process_file w r p = (Ok v, w') -> ~ remembered a -> readers w' r a = Own (initial a).
Proof. exact left_clean. Qed.
Print Assumptions C123_left_clean_partial.
(** Another reader keeps all its own attributes. *)
Theorem C123_others : forall p w r q, q <> r -> readers (snd (exec w r p)) q = readers w q.
Proof. exact exec_others. Qed.
Print Assumptions C123_others.
(** Not everything is forgotten: an alias that is defined inside a formula is found by formulas of
    later files, even of other readers. *)
Theorem C123_alias_refuted : forall k t,
  fst (process_file (fold_left happen [File 1 (define_alias k t)] new_world) 2 (use_alias k)) = Ok (VStr t) /\ from_scratch (use_alias k) = Ok VNone.
Proof. exact remembers. Qed.
Print Assumptions C123_alias_refuted.
(** Cases: such a formula is what the hypothesis leaves out; equations are numbered from one and macros are unknown again after a history with a failure. *)
Example C123_case_alias : ~ ignores_remembered (use_alias []).
Proof. exact use_depends. Qed.
Example C123_case : ignores_remembered count_equation /\ from_scratch count_equation = Ok (VList [VInt 1%Z; VDict []]) /\
  fst (process_file (fold_left happen [File 0 count_equation; Make 1; File 1 (Write Equation_number (VInt 7%Z) (Write (Commands Parser) VNone (Throw IndexError))); File 0 (define_alias [] [])] new_world) 1 count_equation) = Ok (VList [VInt 1%Z; VDict []]).
Proof. exact count_case. Qed.
