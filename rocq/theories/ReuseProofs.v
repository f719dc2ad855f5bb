From Coq Require Import List NArith ZArith PeanoNat Lia Bool String.
From Verif Require Import PyStr Json ReuseModel ReuseSpec.
Import ListNotations. Notation length := List.length. Open Scope list_scope.

Lemma assign_all : forall l s a, fold_left assign l s a = if in_dec attr_eq_dec a l then Own (initial a) else s a.
Proof.
  induction l as [|b l IH]; intros s a; [reflexivity|]. cbn [fold_left]. rewrite IH.
  destruct (in_dec attr_eq_dec a l) as [I|I]; destruct (in_dec attr_eq_dec a (b :: l)) as [J|J].
  - reflexivity.
  - exfalso. apply J. right. exact I.
  - destruct J as [->|J]; [|contradiction]. unfold assign, put. destruct (attr_eq_dec a a); [reflexivity|contradiction].
  - unfold assign, put. destruct (attr_eq_dec a b) as [->|]; [exfalso; apply J; left; reflexivity|reflexivity].
Qed.
Lemma all_cleared : forall a, ~ remembered a -> In a (clear_parser ++ clear_builder).
Proof.
  intros a H. destruct (in_dec attr_eq_dec a (clear_parser ++ clear_builder)) as [I|I]; [exact I|]. exfalso. apply H. unfold remembered.
  destruct a as [| | | | | |o|o|o|o|o| | | | | | | | | | | | | | | | | | | | | |]; try destruct o; (exfalso; apply I; vm_compute; tauto) || (cbn [In]; tauto).
Qed.
Lemma cleared : forall w r a, ~ remembered a -> readers (clear w r) r a = Own (initial a).
Proof.
  intros w r a H. unfold clear, with_reader. cbn [readers]. rewrite Nat.eqb_refl, assign_all.
  destruct (in_dec attr_eq_dec a (clear_parser ++ clear_builder)) as [I|I]; [reflexivity|]. exfalso. apply I, all_cleared, H.
Qed.
(** two worlds whose readers have the same attributes of their own but for the remembered ones *)
Definition alike (w : world) (r : nat) (w' : world) (r' : nat) : Prop :=
  forall a, ~ remembered a -> exists v, readers w r a = Own v /\ readers w' r' a = Own v.
Lemma remembered_dec : forall a, remembered a \/ ~ remembered a.
Proof. intros a. unfold remembered. destruct (in_dec attr_eq_dec a [Eq_aliases; Pre_aliases; Pre_saved_boxes; Pre_numbered_boxes]); auto. Qed.
Lemma write_other : forall w r a v b, b <> a -> readers (write w r a v) r b = readers w r b.
Proof.
  intros w r a v b N. unfold write. destruct (readers w r a); [|reflexivity]. cbn [readers with_reader]. rewrite Nat.eqb_refl. unfold put.
  destruct (attr_eq_dec b a); [contradiction|reflexivity].
Qed.
Lemma write_own : forall w r a v x, readers w r a = Own x -> readers (write w r a v) r a = Own v.
Proof.
  intros w r a v x E. unfold write. rewrite E. cbn [readers with_reader]. rewrite Nat.eqb_refl. unfold put. destruct (attr_eq_dec a a); [reflexivity|contradiction].
Qed.
Lemma write_alike_left : forall w r w' r' a v, remembered a -> alike w r w' r' -> alike (write w r a v) r w' r'.
Proof. intros w r w' r' a v R A b N. destruct (attr_eq_dec b a) as [->|D]; [contradiction|]. rewrite write_other by exact D. apply A, N. Qed.
Lemma write_alike_right : forall w r w' r' a v, remembered a -> alike w r w' r' -> alike w r (write w' r' a v) r'.
Proof. intros w r w' r' a v R A b N. destruct (attr_eq_dec b a) as [->|D]; [contradiction|]. rewrite write_other by exact D. apply A, N. Qed.
Lemma exec_alike : forall p q, same_but p q -> forall w r w' r', alike w r w' r' -> fst (exec w r p) = fst (exec w' r' q).
Proof.
  induction 1 as [v|e|a k k' N _ IH|a v k k' N _ IH|a k q R _ IH|a k p R _ IH|a v k q R _ IH|a v k p R _ IH]; intros w r w' r' A; [reflexivity|reflexivity| | | | | |]; cbn [exec].
  - destruct (A a N) as (v & E & E'). unfold read. rewrite E, E'. apply IH, A.
  - apply IH. intros b Nb. destruct (attr_eq_dec b a) as [->|D].
    + destruct (A a Nb) as (x & E & E'). exists v. split; eapply write_own; eassumption.
    + rewrite !write_other by exact D. apply A, Nb.
  - apply IH, A.
  - apply IH, A.
  - apply IH, write_alike_left; assumption.
  - apply IH, write_alike_right; assumption.
Qed.
Lemma process_fst : forall w r p, fst (process_file w r p) = fst (exec (clear w r) r p).
Proof. intros w r p. unfold process_file. destruct (exec (clear w r) r p) as ([v|e] & w'); reflexivity. Qed.
Lemma forgets : forall history r p, ignores_remembered p -> fst (process_file (fold_left happen history new_world) r p) = from_scratch p.
Proof.
  intros history r p L. unfold from_scratch. rewrite !process_fst. apply exec_alike; [exact L|].  intros a N. exists (initial a). split; apply cleared, N.
Qed.
(** after a file that did not fail, nothing of it is left *)
Lemma left_clean : forall w r p v w' a, process_file w r p = (Ok v, w') -> ~ remembered a -> readers w' r a = Own (initial a).
Proof.
  intros w r p v w' a E N. unfold process_file in E. destruct (exec (clear w r) r p) as ([x|e] & w1); [|discriminate E]. injection E as _ <-. apply cleared, N.
Qed.
(** other readers do not notice *)
Lemma exec_others : forall p w r q, q <> r -> readers (snd (exec w r p)) q = readers w q.
Proof.
  induction p as [v|e|a k IH|a v k IH]; intros w r q D; [reflexivity|reflexivity| |]; cbn [exec].
  - apply IH, D.
  - rewrite IH by exact D. unfold write. destruct (readers w r a); [|reflexivity]. cbn [readers with_reader]. destruct (q =? r) eqn:E; [apply Nat.eqb_eq in E; contradiction|reflexivity].
Qed.

(** ** What is remembered *)
(** content_command.py:211-226 inside a formula: \defcitealias{k}{t} and \citetalias{k} *)
Definition define_alias (k t : str) : run := Read Eq_aliases (fun v => match v with VDict d => Write Eq_aliases (VDict (set k (VStr t) d)) (Return VNone) | _ => Throw TypeError end).
Definition use_alias (k : str) : run := Read Eq_aliases (fun v => match v with VDict d => Return (get k d) | _ => Throw TypeError end).
Lemma remembers : forall k t, fst (process_file (fold_left happen [File 1 (define_alias k t)] new_world) 2 (use_alias k)) = Ok (VStr t) /\ from_scratch (use_alias k) = Ok VNone.
Proof.
  intros k t. unfold from_scratch. rewrite !process_fst. split; [|reflexivity].
  cbn [fold_left happen]. unfold process_file, define_alias, use_alias.
  cbn [exec]. change (read (clear new_world 1) 1 Eq_aliases) with (VDict []). cbn [exec snd fst].
  assert (E : forall w, read (clear (clear w 1) 2) 2 Eq_aliases = read w 2 Eq_aliases) by reflexivity. rewrite E.
  change (read (write (clear new_world 1) 1 Eq_aliases (VDict (set k (VStr t) []))) 2 Eq_aliases) with (VDict (set k (VStr t) [])). cbn [set fst get lookup].
  unfold get. cbn [lookup]. assert (Q : str_eqb k k = true) by (apply str_eqb_spec; reflexivity). rewrite Q. reflexivity.
Qed.
(** a file that counts equations and keeps a macro; the preprocessor saves and looks up a box in
    a formula, whose token it does not use *)
Definition count_equation : run := Read Equation_number (fun v => match v with
  | VInt n => Write Equation_number (VInt (n + 1)%Z) (Write Pre_saved_boxes (VDict [(lit "box", VInt n)]) (Read Pre_saved_boxes (fun b =>
      Read (Commands Parser) (fun c => Write (Commands Parser) (VDict [(lit "a", VStr (lit "b"))]) (Write Saved_boxes (VDict [(lit "box", VNone)]) (Return (VList [VInt (n + 1)%Z; c])))))))
  | _ => Throw TypeError end).
Lemma count_case : ignores_remembered count_equation /\ from_scratch count_equation = Ok (VList [VInt 1%Z; VDict []]) /\
  fst (process_file (fold_left happen [File 0 count_equation; Make 1; File 1 (Write Equation_number (VInt 7%Z) (Write (Commands Parser) VNone (Throw IndexError))); File 0 (define_alias [] [])] new_world) 1 count_equation) = Ok (VList [VInt 1%Z; VDict []]).
Proof.
  split; [|split; vm_compute; reflexivity]. unfold ignores_remembered, count_equation.
  assert (N : forall a, (if in_dec attr_eq_dec a [Eq_aliases; Pre_aliases; Pre_saved_boxes; Pre_numbered_boxes] then False else True) -> ~ remembered a).
  { intros a. unfold remembered. destruct (in_dec _ a _); [intros []|auto]. }
  assert (Y : remembered Pre_saved_boxes) by (unfold remembered; cbn [In]; auto).
  apply sb_read; [apply N; vm_compute; exact I|]. intros [| |n| | |]; try apply sb_throw. apply sb_write; [apply N; vm_compute; exact I|].
  apply sb_write_left; [exact Y|]. apply sb_write_right; [exact Y|]. apply sb_read_left; [exact Y|]. intros b. apply sb_read_right; [exact Y|]. intros b'.
  apply sb_read; [apply N; vm_compute; exact I|]. intros c. apply sb_write; [apply N; vm_compute; exact I|]. apply sb_write; [apply N; vm_compute; exact I|]. apply sb_return.
Qed.
(** ... while \citetalias in a formula depends on them *)
Lemma use_depends : ~ ignores_remembered (use_alias []).
Proof.
  intros H. pose proof (forgets [File 1 (define_alias [] [120%N])] 2 (use_alias []) H) as F.
  destruct (remembers [] [120%N]) as (R1 & R2). rewrite R1, R2 in F. discriminate F.
Qed.
