(** Proofs for ReaderModel. *)
From Coq Require Import List NArith ZArith PeanoNat Lia Bool String.
From Verif Require Import PyStr ReaderModel.
Import ListNotations.
Notation length := List.length.
Notation concat := List.concat.
Open Scope list_scope.

(** Documented: FileNotFoundError, TexProcessingError; anything not an Exception passes through. *)
Definition documented (e : exc) : Prop := e = FileNotFound \/ e = TexProcessing \/ exists n, e = BaseExc n.

Lemma handled : forall A (op : M A) w w1 e, handle_file_operation op w = (w1, Exn e) -> documented e.
Proof.
  intros A op w w1 e H. unfold handle_file_operation in H. destruct (op w) as [w2 [a|x]]; [discriminate|].
  unfold documented. destruct x; cbn in H; injection H as <- <-; eauto.
Qed.
Lemma file_exc : forall V (o : file_ops V) w w1 e, process_file o w = (w1, Exn e) -> documented e.
Proof. intros V o w w1 e. apply handled. Qed.
Lemma file_world : forall V (o : file_ops V) w w1 r, process_file o w = (w1, r) -> w1 = w /\ forall x, r = Ret x -> r_temp x = None.
Proof.
  intros V o w w1 r H. unfold process_file, handle_file_operation, mbind, lift, verify_file_exists, ret, throw in H.
  destruct (o_clear o) as [?|e]; [|destruct e; cbn in H; injection H as <- <-; (split; [reflexivity|discriminate])].
  destruct (o_exists o); [|injection H as <- <-; (split; [reflexivity|discriminate])].
  destruct (o_parse o) as [t|e]; [|destruct e; cbn in H; injection H as <- <-; (split; [reflexivity|discriminate])].
  destruct (o_build o t) as [b|e]; [|destruct e; cbn in H; injection H as <- <-; (split; [reflexivity|discriminate])].
  destruct (o_colors o) as [?|e]; [|destruct e; cbn in H; injection H as <- <-; (split; [reflexivity|discriminate])].
  destruct (o_clear2 o) as [?|e]; [|destruct e; cbn in H; injection H as <- <-; (split; [reflexivity|discriminate])].
  injection H as <- <-. split; [reflexivity|]. intros x [= <-]. reflexivity.
Qed.
(** the exact outcome *)
Lemma file_missing : forall V (o : file_ops V) w, o_clear o = Ret tt -> o_exists o = false -> process_file o w = (w, Exn FileNotFound).
Proof. intros V o w H1 H2. unfold process_file, handle_file_operation, mbind, lift, verify_file_exists, throw. rewrite H1, H2. reflexivity. Qed.
Lemma file_ok : forall V (o : file_ops V) w t b, o_clear o = Ret tt -> o_exists o = true -> o_parse o = Ret t -> o_build o t = Ret b -> o_colors o = Ret tt -> o_clear2 o = Ret tt ->
  process_file o w = (w, Ret (Build_result b None)).
Proof. intros V o w t b H1 H2 H3 H4 H5 H6. unfold process_file, handle_file_operation, mbind, lift, verify_file_exists, ret. rewrite H1, H2, H3, H4, H5, H6. reflexivity. Qed.
Lemma file_fails : forall V (o : file_ops V) w t e, o_clear o = Ret tt -> o_exists o = true -> o_parse o = Ret t -> o_build o t = Exn e ->
  process_file o w = (w, Exn (match e with FileNotFound => FileNotFound | BaseExc n => BaseExc n | _ => TexProcessing end)).
Proof. intros V o w t e H1 H2 H3 H4. unfold process_file, handle_file_operation, mbind, lift, verify_file_exists, ret. rewrite H1, H2, H3, H4. destruct e; reflexivity. Qed.

Lemma process_exc : forall V stuck ex clean (i : input V) w w1 e, process stuck ex clean i w = (w1, Exn e) -> documented e.
Proof.
  intros V stuck ex clean i w w1 e H. unfold process in H. unfold mbind at 1 in H. destruct ex; cbn [verify_file_exists] in H.
  - unfold ret in H. apply handled in H. exact H.
  - unfold throw in H. injection H as <- <-. left. reflexivity.
Qed.
Lemma compressed_exc : forall V stuck clean (o : arch_ops V) w w1 e, process_compressed stuck clean o w = (w1, Exn e) -> e = FileNotFound \/ e = RuntimeErr \/ exists n, e = BaseExc n.
Proof.
  intros V stuck clean o w w1 e H. unfold process_compressed in H. destruct (a_exists o); [|injection H as <- <-; left; reflexivity].
  destruct (with_archive _ _ _ _ _ w) as [w2 [r|x]]; [discriminate|]. injection H as <- <-. destruct x; cbn; eauto.
Qed.

Lemma fresh_new : forall w, ~ In (fresh w) w.
Proof. intros w H. unfold fresh in H. pose proof (proj1 (list_max_le w (list_max w)) (le_n _)) as F. rewrite Forall_forall in F. apply F in H. lia. Qed.
Lemma remove_fresh : forall w, remove Nat.eq_dec (fresh w) (fresh w :: w) = w.
Proof. intros w. cbn [remove]. destruct (Nat.eq_dec (fresh w) (fresh w)); [|congruence]. apply notin_remove. apply fresh_new. Qed.

Lemma archive_step : forall A B stuck clean (setup : outcome A) (body : A -> nat -> M B) w w1 r,
  (match setup with Ret m => body m (fresh w) (fresh w :: w) | Exn e => (fresh w :: w, Exn e) end) = (w1, r) ->
  with_archive stuck clean (Ret tt) setup body w =
    if clean then match rmtree stuck (fresh w) w1 with (w2, Ret _) => (w2, r) | (w2, Exn e) => (w2, Exn e) end else (w1, r).
Proof. intros A B stuck clean setup body w w1 r E. unfold with_archive, mbind, mkdtemp. destruct setup as [m|e].
  - etransitivity; [|reflexivity]. unfold M, world in *. rewrite E. reflexivity.
  - injection E as <- <-. reflexivity.
Qed.
Lemma archive_world : forall A V (clean : bool) mk (setup : outcome A) (o : file_ops V) w w1 r,
  with_archive (fun _ => None) clean mk setup (fun _ d => run output <- process_file o; ret (Build_result (r_value output) (Some d))) w = (w1, r) ->
  (clean = true -> w1 = w) /\ (clean = false -> w1 = w \/ w1 = fresh w :: w) /\
  (forall x, r = Ret x -> r_temp x = Some (fresh w) /\ (clean = false -> w1 = fresh w :: w)).
Proof.
  intros A V clean mk setup o w w1 r H. destruct mk as [[]|e]; [|unfold with_archive, mbind, mkdtemp in H; injection H as <- <-; repeat split; auto; discriminate].
  assert (B : exists r1, (match setup with Ret m => (run output <- process_file o; ret (Build_result (r_value output) (Some (fresh w)))) (fresh w :: w) | Exn e => (fresh w :: w, Exn e) end) = (fresh w :: w, r1)
     /\ forall x, r1 = Ret x -> r_temp x = Some (fresh w)).
  { destruct setup as [m|e]; [|eexists; split; [reflexivity|discriminate]]. unfold mbind. destruct (process_file o (fresh w :: w)) as [w2 r2] eqn:E.
    apply file_world in E as (-> & _). destruct r2 as [x|e]; eexists; (split; [reflexivity|]); [intros y [= <-]; reflexivity|discriminate]. }
  destruct B as (r1 & B & R). rewrite (archive_step A (result V) (fun _ => None) clean setup _ w (fresh w :: w) r1) in H by exact B. destruct clean.
  - unfold rmtree in H. destruct (in_dec Nat.eq_dec (fresh w) (fresh w :: w)) as [_|N]; [|exfalso; apply N; now left].
    rewrite remove_fresh in H. injection H as <- <-. repeat split; try congruence. now apply R.
  - injection H as <- <-. repeat split; try congruence; auto. 
Qed.
Lemma compressed_world : forall V clean (o : arch_ops V) w w1 r, process_compressed (fun _ => None) clean o w = (w1, r) ->
  (clean = true -> w1 = w) /\ (clean = false -> w1 = w \/ w1 = fresh w :: w) /\
  (forall x, r = Ret x -> r_temp x = Some (fresh w) /\ (clean = false -> w1 = fresh w :: w)).
Proof.
  intros V clean o w w1 r H. unfold process_compressed in H. destruct (a_exists o); [|injection H as <- <-; repeat split; auto; discriminate].
  destruct (with_archive _ _ _ _ _ w) as [w2 r2] eqn:E. apply archive_world in E as (A & B & C). destruct r2 as [x|e]; injection H as <- <-.
  - split; [exact A|]. split; [exact B|]. exact C.
  - split; [exact A|]. split; [exact B|]. discriminate.
Qed.
Lemma c34_clean : forall V (o : arch_ops V) w, fst (process_compressed (fun _ => None) true o w) = w.
Proof. intros V o w. destruct (process_compressed _ true o w) as [w1 r] eqn:E. apply compressed_world in E as (A & _). cbn. auto. Qed.
(** any sequence of calls *)
Fixpoint history {V} (os : list (arch_ops V)) (w : world) : world :=
  match os with [] => w | o :: r => history r (fst (process_compressed (fun _ => None) true o w)) end.
Lemma c34_history : forall V (os : list (arch_ops V)) w, history os w = w.
Proof. intros V os. induction os as [|o os IH]; intros w; [reflexivity|]. cbn [history]. rewrite c34_clean. apply IH. Qed.

Lemma cleanup_own : forall V (r : result V) w d, r_temp r = Some d -> In d w -> cleanup (fun _ => None) r w = (remove Nat.eq_dec d w, Ret (Build_result (r_value r) None)).
Proof. intros V r w d E H. unfold cleanup. rewrite E. unfold mbind, rmtree. destruct (in_dec Nat.eq_dec d w); [|contradiction]. reflexivity. Qed.
Lemma c34_kept : forall V (o : arch_ops V) w w1 r, process_compressed (fun _ => None) false o w = (w1, Ret r) ->
  exists d, r_temp r = Some d /\ ~ In d w /\ w1 = d :: w /\ cleanup (fun _ => None) r w1 = (w, Ret (Build_result (r_value r) None)).
Proof.
  intros V o w w1 r H. apply compressed_world in H as (_ & _ & C). destruct (C r eq_refl) as (T & W). specialize (W eq_refl). exists (fresh w).
  split; [exact T|]. split; [apply fresh_new|]. split; [exact W|]. rewrite (cleanup_own V r w1 (fresh w) T); [|rewrite W; now left].
  rewrite W. now rewrite remove_fresh.
Qed.
Lemma c34_process : forall V ex (i : input V) w w1 r, process (fun _ => None) ex true i w = (w1, Ret r) -> w1 = w /\ r_temp r = None.
Proof.
  intros V ex i w w1 r H. unfold process in H. unfold mbind at 1 in H. destruct ex; cbn [verify_file_exists] in H; [|discriminate].
  unfold ret in H at 1. unfold handle_file_operation at 1 in H.
  destruct i as [e m o|o|o].
  - destruct (process_folder e m o w) as [w2 [x|x]] eqn:E; [|destruct x; discriminate]. injection H as <- <-.
    unfold process_folder, handle_file_operation at 1 in E. unfold mbind, lift, verify_file_exists, ret, throw in E.
    destruct e; [|discriminate]. destruct m as [?|y]; [|destruct y; discriminate].
    destruct (process_file o w) as [w3 [y|y]] eqn:F; [|destruct y; discriminate]. injection E as <- <-. apply file_world in F as (-> & F). split; [reflexivity|]. now apply F.
  - unfold mbind in H. destruct (process_compressed (fun _ => None) false o w) as [w2 [x|x]] eqn:E; [|destruct x; discriminate].
    apply c34_kept in E as (d & T & N & W & C). rewrite C in H. injection H as <- <-. split; reflexivity.
  - destruct (process_file o w) as [w2 [x|x]] eqn:E; [|destruct x; discriminate]. injection H as <- <-. apply file_world in E as (-> & F). split; [reflexivity|]. now apply F.
Qed.
Definition good_file : file_ops nat := {| o_clear := Ret tt; o_exists := true; o_parse := Ret 1; o_build := fun t => Ret (S t); o_colors := Ret tt; o_clear2 := Ret tt |}.
Definition bad_file : file_ops nat := {| o_clear := Ret tt; o_exists := true; o_parse := Ret 1; o_build := fun _ => Exn (OtherExc 0); o_colors := Ret tt; o_clear2 := Ret tt |}.
Lemma c34_leak : exists (o : arch_ops nat) w, process (fun _ => None) true true (IArchive o) w = (fresh w :: w, Exn TexProcessing).
Proof. exists {| a_exists := true; a_mk := Ret tt; a_setup := Ret tt; a_file := bad_file |}, []. reflexivity. Qed.
Lemma c34_stale : exists (o : arch_ops nat) w w1 r, process_compressed (fun _ => None) true o w = (w1, Ret r) /\ cleanup (fun _ => None) r w1 = (w1, Exn FileNotFound).
Proof. exists {| a_exists := true; a_mk := Ret tt; a_setup := Ret tt; a_file := good_file |}, [], [], (Build_result 2 (Some 1)). split; reflexivity. Qed.
(** the stale directory is there in every successful call *)
Lemma c34_always_stale : forall V (o : arch_ops V) w w1 r, process_compressed (fun _ => None) true o w = (w1, Ret r) -> cleanup (fun _ => None) r w1 = (w1, Exn FileNotFound).
Proof.
  intros V o w w1 r H. apply compressed_world in H as (A & _ & C). specialize (A eq_refl). subst w1. destruct (C r eq_refl) as (T & _).
  unfold cleanup. rewrite T. unfold mbind, rmtree. destruct (in_dec Nat.eq_dec (fresh w) w) as [X|_]; [now apply fresh_new in X|reflexivity].
Qed.
Lemma c34_twice : forall V stuck (r : result V) w w1 r1, cleanup stuck r w = (w1, Ret r1) -> r_temp r1 = None /\ cleanup stuck r1 w1 = (w1, Ret r1).
Proof.
  intros V stuck r w w1 r1 H. unfold cleanup in H. destruct (r_temp r) as [d|] eqn:E.
  - unfold mbind, rmtree in H. destruct (in_dec Nat.eq_dec d w); [|discriminate]. destruct (stuck d); [discriminate|]. injection H as <- <-. split; reflexivity.
  - injection H as <- <-. split; [exact E|]. unfold cleanup. rewrite E. reflexivity.
Qed.
Lemma json_exc : forall V (dump : outcome V) mkd wr w w1 e, (to_json dump w = (w1, Exn e) -> documented e) /\ (save_to_json dump mkd wr w = (w1, Exn e) -> documented e).
Proof. intros. split; apply handled. Qed.
