(** Properties C33 and C34, about the model ReaderModel.v of tex_reader.py: every operation underneath
    may return anything or raise anything. *)
From Coq Require Import List NArith ZArith PeanoNat Lia Bool String.
From Verif Require Import PyStr ReaderModel ReaderProofs.
Import ListNotations.
Notation length := List.length.
Notation concat := List.concat.
Open Scope list_scope.

(** C33 *)
Theorem C33_process_file : forall V (o : file_ops V) w w1 e, process_file o w = (w1, Exn e) ->
  e = FileNotFound \/ e = TexProcessing \/ exists n, e = BaseExc n.
Proof. exact file_exc. Qed.
Print Assumptions C33_process_file.
Theorem C33_process : forall V stuck ex clean (i : input V) w w1 e, process stuck ex clean i w = (w1, Exn e) ->
  e = FileNotFound \/ e = TexProcessing \/ exists n, e = BaseExc n.
Proof. exact process_exc. Qed.
Print Assumptions C33_process.
Theorem C33_json : forall V (dump : outcome V) mkd wr w w1 e,
  (to_json dump w = (w1, Exn e) -> e = FileNotFound \/ e = TexProcessing \/ exists n, e = BaseExc n) /\
  (save_to_json dump mkd wr w = (w1, Exn e) -> e = FileNotFound \/ e = TexProcessing \/ exists n, e = BaseExc n).
Proof. exact json_exc. Qed.
Print Assumptions C33_json.
(** process_compressed raises RuntimeError instead, also when the archive has no main file. *)
Theorem C33_process_compressed : forall V stuck clean (o : arch_ops V) w w1 e, process_compressed stuck clean o w = (w1, Exn e) ->
  e = FileNotFound \/ e = RuntimeErr \/ exists n, e = BaseExc n.
Proof. exact compressed_exc. Qed.
Print Assumptions C33_process_compressed.
(** The outcome itself: missing file, success, failing builder. *)
Theorem C33_missing : forall V (o : file_ops V) w, o_clear o = Ret tt -> o_exists o = false -> process_file o w = (w, Exn FileNotFound).
Proof. exact file_missing. Qed.
Theorem C33_success : forall V (o : file_ops V) w t b, o_clear o = Ret tt -> o_exists o = true -> o_parse o = Ret t -> o_build o t = Ret b ->
  o_colors o = Ret tt -> o_clear2 o = Ret tt -> process_file o w = (w, Ret (Build_result b None)).
Proof. exact file_ok. Qed.
Theorem C33_failure : forall V (o : file_ops V) w t e, o_clear o = Ret tt -> o_exists o = true -> o_parse o = Ret t -> o_build o t = Exn e ->
  process_file o w = (w, Exn (match e with FileNotFound => FileNotFound | BaseExc n => BaseExc n | _ => TexProcessing end)).
Proof. exact file_fails. Qed.
Print Assumptions C33_failure.
Example C33_case : process_file bad_file [] = ([], Exn TexProcessing) /\ process_file good_file [] = ([], Ret (Build_result 2 None)).
Proof. split; reflexivity. Qed.

(** C34.  The state is the list of existing temporary directories; (fun _ => None) says that
    shutil.rmtree can remove every directory that exists. *)
Theorem C34_compressed_removes : forall V (o : arch_ops V) w, fst (process_compressed (fun _ => None) true o w) = w.
Proof. exact c34_clean. Qed.
Print Assumptions C34_compressed_removes.
Theorem C34_no_leak_over_histories : forall V (os : list (arch_ops V)) w, history os w = w.
Proof. exact c34_history. Qed.
Print Assumptions C34_no_leak_over_histories.
(** Without cleanup the result owns exactly one new directory and its cleanup() removes it. *)
Theorem C34_kept_directory : forall V (o : arch_ops V) w w1 r, process_compressed (fun _ => None) false o w = (w1, Ret r) ->
  exists d, r_temp r = Some d /\ ~ In d w /\ w1 = d :: w /\ cleanup (fun _ => None) r w1 = (w, Ret (Build_result (r_value r) None)).
Proof. exact c34_kept. Qed.
Print Assumptions C34_kept_directory.
Theorem C34_process_success : forall V ex (i : input V) w w1 r, process (fun _ => None) ex true i w = (w1, Ret r) -> w1 = w /\ r_temp r = None.
Proof. exact c34_process. Qed.
Print Assumptions C34_process_success.
Theorem C34_cleanup_twice : forall V stuck (r : result V) w w1 r1, cleanup stuck r w = (w1, Ret r1) -> r_temp r1 = None /\ cleanup stuck r1 w1 = (w1, Ret r1).
Proof. exact c34_twice. Qed.
Print Assumptions C34_cleanup_twice.
(** False: process(archive, cleanup=True) keeps the directory when processing fails... *)
Theorem C34_process_leak_refuted : exists (o : arch_ops nat) w, process (fun _ => None) true true (IArchive o) w = (fresh w :: w, Exn TexProcessing).
Proof. exact c34_leak. Qed.
Print Assumptions C34_process_leak_refuted.
(** ... and the result of process_compressed(cleanup=True) refers to a directory that is gone, so its
    cleanup() raises, every time. *)
Theorem C34_result_cleanup_refuted : forall V (o : arch_ops V) w w1 r, process_compressed (fun _ => None) true o w = (w1, Ret r) ->
  cleanup (fun _ => None) r w1 = (w1, Exn FileNotFound).
Proof. exact c34_always_stale. Qed.
Print Assumptions C34_result_cleanup_refuted.
Example C34_case : exists (o : arch_ops nat) w w1 r, process_compressed (fun _ => None) true o w = (w1, Ret r) /\ cleanup (fun _ => None) r w1 = (w1, Exn FileNotFound).
Proof. exact c34_stale. Qed.
Example C34_kept_case : process_compressed (fun _ => None) false {| a_exists := true; a_mk := Ret tt; a_setup := Ret tt; a_file := good_file |} [] = ([1], Ret (Build_result 2 (Some 1))).
Proof. reflexivity. Qed.
