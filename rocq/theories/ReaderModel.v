(** Model of latex2json/tex_reader.py: which exceptions leave the public methods and what happens
    to temporary directories.  The operations underneath (parser, builder, archive, JSON) are arbitrary:
    each has any outcome, including non-[Exception] ones such as KeyboardInterrupt. *)
From Coq Require Import List NArith ZArith PeanoNat Lia Bool String.
From Verif Require Import PyStr.
Import ListNotations.
Notation length := List.length.
Notation concat := List.concat.
Open Scope list_scope.

(** FileNotFoundError, TexProcessingError (tex_reader.py:35-38), RuntimeError, any other subclass of
    Exception, and BaseExceptions that [except Exception] does not catch. *)
Inductive exc := FileNotFound | TexProcessing | RuntimeErr | OtherExc (n : nat) | BaseExc (n : nat).
Definition is_exception (e : exc) : bool := match e with BaseExc _ => false | _ => true end.
Inductive outcome (A : Type) := Ret (a : A) | Exn (e : exc).
Arguments Ret {A}. Arguments Exn {A}.

(** The temporary directories that exist. *)
Definition world := list nat.
Definition M (A : Type) := world -> world * outcome A.
Definition ret {A} (a : A) : M A := fun w => (w, Ret a).
Definition throw {A} (e : exc) : M A := fun w => (w, Exn e).
Definition lift {A} (o : outcome A) : M A := fun w => (w, o).
Definition mbind {A B} (m : M A) (f : A -> M B) : M B :=
  fun w => match m w with (w1, Ret a) => f a w1 | (w1, Exn e) => (w1, Exn e) end.
Notation "'run' x <- m ; k" := (mbind m (fun x => k)) (at level 200, x name, m at level 100, k at level 200).

(** tex_reader.py:20-33; tokens and colours are irrelevant here and are one value *)
Record result (V : Type) := { r_value : V; r_temp : option nat }.
Arguments r_value {V}. Arguments r_temp {V}. Arguments Build_result {V}.

(** shutil.rmtree: [stuck d] is the exception it raises although the directory exists *)
Definition rmtree (stuck : nat -> option exc) (d : nat) : M unit :=
  fun w => if in_dec Nat.eq_dec d w
           then match stuck d with Some e => (w, Exn e) | None => (remove Nat.eq_dec d w, Ret tt) end
           else (w, Exn FileNotFound).

(** tex_reader.py:28-32: the returned result is the mutated [self] *)
Definition cleanup {V} (stuck : nat -> option exc) (r : result V) : M (result V) :=
  match r_temp r with
  | Some d => run _ <- rmtree stuck d; ret (Build_result (r_value r) None)
  | None => ret r
  end.

(** tex_reader.py:54-82 *)
Definition handle_file_operation {A} (op : M A) : M A :=
  fun w => match op w with
           | (w1, Ret a) => (w1, Ret a)
           | (w1, Exn FileNotFound) => (w1, Exn FileNotFound)
           | (w1, Exn e) => (w1, Exn (if is_exception e then TexProcessing else e))
           end.

(** tex_reader.py:84-96 *)
Definition verify_file_exists (ex : bool) : M unit := if ex then ret tt else throw FileNotFound.

(** The outcomes of the calls made by process_file. *)
Record file_ops (V : Type) := { o_clear : outcome unit; o_exists : bool; o_parse : outcome V; o_build : V -> outcome V; o_colors : outcome unit; o_clear2 : outcome unit }.
Arguments o_clear {V}. Arguments o_exists {V}. Arguments o_parse {V}. Arguments o_build {V}. Arguments o_colors {V}. Arguments o_clear2 {V}.

(** tex_reader.py:98-130 *)
Definition process_file {V} (o : file_ops V) : M (result V) :=
  handle_file_operation
    (run _ <- lift (o_clear o);
     run _ <- verify_file_exists (o_exists o);
     run tokens <- lift (o_parse o);
     run output <- lift (o_build o tokens);
     run _ <- lift (o_colors o);
     run _ <- lift (o_clear2 o);
     ret (Build_result output None)).

(** tempfile.mkdtemp: a directory that did not exist *)
Definition fresh (w : world) : nat := S (list_max w).
Definition mkdtemp (o : outcome unit) : M nat :=
  fun w => match o with Ret _ => (fresh w :: w, Ret (fresh w)) | Exn e => (w, Exn e) end.

(** tex_file_extractor.py:67-209 and 226-238 used as a with-statement.  [setup] is everything
    between mkdtemp and the yield (ExtractModel models it), [body] the block of the with-statement. *)
Definition with_archive {A B} (stuck : nat -> option exc) (clean : bool) (mk : outcome unit) (setup : outcome A) (body : A -> nat -> M B) : M B :=
  run d <- mkdtemp mk;
  fun w =>
    let '(w1, r) := match setup with Ret m => body m d w | Exn e => (w, Exn e) end in
    if clean then match rmtree stuck d w1 with
                  | (w2, Ret _) => (w2, r)
                  | (w2, Exn e) => (w2, Exn e)
                  end
    else (w1, r).

(** The outcomes met by process_compressed. *)
Record arch_ops (V : Type) := { a_exists : bool; a_mk : outcome unit; a_setup : outcome unit; a_file : file_ops V }.
Arguments a_exists {V}. Arguments a_mk {V}. Arguments a_setup {V}. Arguments a_file {V}.

(** tex_reader.py:191-215 *)
Definition process_compressed {V} (stuck : nat -> option exc) (clean : bool) (o : arch_ops V) : M (result V) :=
  if a_exists o then
    fun w => match with_archive stuck clean (a_mk o) (a_setup o)
                     (fun _ d => run output <- process_file (a_file o); ret (Build_result (r_value output) (Some d))) w with
             | (w1, Ret r) => (w1, Ret r)
             | (w1, Exn e) => (w1, Exn (if is_exception e then RuntimeErr else e))
             end
  else throw FileNotFound.

(** tex_reader.py:217-242; [main] is the outcome of TexFileExtractor.from_folder *)
Definition process_folder {V} (ex : bool) (main : outcome unit) (o : file_ops V) : M (result V) :=
  handle_file_operation (run _ <- verify_file_exists ex; run _ <- lift main; process_file o).

(** What [process] finds at its path. *)
Inductive input (V : Type) :=
| IFolder (ex : bool) (main : outcome unit) (o : file_ops V)
| IArchive (o : arch_ops V)
| IFile (o : file_ops V).
Arguments IFolder {V}. Arguments IArchive {V}. Arguments IFile {V}.

(** tex_reader.py:244-279; [ex]: the input path exists *)
Definition process {V} (stuck : nat -> option exc) (ex clean : bool) (i : input V) : M (result V) :=
  run _ <- verify_file_exists ex;
  handle_file_operation
    (match i with
     | IFolder e m o => process_folder e m o
     | IArchive o => run r <- process_compressed stuck false o; if clean then cleanup stuck r else ret r
     | IFile o => process_file o
     end).

(** tex_reader.py:132-160 and 162-184; [dump], [mkd] and [wr] are the outcomes of the serialisation,
    of creating the parent directory and of writing the file *)
Definition to_json {V} (dump : outcome V) : M V := handle_file_operation (lift dump).
Definition save_to_json {V} (dump : outcome V) (mkd wr : outcome unit) : M unit :=
  handle_file_operation (run _ <- to_json dump; run _ <- lift mkd; lift wr).
