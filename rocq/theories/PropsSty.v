(** Properties C35 and C53, about StyModel.v: [text] says what the text of each file does when parsed (any program,
    calling parse_file on any paths), [absolute] is os.path.abspath. *)
From Coq Require Import List NArith ZArith PeanoNat Lia Bool String.
From Verif Require Import PyStr ExtractModel StyModel StyProofs.
Import ListNotations.
Notation length := List.length.
Notation concat := List.concat.
Open Scope list_scope.

(** C35: if finitely many files can be read, parse_file finishes (with recursion depth at most their number
    plus one), whatever the graph, and starts to parse each of them at most once. *)
Theorem C35_terminates_once : forall (S tok : Type) (text : str -> option str -> S -> option (prog S tok)) absolute mark files,
  (forall p s, text p (Some (dirname p)) s <> None -> In p files) ->
  forall path st, exists st1 ts,
    parse_file S tok text absolute mark (Datatypes.S (length files)) path st = Some (st1, ts) /\
    exists new, started st1 = new ++ started st /\ parsed st1 = new ++ parsed st /\ NoDup new /\
      (forall p, In p new -> ~ In p (parsed st) /\ In p files).
Proof. exact c35. Qed.
Print Assumptions C35_terminates_once.
Theorem C35_fuel_irrelevant : forall (S tok : Type) (text : str -> option str -> S -> option (prog S tok)) absolute mark fuel path st r,
  parse_file S tok text absolute mark fuel path st = Some r -> forall fuel', fuel <= fuel' -> parse_file S tok text absolute mark fuel' path st = Some r.
Proof. exact pf_more. Qed.
Print Assumptions C35_fuel_irrelevant.
(** A second call returns no tokens and changes nothing. *)
Theorem C35_second_call : forall (S tok : Type) (text : str -> option str -> S -> option (prog S tok)) absolute mark fuel path st st1 ts,
  parse_file S tok text absolute mark fuel path st = Some (st1, ts) -> text (absolute path) (Some (dirname (absolute path))) (rest st) <> None ->
  parse_file S tok text absolute mark 1 path st1 = Some (st1, []).
Proof. exact pf_twice. Qed.
Print Assumptions C35_second_call.
Example C35_case : (forall p s, cyc p (Some (dirname p)) s <> None -> In p cyc_files) /\
  parse_file nat str cyc (fun p => p) (fun t => t) 4 (lit "/t/a.sty") start =
  Some ({| parsed := [lit "/t/c.sty"; lit "/t/b.sty"; lit "/t/a.sty"]; cdir := Some (lit "/home"); rest := 3; started := [lit "/t/c.sty"; lit "/t/b.sty"; lit "/t/a.sty"] |}, [lit "A"; lit "B"]).
Proof. exact (conj cyc_readable cyc_run). Qed.

(** C53: false. A package whose parsing raises leaves its directory behind as the current one, and the
    next package of the file that used it is not found. *)
Theorem C53_directory_restored_refuted : exists (text : str -> option str -> nat -> option (prog nat str)) fuel path st st1 ts,
  parse_file nat str text (fun p => p) (fun t => t) fuel path st = Some (st1, ts) /\ cdir st1 <> cdir st.
Proof. exact c53_refuted. Qed.
Print Assumptions C53_directory_restored_refuted.
Theorem C53_package_lost_refuted : exists st1, parse_file nat str sub (fun p => p) (fun t => t) 3 (lit "/t/main.sty") start = Some (st1, []) /\
  parse_file nat str sub (fun p => p) (fun t => t) 3 (lit "/t/good.sty") start <> Some (start, []).
Proof. exact c53_lost. Qed.
Print Assumptions C53_package_lost_refuted.
(** True unless the text of the file itself raised. *)
Theorem C53_directory_restored_partial : forall (S tok : Type) (text : str -> option str -> S -> option (prog S tok)) absolute mark fuel path st st1 ts,
  parse_file S tok text absolute mark fuel path st = Some (st1, ts) ->
  cdir st1 = cdir st \/ exists pr, text (absolute path) (Some (dirname (absolute path))) (rest st) = Some pr /\
    exists st2, runp S tok text absolute mark (pred fuel) pr (absolute path :: parsed st) (absolute path :: started st) = Some (st2, None) /\ st1 = st2.
Proof. exact pf_dir. Qed.
Print Assumptions C53_directory_restored_partial.
