(** Properties C31, C32, C51, C52.  Vocabulary: ExtractSpec.v (entry_name, lexical, below, fresh_dir,
    inner_target, first_main, marked_main). *)
From Coq Require Import List NArith ZArith PeanoNat Lia Bool String.
From Verif Require Import PyStr RegexLocal TokensModel ExtractModel ExtractSpec ExtractProofs ExtractProofs2.
Import ListNotations.
Notation length := List.length.
Notation concat := List.concat.
Open Scope list_scope.

(** C31: the filter keeps exactly the names that are relative and do not contain two
    consecutive dots, whatever the working directory. *)
Theorem C31_accepted_exactly : forall cwd T name, Forall entry_name T /\ T <> [] ->
  (accepted cwd (path_of T) name = true <-> (forall r, name <> c_slash :: r) /\ ~ occurs (lit "..") name).
Proof. exact accepted_exact. Qed.
Print Assumptions C31_accepted_exactly.
(** Read lexically, a kept name stays below the directory: it only goes down, by its own components. *)
Theorem C31_accepted_stays_below : forall cwd T name, Forall entry_name T /\ T <> [] -> accepted cwd (path_of T) name = true ->
  exists r, (forall e, lexical T (split_char c_slash name) e <-> e = T ++ r) /\
    (forall c, In c r -> entry_name c /\ In c (split_char c_slash name)) /\
    abspath cwd (path_join (path_of T) name) = path_of (T ++ r).
Proof. exact accepted_below. Qed.
Print Assumptions C31_accepted_stays_below.
(** The converse fails: harmless names are refused. *)
Theorem C31_safe_names_are_kept_refuted : exists cwd T name, (Forall entry_name T /\ T <> []) /\
  lexical T (split_char c_slash name) (T ++ [lit "fig..1.tex"]) /\ accepted cwd (path_of T) name = false.
Proof. exact c31_over. Qed.
Print Assumptions C31_safe_names_are_kept_refuted.
Example C31_case : accepted (lit "/home") (path_of sample_temp) (lit "src/./main.tex") = true /\
  accepted (lit "/home") (path_of sample_temp) (lit "/etc/passwd") = false /\ accepted (lit "/home") (path_of sample_temp) (lit "a/../../b") = false.
Proof. vm_compute. auto. Qed.

(** C32: false. Two accepted members overwrite a file outside the directory. *)
Theorem C32_tar_refuted : exists k cwd T f ms p, (Forall entry_name T /\ T <> []) /\ fresh_dir f T /\
  (forall m, In m ms -> accepted cwd (path_of T) (m_name m) = true) /\
  In p (touched (fst (extract_tar k cwd T f ms))) /\ f p = Some NFile /\ ~ below T p.
Proof. exact c32_refuted. Qed.
Print Assumptions C32_tar_refuted.
(** A relative link target does it as well. *)
Theorem C32_tar_relative_link_refuted : In [lit "etc"; lit "passwd"] (touched (fst (extract_tar 20 (lit "/home") sample_temp sample_fs evil_rel))).
Proof. vm_compute. left. reflexivity. Qed.
Print Assumptions C32_tar_relative_link_refuted.
(** True of every tar archive whose links are relative and do not go up, also when extraction
    fails half-way; in particular of archives without links. *)
Theorem C32_tar_partial : forall k cwd T f ms, Forall entry_name T /\ T <> [] -> fresh_dir f T -> (forall m, In m ms -> harmless m) ->
  forall p, In p (touched (fst (extract_tar k cwd T f ms))) -> below T p.
Proof. exact tar_inside. Qed.
Print Assumptions C32_tar_partial.
(** True of every zip archive. *)
Theorem C32_zip : forall k cwd T f names, Forall entry_name T /\ T <> [] -> fresh_dir f T ->
  forall p, In p (touched (fst (extract_zip k cwd T f names))) -> below T p.
Proof. exact zip_inside. Qed.
Print Assumptions C32_zip.
Example C32_case : (Forall entry_name sample_temp /\ sample_temp <> []) /\ fresh_dir sample_fs sample_temp /\ (forall m, In m good -> harmless m) /\
  let r := extract_tar 20 (lit "/home") sample_temp sample_fs good in
  snd r = true /\ touched (fst r) = [sample_temp ++ [lit "src"; lit "a.tex"]; sample_temp ++ [lit "fig"]; sample_temp ++ [lit "src"; lit "main.tex"]; sample_temp ++ [lit "src"]].
Proof. exact (conj sample_temp_ok (conj sample_fresh (conj good_harmless good_result))). Qed.
Example C32_zip_case : let r := extract_zip 20 (lit "/home") sample_temp sample_fs [lit "a/"; lit "a/b.tex"; lit "/etc/x"; lit "../y"] in
  snd r = true /\ touched (fst r) = [sample_temp ++ [lit "a"; lit "b.tex"]; sample_temp ++ [lit "a"]].
Proof. exact zip_result. Qed.

(** C51: a single .gz file is unpacked to one entry directly in the temporary directory. The three
    hypotheses are facts about str.lower. *)
Theorem C51_gz_output : forall (lower : str -> str) p, lower [] = [] -> lower (lit ".") = lit "." -> lower (lit "..") = lit ".." ->
  entry_name (gz_output lower p).
Proof. exact gz_entry. Qed.
Print Assumptions C51_gz_output.
Example C51_case : gz_output (fun s => s) (lit "/x/../paper.gz") = lit "paper.tex" /\ gz_output (fun s => s) (lit "/x/...gz") = lit "...tex".
Proof. vm_compute. auto. Qed.

(** C52: the main file is the first one in walk order with the extension .tex that can be read
    and has one of the markers outside comments; it is missing exactly when there is none. *)
Theorem C52_marker : forall text, is_main_tex_file text = true <-> marked_main text.
Proof. exact main_exact. Qed.
Print Assumptions C52_marker.
Theorem C52_main_found : forall w root f, find_main_tex_file w = Some (root, f) -> first_main marked_main w root f.
Proof. exact c52_some. Qed.
Print Assumptions C52_main_found.
Theorem C52_main_missing : forall w, find_main_tex_file w = None <-> no_main marked_main w.
Proof. exact c52_none. Qed.
Print Assumptions C52_main_missing.
Example C52_case : first_main marked_main [(lit "/d", [(lit "a.tex", Some (lit "%\documentclass{a}")); (lit "b.txt", Some (lit "\documentclass{a}")); (lit "c.tex", None)]);
    (lit "/d/e", [(lit "m.tex", Some (lit "\documentclass{a}"))])] (lit "/d/e") (lit "m.tex").
Proof. exact c52_case. Qed.
