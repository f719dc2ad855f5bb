(** Properties C26 and C27.  Vocabulary: TokensSpec.v, PlaceSpec.plain_text. *)
From Coq Require Import List NArith ZArith PeanoNat Lia Bool String.
From Verif Require Import PyStr Json BuilderModel TokensModel PlaceSpec TokensSpec TokensProofs TokensProofs2 TokensCases.
Import ListNotations.
Notation length := List.length.
Notation concat := List.concat.
Open Scope list_scope.

(** C26: any sequence of calls with strings, dicts and None on an empty list. *)
Theorem C26_add_token : forall calls ts, kept_calls calls ts ->
  exists out, add_tokens calls [] = Ok out /\ coalesced ts out.
Proof. exact c26_coalesced. Qed.
Print Assumptions C26_add_token.
Theorem C26_no_adjacent_plain : forall ts out, coalesced ts out -> no_adjacent plain out.
Proof. exact c26_not_adjacent. Qed.
Print Assumptions C26_no_adjacent_plain.
(** n strings become one text token holding their concatenation. *)
Theorem C26_strings_concatenate : forall l, l <> [] -> Forall (fun s => s <> []) l ->
  add_tokens (map (fun s => (TStr s, false)) l) [] = Ok [text_token (concat l)].
Proof. exact c26_concat. Qed.
Print Assumptions C26_strings_concatenate.
(** False of lists: they are appended without merging. *)
Theorem C26_lists_refuted : exists calls out, add_tokens calls [] = Ok out /\ ~ no_adjacent plain out.
Proof. exact c26_lists. Qed.
Print Assumptions C26_lists_refuted.
(** False of the other fields of a merged text: its labels are lost. *)
Theorem C26_labels_refuted : exists d out, lookup (lit "labels") d = Some (VList [VStr (lit "x")]) /\
  add_tokens [(TStr (lit "a "), false); (TDict d, false)] [] = Ok out /\ Forall (fun t => lookup (lit "labels") t = None) out.
Proof. exact c26_labels. Qed.
Print Assumptions C26_labels_refuted.
Example C26_case : exists ts, kept_calls
    [(TStr (lit "a"), false); (TNone, false); (TStr (lit "b"), true); (TDict styled, false);
     (TDict [(k_type, VStr (lit "group")); (k_content, VList [])], false); (TStr (lit "c "), true); (TStr (lit "d"), true)] ts /\
  coalesced ts [text_token (lit "a b"); styled; text_token (lit "c d")].
Proof. exact c26_case. Qed.

(** C27: for every BibParser and every content parser, failing or not. *)
Theorem C27_first_occurrences : forall parse parse_file dir file_path, exists out,
  parse_bib_file parse parse_file dir file_path =
    Ok [(k_type, VStr (lit "bibliography")); (k_content, VList (map (fun d => VDict d) out))] /\
  first_occurrences (bib_tokens parse parse_file dir (bib_paths file_path)) out.
Proof. exact c27_first. Qed.
Print Assumptions C27_first_occurrences.
(** The files read are the non-blank names between the commas; [concat tss] has the entries of
    the readable ones in order. *)
Theorem C27_files : forall parse pf dir names, names <> [] -> (forall n, In n names -> ~ In c_comma n) -> exists files tss out,
  files_named names files /\ Forall2 (file_tokens parse pf dir) files tss /\
  parse_bib_file parse pf dir (join [c_comma] names) = Ok [(k_type, VStr (lit "bibliography")); (k_content, VList (map (fun d => VDict d) out))] /\
  first_occurrences (concat tss) out.
Proof. exact c27_files. Qed.
Print Assumptions C27_files.
Example C27_files_case : files_named [lit "a"; lit " "; lit " b "; lit "c"] [lit "a"; lit "b"; lit "c"].
Proof. exact c27_files_case. Qed.
(** the specification has only one solution *)
Theorem C27_unique : forall all o1 o2, first_occurrences all o1 -> first_occurrences all o2 -> o1 = o2.
Proof. exact c27_unique. Qed.
Print Assumptions C27_unique.
Example C27_case : parse_bib_file (fun s => Ok (VStr s)) case_files (lit "d") (lit "a, b,c") =
  Ok [(k_type, VStr (lit "bibliography")); (k_content, VList [bib "k1" "one"; bib "k2" "two"; bib "k3" "four"])].
Proof. exact c27_case. Qed.
