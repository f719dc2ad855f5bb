From Coq Require Import List NArith ZArith PeanoNat Lia Bool String.
From Verif Require Import PyStr Json BuilderModel TokensModel PlaceSpec TokensSpec TokensProofs.
Import ListNotations.
Notation length := List.length.
Notation concat := List.concat.
Open Scope list_scope.

Lemma c26_concat : forall l, l <> [] -> Forall (fun s => s <> []) l ->
  add_tokens (map (fun s => (TStr s, false)) l) [] = Ok [text_token (concat l)].
Proof.
  intros l NE F. destruct l as [|s l]; [contradiction|]. inversion F as [|? ? Hs Fl]; subst. destruct s as [|c s]; [contradiction|].
  pose proof (c26_strings false c s (map (pair false) l)) as E. rewrite map_map in E. cbn [map fst snd] in *.
  etransitivity; [apply E|].
  2: rewrite fold_concat; reflexivity.
  apply Forall_forall. intros x I. apply in_map_iff in I. destruct I as (y & <- & I). cbn. rewrite Forall_forall in Fl. exact (Fl _ I).
Qed.
Definition styled : dict := [(k_type, VStr (lit "text")); (k_content, VStr (lit "s")); (k_styles, VList [VStr (lit "bold")])].
Lemma c26_lists : exists calls out, add_tokens calls [] = Ok out /\ ~ no_adjacent plain out.
Proof.
  exists [(TStr (lit "a"), false); (TList [text_token (lit "b")], false)]. eexists. split; [reflexivity|].
  cbn [no_adjacent]. intros [H _]. apply H. split; [exists (lit "a")|exists (lit "b")]; repeat split.
Qed.
Lemma c26_labels : exists d out, lookup (lit "labels") d = Some (VList [VStr (lit "x")]) /\
  add_tokens [(TStr (lit "a "), false); (TDict d, false)] [] = Ok out /\ Forall (fun t => lookup (lit "labels") t = None) out.
Proof.
  exists [(k_type, VStr (lit "text")); (k_content, VStr (lit "b")); (lit "labels", VList [VStr (lit "x")])]. eexists.
  split; [reflexivity|]. split; [reflexivity|]. repeat constructor.
Qed.
Lemma plain_text_token : forall s, plain_text (text_token s) s.
Proof. intros. repeat split. Qed.
Lemma c26_case : exists ts, kept_calls
    [(TStr (lit "a"), false); (TNone, false); (TStr (lit "b"), true); (TDict styled, false);
     (TDict [(k_type, VStr (lit "group")); (k_content, VList [])], false); (TStr (lit "c "), true); (TStr (lit "d"), true)] ts /\
  coalesced ts [text_token (lit "a b"); styled; text_token (lit "c d")].
Proof.
  exists [(false, text_token (lit "a")); (true, text_token (lit "b")); (false, styled); (true, text_token (lit "c ")); (true, text_token (lit "d"))].
  split.
  - apply kc_keep; [apply lv_str|]. apply kc_skip; [constructor|]. apply kc_keep; [apply lv_str|]. apply kc_keep; [apply lv_text with (lit "s"); reflexivity|].
    apply kc_skip; [apply ln_block with (lit "group") (VList []); try reflexivity; left; reflexivity|].
    apply kc_keep; [apply lv_str|]. apply kc_keep; [apply lv_str|]. constructor.
  - apply (co_run false (text_token (lit "a")) (lit "a") [(true, text_token (lit "b"))] [(true, lit "b")]).
    + apply plain_text_token.
    + repeat constructor.
    + intros t r [= <- <-] (s & _ & _ & H). discriminate H.
    + apply co_other; [intros (s & _ & _ & H); discriminate H|].
      apply (co_run true (text_token (lit "c ")) (lit "c ") [(true, text_token (lit "d"))] [(true, lit "d")] []).
      * apply plain_text_token.
      * repeat constructor.
      * intros t r; discriminate.
      * constructor.
Qed.

Definition entry (fmt k c : string) : bib_entry := {| be_format := lit fmt; be_key := lit k; be_content := lit c; be_label := VNone; be_fields := VNone |}.
Definition bib (k c : string) : val := VDict [(k_type, VStr (lit "bibitem")); (k_format, VStr (lit "bibtex")); (k_cite_key, VStr (lit k));
      (k_content, VStr (lit c)); (k_label, VNone); (k_fields, VNone)].
Definition case_files (f : str) : res (list bib_entry) :=
  if str_eqb f (lit "d/a") then Ok [entry "bibtex" "k1" "one"; entry "bibtex" "k2" "two"; entry "bibtex" "k1" "three"]
  else if str_eqb f (lit "d/c") then Ok [entry "bibtex" "k3" "four"; entry "bibtex" "k2" "five"]
  else Raise KeyError.
Lemma c27_case : parse_bib_file (fun s => Ok (VStr s)) case_files (lit "d") (lit "a, b,c") =
  Ok [(k_type, VStr (lit "bibliography")); (k_content, VList [bib "k1" "one"; bib "k2" "two"; bib "k3" "four"])].
Proof. reflexivity. Qed.
