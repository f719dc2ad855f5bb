(** C108-C109: computed cases. *)
From Coq Require Import List NArith ZArith PeanoNat Lia Bool String.
From Verif Require TableCases BibCases BibitemCases BuilderModel.
From Verif Require Import PyStr Regex RegexLocal DelimSpec DelimProofs DelimFinal CommandSpec CommandCases KeyvalModel StyleSpec ItemSpec BibModel BibSpec BibitemSpec CompModel CompSpec.
Import ListNotations. Notation length := List.length. Notation concat := List.concat. Open Scope list_scope.
Notation aw := BibCases.ascii_word.
Notation nl := [10%N].
Definition read_bbl : str -> list str := process_compiled_bibtex_to_bibtex aw.
Lemma aw_letter : forall x, letter x -> aw x = true.
Proof. intros x H. unfold letter in H. unfold BibCases.ascii_word, in_range. repeat rewrite Bool.orb_true_iff. repeat rewrite Bool.andb_true_iff. repeat rewrite N.leb_le. lia. Qed.
Definition sample_body : str := lit "lang23}{article}{}
 \name{author}{2}{}{%
  {{hash=ML}{%
    family={Medeiros}, given={Luca}, giveni={L\bibinitperiod},}}%
  {{hash=BX}{given={Bo}, family={Li},}}%
 }
 \field{labeltitlesource}{title}
 \field{year}{2023}
 \field{journaltitle}{J {of} X}
 \field{title}{Lang}
 \field{pages}{1\bibrangedash 9}
 \verb{eprint}
 \verb 2301.1
 \endverb
".
Definition sample_text : str := lit "\entry{lang23}{article}{}
 \name{author}{2}{}{%
  {{hash=ML}{%
    family={Medeiros}, given={Luca}, giveni={L.},}}%
  {{hash=BX}{given={Bo}, family={Li},}}%
 }
 \field{labeltitlesource}{title}
 \field{year}{2023}
 \field{journaltitle}{J {of} X}
 \field{title}{Lang}
 \field{pages}{1--9}
 \verb{eprint}
 \verb 2301.1
 \endverb
\endentry".
Definition sample_file : str := lit "% bbl
\refsection{0} " ++ lit "\entry{" ++ sample_body ++ lit "\endentry" ++ lit "
\endrefsection".
Definition sample : compiled := {| c_key := lit "lang23"; c_type := lit "article"; c_people := [(lit "Medeiros", lit "Luca"); (lit "Li", lit "Bo")];
  c_fields := [(lit "labeltitlesource", lit "title"); (lit "year", lit "2023"); (lit "journaltitle", lit "J {of} X"); (lit "title", lit "Lang"); (lit "pages", lit "1--9")]; c_eprint := Some (lit "2301.1") |}.
Ltac no_word := apply TableCases.not_occurs; vm_compute; reflexivity.
Ltac not_in := let I := fresh in intros I; vm_compute in I; repeat (destruct I as [I|I]; [discriminate I|]); exact I.
Lemma dashed_none : forall s, BibitemCases.nohit (lit "\bibrangedash") s = true -> dashed aw s s.
Proof.
  induction s as [|x s IH]; intros H; [constructor|]. cbn [BibitemCases.nohit] in H. apply andb_prop in H as [H1 H2]. apply da_other; [|apply IH; exact H2].
  intros q E. rewrite E, startswith_app in H1. discriminate.
Qed.
Lemma dashed_first : forall a r out, (forall k, k < length a -> startswith (skipn k a ++ r) (lit "\bibrangedash") = false) -> dashed aw r out -> dashed aw (a ++ r) (a ++ out).
Proof.
  induction a as [|x a IH]; intros r out H D; [exact D|]. cbn [List.app]. apply da_other.
  - intros q E. specialize (H 0 (Nat.lt_0_succ _)). cbn [skipn List.app] in H. rewrite E, startswith_app in H. discriminate.
  - apply IH; [|exact D]. intros k L. apply (H (S k)). cbn [List.length]. lia.
Qed.
Lemma checked : forall n (f : nat -> bool), forallb (fun k => negb (f k)) (seq 0 n) = true -> forall k, k < n -> f k = false.
Proof. intros n f H k L. rewrite forallb_forall in H. specialize (H k ltac:(apply in_seq; lia)). apply negb_true_iff in H. exact H. Qed.
Definition p1 : str := Eval vm_compute in firstn (match find_sub (lit "\bibinitperiod") (lit "\entry{" ++ sample_body) with Some k => k | None => 0 end) (lit "\entry{" ++ sample_body).
Definition p2 : str := Eval vm_compute in skipn (length p1 + 14) (lit "\entry{" ++ sample_body ++ lit "\endentry").
Definition mid : str := Eval vm_compute in p1 ++ lit "." ++ p2.
Definition d1 : str := Eval vm_compute in firstn (match find_sub (lit "\bibrangedash") mid with Some k => k | None => 0 end) mid.
Definition d2 : str := Eval vm_compute in skipn (length d1 + 14) mid.
Lemma sample_expanded : expanded aw (lit "\entry{" ++ sample_body ++ lit "\endentry") sample_text.
Proof.
  exists mid. split.
  - assert (E1 : lit "\entry{" ++ sample_body ++ lit "\endentry" = p1 ++ lit "\bibinitperiod" ++ p2) by (vm_compute; reflexivity). rewrite E1. change mid with (p1 ++ lit "." ++ p2).
    apply BibitemCases.replaced_one; [vm_compute; reflexivity|vm_compute; reflexivity|apply checked; vm_compute; reflexivity].
  - assert (E1 : mid = d1 ++ lit "\bibrangedash" ++ lit " " ++ d2) by (vm_compute; reflexivity). assert (E2 : sample_text = d1 ++ lit "--" ++ d2) by (vm_compute; reflexivity). rewrite E1, E2.
    apply dashed_first; [apply checked; vm_compute; reflexivity|]. apply da_blank; [reflexivity|discriminate|vm_compute; reflexivity|]. apply dashed_none. vm_compute. reflexivity.
Qed.
Definition block : str := lit "%
  {{hash=ML}{%
    family={Medeiros}, given={Luca}, giveni={L.},}}%
  {{hash=BX}{given={Bo}, family={Li},}}%
 ".
Definition fields_text : str := lit "
 \field{labeltitlesource}{title}
 \field{year}{2023}
 \field{journaltitle}{J {of} X}
 \field{title}{Lang}
 \field{pages}{1--9}
 \verb{eprint}
 \verb 2301.1
 \endverb
\endentry".
Lemma sample_people : names_list aw block [(lit "Medeiros", lit "Luca"); (lit "Li", lit "Bo")].
Proof.
  assert (E : block = (lit "%" ++ nl ++ lit "  {") ++ lit "{hash=" ++ lit "ML" ++ lit "}{" ++ (lit "%" ++ nl ++ lit "    family={Medeiros}, given={Luca}, giveni={L.},") ++ [c_rb] ++
    (lit "}%" ++ nl ++ lit "  {") ++ lit "{hash=" ++ lit "BX" ++ lit "}{" ++ lit "given={Bo}, family={Li}," ++ [c_rb] ++ lit "}%" ++ nl ++ lit " ") by reflexivity. rewrite E.
  constructor; [no_word|split; [discriminate|reflexivity]|apply closed_grp; reflexivity|no_word| |].
  - split; [exists (lit "%" ++ nl ++ lit "    "), (lit ", given={Luca}, giveni={L.},")|exists (lit "%" ++ nl ++ lit "    family={Medeiros}, "), (lit ", giveni={L.},")]; (split; [reflexivity|split; [no_word|split; [discriminate|apply closed_grp; reflexivity]]]).
  - constructor; [no_word|split; [discriminate|reflexivity]|apply closed_grp; reflexivity|no_word| |apply nl_end; no_word].
    split; [exists (lit "given={Bo}, "), (lit ",")|exists [], (lit ", family={Li},")]; (split; [reflexivity|split; [no_word|split; [discriminate|apply closed_grp; reflexivity]]]).
Qed.
Ltac one_field := constructor; [no_word|discriminate|not_in|not_in|not_in|apply closed_grp; reflexivity|no_word|].
Lemma sample_fields : fields_in sample_text (c_fields sample).
Proof.
  assert (E : sample_text = (lit "\entry{lang23}{article}{}" ++ nl ++ lit " \name{author}{2}{}{" ++ block ++ lit "}" ++ nl ++ lit " ") ++ lit "\field{" ++ lit "labeltitlesource" ++ lit "}{" ++ lit "title" ++ [c_rb] ++
    (nl ++ lit " ") ++ lit "\field{" ++ lit "year" ++ lit "}{" ++ lit "2023" ++ [c_rb] ++
    (nl ++ lit " ") ++ lit "\field{" ++ lit "journaltitle" ++ lit "}{" ++ lit "J {of} X" ++ [c_rb] ++
    (nl ++ lit " ") ++ lit "\field{" ++ lit "title" ++ lit "}{" ++ lit "Lang" ++ [c_rb] ++
    (nl ++ lit " ") ++ lit "\field{" ++ lit "pages" ++ lit "}{" ++ lit "1--9" ++ [c_rb] ++ nl ++ lit " \verb{eprint}" ++ nl ++ lit " \verb 2301.1" ++ nl ++ lit " \endverb" ++ nl ++ lit "\endentry") by (vm_compute; reflexivity).
  rewrite E. unfold sample, c_fields. do 5 one_field. constructor. no_word.
Qed.
Lemma sample_says : says aw sample_text sample.
Proof.
  split; [|split; [|split; [exact sample_fields|]]].
  - exists (lit "lang23"), (lit "article"), [], (skipn 25 sample_text). repeat (split; [first [vm_compute; reflexivity|discriminate|not_in]|]). vm_compute. reflexivity.
  - right. exists (lit "\entry{lang23}{article}{}" ++ nl ++ lit " "), (lit "{2}{}{" ++ block ++ lit "}" ++ fields_text), (lit "2"), [], block. eexists.
    split; [vm_compute; reflexivity|]. split; [no_word|]. split; [|exact sample_people].
    econstructor; [apply (proj1 (extract_nested_content_iff _ _ _ _ _ delims_curly)); vm_compute; reflexivity|]. econstructor; [apply (proj1 (extract_nested_content_iff _ _ _ _ _ delims_curly)); vm_compute; reflexivity|].
    econstructor; [apply (proj1 (extract_nested_content_iff _ _ _ _ _ delims_curly)); vm_compute; reflexivity|]. constructor.
  - right. exists (firstn (match find_sub (lit "\verb{eprint}") sample_text with Some k => k | None => 0 end) sample_text), (nl ++ lit "\endentry"), (nl ++ lit " "), (lit " "), (nl ++ lit " "), (lit "2301.1").
    split; [vm_compute; reflexivity|]. split; [no_word|]. repeat (split; [first [reflexivity|discriminate|no_word]|]). reflexivity.
Qed.
Lemma sample_file_ok : compiled_file aw sample_file [sample].
Proof.
  unfold sample_file. eapply cf_entry; [no_word|no_word|exact sample_expanded|exact sample_says|]. constructor. no_word.
Qed.
Lemma sample_no_clash : no_clash sample.
Proof. intros k v I. vm_compute in I. repeat (destruct I as [I|I]; [injection I as <- <-; split; discriminate|]). destruct I. Qed.
Lemma sample_readable : readable aw sample.
Proof.
  split; [split; [discriminate|reflexivity]|]. split; [not_in|]. split; [not_in|]. split; [apply closed_grp; reflexivity|].
  change (Forall (readable_field aw) [(lit "author", lit "Medeiros, L. and Li, B."); (lit "year", lit "2023"); (lit "journal", lit "J {of} X"); (lit "title", lit "Lang"); (lit "pages", lit "1--9"); (lit "eprint", lit "2301.1")]).
  repeat (apply Forall_cons; [split; [split; [discriminate|reflexivity]|split; [apply closed_grp; reflexivity|cbn [fst snd]; not_in]]|]). apply Forall_nil.
Qed.
Definition printed_sample : str := lit "@article{lang23,
  author = {Medeiros, L. and Li, B.},
  title = {Lang},
  year = {2023},
  eprint = {2301.1},
  journal = {J {of} X},
  pages = {1--9},
}".
Example sample_out : read_bbl sample_file = [printed_sample] /\ bib_text (c_type sample) (c_key sample) (arranged (the_fields sample)) = printed_sample.
Proof. split; vm_compute; reflexivity. Qed.
(** a corporate author has a family name only: left out *)
Definition entry (body : str) : str := lit "\entry{k}{book}{}" ++ nl ++ body ++ nl ++ lit "\endentry".
Example corporate : read_bbl (entry (lit "\name{author}{2}{}{{{hash=A}{family={ACM},}}{{hash=B}{family={Li}, given={Bo},}}}")) = [lit "@book{k," ++ nl ++ lit "  author = {Li, B.}," ++ nl ++ lit "}"].
Proof. vm_compute. reflexivity. Qed.
(** the author blocks of newer versions of biber do not begin with the hash *)
Example newer : read_bbl (entry (lit "\name{author}{1}{}{{{un=0,uniquepart=base,hash=A}{family={Li}, given={Bo},}}}")) = [lit "@book{k," ++ nl ++ lit "}"].
Proof. vm_compute. reflexivity. Qed.
(** a field called type takes the place of the entry type *)
Example typed : read_bbl (entry (lit "\field{type}{PhD thesis}")) = [lit "@PhD thesis{k," ++ nl ++ lit "}"].
Proof. vm_compute. reflexivity. Qed.
(** a given name that begins with an accent group: one brace is printed *)
Example accented : read_bbl (entry (lit "\name{author}{1}{}{{{hash=A}{family={Li}, given={{\'E}ric},}}}")) = [lit "@book{k," ++ nl ++ lit "  author = {Li, {.}," ++ nl ++ lit "}"].
Proof. vm_compute. reflexivity. Qed.
(** a list of names without options: the entry is left out, also when other entries are fine *)
Example left_out : read_bbl (entry (lit "\name{author}{1}{{{hash=A}{family={Li}, given={Bo},}}}") ++ entry (lit "\field{year}{2020}")) = [lit "@book{k," ++ nl ++ lit "  year = {2020}," ++ nl ++ lit "}"].
Proof. vm_compute. reflexivity. Qed.
(** a field whose name is not a word is lost when the printed entry is read *)
Example bad_name : exists fuel e, bibtex_parse aw BuilderModel.lower_ascii read_bbl fuel (entry (lit "\field{part-title}{T}")) = Some [e] /\ bx_fields e = [(lit "title", lit "T")].
Proof. exists 200. eexists. split; [vm_compute; reflexivity|reflexivity]. Qed.
