(** C93: computed cases. *)
From Coq Require Import List NArith PeanoNat Lia Bool String.
From Verif Require Import PyStr Regex RegexLocal BuilderModel TableCases DelimSpec DelimProofs CommandSpec CommandCases ItemSpec BibModel BibSpec BibCases BibdivModel BibdivSpec BibdivProofs BibdivProofs3.
Import ListNotations. Notation length := List.length. Notation concat := List.concat. Open Scope list_scope.
Definition parse_div (s : str) := bibdiv_parse ascii_word lower_ascii (S (length s)) s.
Definition keys_fields (o : option (list bibtex_entry)) := option_map (map (fun e => (bx_key e, bx_fields e))) o.
(** nested groups leave an unbalanced brace *)
Example nested_value : keys_fields (parse_div (lit "\bib{k}{article}{title={A {B {C} D}}}")) = Some [(lit "k", [(lit "title", lit "A B {C D}")])].
Proof. vm_compute. reflexivity. Qed.
(** an escaped brace is taken for a brace *)
Example escaped_value : keys_fields (parse_div (lit "\bib{k}{article}{title={A \{B\}}}")) = Some [(lit "k", [(lit "title", lit "A \B\")])].
Proof. vm_compute. reflexivity. Qed.
(** an entry without fields is lost *)
Example empty_entry : keys_fields (parse_div (lit "\bib{k}{article}{} \bib{l}{book}{a={b}}")) = Some [(lit "l", [(lit "a", lit "b")])].
Proof. vm_compute. reflexivity. Qed.
(** only the end of a name with a hyphen counts *)
Example hyphen_name : keys_fields (parse_div (lit "\bib{k}{article}{part-title={T}}")) = Some [(lit "k", [(lit "title", lit "T")])].
Proof. vm_compute. reflexivity. Qed.
Definition sample : str := lit "\begin{bibdiv} \bib{k1}{article}{ author={{Zelati}, M.}, author={N. Marc}, Title = {On {X}}, year = 2023, } \bib {k2} {book} { pages=1--2 } \end{bibdiv}".
Definition fields1 : str := lit " author={{Zelati}, M.}, author={N. Marc}, Title = {On {X}}, year = 2023, ".
Definition fields2 : str := lit " pages=1--2 ".
Lemma quiet_ok : forall s, contains (lit "\bib") s = false -> quiet s.
Proof.
  intros s H p ws q _ E. apply (not_occurs _ _ H). exists p, (ws ++ [c_lb] ++ q). exact E.
Qed.
Ltac notin := intros I; cbn in I; repeat (destruct I as [I|I]; [discriminate I|]); exact I.
Lemma good_plain : forall s, balanced c_lb c_rb (marks s) -> closes_after s -> good_body s. Proof. intros s A B. split; assumption. Qed.
Lemma flat_plain : forall s, braceless s -> flat s.
Proof. unfold braceless. induction s as [|x s IH]; intros H; [constructor|]. cbn in H. apply andb_prop in H as [H1 H2]. constructor; [apply negb_true_iff; exact H1|apply IH; exact H2]. Qed.
Lemma flat_one : forall a g b, braceless a -> braceless g -> flat b -> flat (a ++ c_lb :: g ++ c_rb :: b).
Proof. unfold braceless at 1. induction a as [|x a IH]; intros g b Ha Hg Hb; [apply fl_group; assumption|]. cbn in Ha. apply andb_prop in Ha as [H1 H2]. cbn [List.app]. constructor; [apply negb_true_iff; exact H1|apply IH; assumption]. Qed.
Lemma word_ok : forall s, s <> [] -> forallb ascii_word s = true -> word ascii_word s. Proof. intros s A B. split; assumption. Qed.
Lemma fields1_ok : fields_text ascii_word fields1 [(lit "author", lit "Zelati, M."); (lit "author", lit "N. Marc"); (lit "Title", lit "On X"); (lit "year", lit "2023")].
Proof.
  unfold fields1.
  apply (ft_brace ascii_word (lit " ") (lit "author") [] [] (lit "{Zelati}, M.") (lit ", author={N. Marc}, Title = {On {X}}, year = 2023, ")); try reflexivity; try (apply word_ok; [discriminate|reflexivity]); [apply closed_grp; reflexivity|apply (flat_one [] (lit "Zelati") (lit ", M.")); [reflexivity|reflexivity|apply flat_plain; reflexivity]|].
  apply (ft_brace ascii_word (lit ", ") (lit "author") [] [] (lit "N. Marc") (lit ", Title = {On {X}}, year = 2023, ")); try reflexivity; try (apply word_ok; [discriminate|reflexivity]); [apply closed_grp; reflexivity|apply flat_plain; reflexivity|].
  apply (ft_brace ascii_word (lit ", ") (lit "Title") (lit " ") (lit " ") (lit "On {X}") (lit ", year = 2023, ")); try reflexivity; try (apply word_ok; [discriminate|reflexivity]); [apply closed_grp; reflexivity|apply (flat_one (lit "On ") (lit "X") []); [reflexivity|reflexivity|constructor]|].
  apply (ft_bare ascii_word (lit ", ") (lit "year") (lit " ") (lit " ") (lit "2023") (lit " ")); try reflexivity; try (apply word_ok; [discriminate|reflexivity]); [notin|apply flat_plain; reflexivity|].
  apply ft_end. reflexivity.
Qed.
Lemma fields2_ok : fields_text ascii_word fields2 [(lit "pages", lit "1--2")].
Proof. unfold fields2. apply (ft_last ascii_word (lit " ") (lit "pages") [] [] (lit "1--2 ")); try reflexivity; try (apply word_ok; [discriminate|reflexivity]); [notin|apply flat_plain; reflexivity]. Qed.
Lemma sample_list : bib_list ascii_word sample
  [(lit "article", lit "k1", [(lit "author", lit "Zelati, M."); (lit "author", lit "N. Marc"); (lit "Title", lit "On X"); (lit "year", lit "2023")]); (lit "book", lit "k2", [(lit "pages", lit "1--2")])].
Proof.
  apply (bl_entry ascii_word (lit "\begin{bibdiv} ") [] (lit "k1") [] (lit "article") [] fields1 _ (lit " \bib {k2} {book} { pages=1--2 } \end{bibdiv}")); try reflexivity; try discriminate; try notin; try (apply quiet_ok; vm_compute; reflexivity); try exact fields1_ok; try (apply closed_grp; vm_compute; reflexivity).
  apply (bl_entry ascii_word (lit " ") (lit " ") (lit "k2") (lit " ") (lit "book") (lit " ") fields2 _ (lit " \end{bibdiv}")); try reflexivity; try discriminate; try notin; try (apply quiet_ok; vm_compute; reflexivity); try exact fields2_ok; try (apply closed_grp; vm_compute; reflexivity).
  apply bl_end. apply quiet_ok. vm_compute. reflexivity.
Qed.
Example sample_parsed : keys_fields (parse_div sample) = Some
  [(lit "k1", [(lit "author", lit "Zelati, M. and N. Marc"); (lit "title", lit "On X"); (lit "year", lit "2023")]); (lit "k2", [(lit "pages", lit "1--2")])].
Proof. vm_compute. reflexivity. Qed.
