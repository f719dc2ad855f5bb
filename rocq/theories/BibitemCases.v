(** C91-C92: computed cases. *)
From Coq Require Import List NArith PeanoNat Lia Bool String.
From Verif Require Import PyStr Regex RegexLocal DelimSpec StyleSpec ItemSpec TableCases BibitemModel BibitemSpec BibitemProofs2 BibitemProofs3.
From Verif Require EnvHandlerCases.
Import ListNotations. Notation length := List.length. Notation concat := List.concat. Open Scope list_scope.
Notation aw := EnvHandlerCases.aw.

Lemma aw_class : word_class aw.
Proof.
  split; [|split; reflexivity]. intros x H. unfold letter in H. unfold EnvHandlerCases.aw, in_range. repeat rewrite Bool.orb_true_iff. repeat rewrite Bool.andb_true_iff. repeat rewrite N.leb_le. lia.
Qed.
(** an author with an accent raises re.error *)
Example bysame_raises : parse_bibitems aw (lit "\bibitem{k1} P. Erd\H{o}s, T \bibitem{k2} \bysame, U") = None.
Proof. vm_compute. reflexivity. Qed.
(** an author in small capitals: the command becomes a tab *)
Example bysame_tab : option_map (map bi_content) (parse_bibitems aw (lit "\bibitem{k1} \textsc{A}, T \bibitem{k2} \bysame, U"))
  = Some [lit "\textsc{A}, T"; [9%N] ++ lit "extsc{A}, U"].
Proof. vm_compute. reflexivity. Qed.
(** a command that begins with the same letters ends the item *)
Example word_inside : parse_bibitems aw (lit "\bibitem{k} a \bibitemNoStop b") = Some [{| bi_key := lit "k"; bi_content := lit "a"; bi_label := None |}].
Proof. vm_compute. reflexivity. Qed.
(** two authors: the second one is lost *)
Example two_authors : option_map (map bi_content) (parse_bibitems aw (lit "\bibitem{k1} A, B and C, T. \bibitem{k2} \bysame, U."))
  = Some [lit "A, B and C, T."; lit "A, U."].
Proof. vm_compute. reflexivity. Qed.
(** an empty item gives no entry *)
Example empty_dropped : parse_bibitems aw (lit "\bibitem{k1} \bibitem{k2} B") = Some [{| bi_key := lit "k2"; bi_content := lit "B"; bi_label := None |}].
Proof. vm_compute. reflexivity. Qed.

(** a sample for the theorems *)
Definition s1 : source := {| so_label := Some (lit "K84"); so_key := lit "knuth"; so_body := lit " Knuth, \newblock TeX. " |}.
Definition s2 : source := {| so_label := None; so_key := lit "k2"; so_body := lit " \bysame, MF. " |}.
Definition sample : str := lit "Intro \begin{thebibliography}{9} \bibitem[K84]{knuth} Knuth, \newblock TeX. \bibitem{k2} \bysame, MF. \end{thebibliography} end".
Lemma tags : sample = lit "Intro " ++ open_tag (lit "thebibliography") ++ (lit "{9} " ++ lit "\bibitem[K84]{knuth} Knuth, \newblock TeX. \bibitem{k2} \bysame, MF. ") ++ close_tag (lit "thebibliography") ++ lit " end".
Proof. reflexivity. Qed.
Lemma sample_searched : searched aw sample (lit "{9} " ++ lit "\bibitem[K84]{knuth} Knuth, \newblock TeX. \bibitem{k2} \bysame, MF. ").
Proof.
  eapply se_env; [split; [exact tags|exists (lit "the"); split; reflexivity]|apply not_occurs; vm_compute; reflexivity|apply not_occurs; vm_compute; reflexivity].
Qed.
Lemma sample_items : items_text [s1; s2] (lit "\bibitem[K84]{knuth} Knuth, \newblock TeX. \bibitem{k2} \bysame, MF. ").
Proof.
  change (lit "\bibitem[K84]{knuth} Knuth, \newblock TeX. \bibitem{k2} \bysame, MF. ") with (lit "\bibitem[K84]{knuth} Knuth, \newblock TeX. " ++ lit "\bibitem{k2} \bysame, MF. " ++ []).
  constructor; [|constructor; [|constructor]].
  - apply (it_label s1 (lit "K84") [] []); try reflexivity; try (apply not_occurs; vm_compute; reflexivity); intros I; cbn in I; repeat (destruct I as [I|I]; [discriminate I|]); exact I.
  - apply (it_plain s2 []); try reflexivity; try (apply not_occurs; vm_compute; reflexivity); intros I; cbn in I; repeat (destruct I as [I|I]; [discriminate I|]); exact I.
Qed.
Fixpoint nohit (cmd s : str) : bool := match s with [] => true | _ :: r => negb (startswith s cmd) && nohit cmd r end.
Lemma replaced_none : forall (w : ch -> bool) cmd by_ s, nohit cmd s = true -> replaced w cmd by_ s s.
Proof.
  intros w cmd by_. induction s as [|x s IH]; intros H; [constructor|]. cbn [nohit] in H. apply andb_prop in H as [H1 H2]. constructor; [|apply IH; exact H2].
  intros q E. rewrite E, startswith_app in H1. discriminate.
Qed.
Lemma replaced_one : forall (w : ch -> bool) cmd by_ a r, starts_with w r = false -> nohit cmd r = true ->
  (forall k, k < length a -> startswith (skipn k a ++ cmd ++ r) cmd = false) -> replaced w cmd by_ (a ++ cmd ++ r) (a ++ by_ ++ r).
Proof.
  intros w cmd by_ a r Hr Nr. induction a as [|x a IH]; intros H.
  - cbn [List.app]. constructor; [exact Hr|apply replaced_none; exact Nr].
  - cbn [List.app]. constructor.
    + intros q E. exfalso. specialize (H 0 (Nat.lt_0_succ _)). cbn [skipn List.app] in H. rewrite E, startswith_app in H. discriminate.
    + apply IH. intros k Hk. exact (H (S k) (proj1 (Nat.succ_lt_mono _ _) Hk)).
Qed.
Lemma checked : forall (cmd a r : str), forallb (fun k => negb (startswith (skipn k a ++ cmd ++ r) cmd)) (seq 0 (length a)) = true -> forall k, k < length a -> startswith (skipn k a ++ cmd ++ r) cmd = false.
Proof. intros cmd a r H k Hk. rewrite forallb_forall in H. apply negb_true_iff. apply H. apply in_seq. lia. Qed.
Lemma sample_entries : entries_of aw None [s1; s2]
  [{| bi_key := lit "knuth"; bi_content := lit "Knuth,  TeX."; bi_label := Some (lit "K84") |}; {| bi_key := lit "k2"; bi_content := lit "Knuth, MF."; bi_label := None |}].
Proof.
  apply (en_item aw None s1 [s2] (lit "Knuth,  TeX.")); [unfold blank; vm_compute; discriminate| |reflexivity|].
  - apply co_first; [reflexivity|]. change (strip (so_body s1)) with (lit "Knuth, " ++ lit "\newblock" ++ lit " TeX."). change (lit "Knuth,  TeX.") with (lit "Knuth, " ++ [] ++ lit " TeX.").
    apply replaced_one; [reflexivity|vm_compute; reflexivity|apply checked; vm_compute; reflexivity].
  - apply (en_item aw _ s2 [] (lit "Knuth, MF.")); [unfold blank; vm_compute; discriminate| |reflexivity|constructor].
    eapply (co_next aw _ _ (lit "Knuth,  TeX.") (lit "Knuth") (lit "\bysame, MF.")); [reflexivity| | | | |].
    + split; [intros I; cbn in I; repeat (destruct I as [I|I]; [discriminate I|]); exact I|right; exists (lit "  TeX."); reflexivity].
    + discriminate.
    + intros I; cbn in I; repeat (destruct I as [I|I]; [discriminate I|]); exact I.
    + change (strip (so_body s2)) with (lit "\bysame, MF."). apply replaced_none. vm_compute. reflexivity.
    + change (lit "\bysame, MF.") with ([] ++ lit "\bysame" ++ lit ", MF."). change (lit "Knuth, MF.") with ([] ++ lit "Knuth" ++ lit ", MF."). apply replaced_one; [reflexivity|vm_compute; reflexivity|apply checked; vm_compute; reflexivity].
Qed.
Lemma sample_no_item : ~ occurs item_word (lit "{9} "). Proof. apply not_occurs. vm_compute. reflexivity. Qed.
