(** The main file marker, the name of an unpacked .gz file, and concrete cases. *)
From Coq Require Import List NArith ZArith PeanoNat Lia Bool String.
From Verif Require Import PyStr RegexLocal TokensModel TexUtilsModel DelimSpec DelimFinal Json Placeholder PlaceSpec TableCases ContentProofs ExtractModel ExtractSpec ExtractProofs.
Import ListNotations.
Notation length := List.length.
Notation concat := List.concat.
Open Scope list_scope.

Lemma occurs_sep : forall (m : str) c a b, m <> [] -> ~ In c m -> (occurs m (a ++ [c] ++ b) <-> occurs m a \/ occurs m b).
Proof.
  intros m c a b N0 Nc. split.
  - intros (p & q & E). cbn [List.app] in E. apply app_eq_app in E as (l & [(E1 & E2)|(E1 & E2)]).
    + apply app_eq_app in E2 as (l2 & [(E3 & E4)|(E3 & E4)]).
      * destruct l2 as [|y l2]; [left; exists p, []; rewrite E1, E3, !app_nil_r; reflexivity|]. cbn in E4. injection E4 as <- _. exfalso. apply Nc. rewrite E3. apply in_or_app. right. now left.
      * left. exists p, l2. rewrite E1, E3. now rewrite app_assoc.
    + destruct l as [|y l].
      * cbn in E2. destruct m as [|z m]; [congruence|]. injection E2 as <- _. exfalso. apply Nc. now left.
      * injection E2 as <- E2. right. exists l, q. now symmetry.
  - intros [(p & q & ->)|(p & q & ->)].
    + exists p, (q ++ [c] ++ b). now rewrite <- !app_assoc.
    + exists (a ++ [c] ++ p), q. now rewrite <- !app_assoc.
Qed.
Lemma occurs_join : forall (m : str) c outs, m <> [] -> ~ In c m -> (occurs m (join [c] outs) <-> exists o, In o outs /\ occurs m o).
Proof.
  intros m c outs N0 Nc. induction outs as [|o outs IH].
  - cbn [join]. split; [|intros (o & [] & _)]. intros (p & q & E). symmetry in E. apply app_eq_nil in E as [_ E]. apply app_eq_nil in E as [E _]. congruence.
  - destruct outs as [|o2 outs].
    + cbn [join]. split; [intros H; exists o; split; [now left|exact H]|intros (x & [<-|[]] & H); exact H].
    + rewrite join_cons by discriminate. rewrite occurs_sep by assumption. rewrite IH. split.
      * intros [H|(x & Hx & H)]; [exists o; split; [now left|exact H]|exists x; split; [now right|exact H]].
      * intros (x & [<-|Hx] & H); [left; exact H|right; exists x; split; assumption].
Qed.
Lemma occurs_trail : forall (m0 : str) z out ws, isspace z = false -> forallb isspace ws = true -> (occurs (m0 ++ [z]) (out ++ ws) <-> occurs (m0 ++ [z]) out).
Proof.
  intros m0 z out ws Hz B. split.
  - intros (p & q & E). rewrite app_assoc in E. symmetry in E. apply app_eq_app in E as (l & [(E1 & E2)|(E1 & E2)]).
    + destruct l as [|y l0] using rev_ind.
      * rewrite app_nil_r in E1. exists p, []. rewrite app_nil_r. now symmetry.
      * clear IHl0. exfalso. rewrite app_assoc in E1. rewrite (app_assoc out) in E1. apply app_inj_tail in E1 as [_ <-].
        rewrite E2 in B. rewrite forallb_app, forallb_app in B. cbn [forallb] in B. rewrite Hz in B. rewrite andb_false_r in B. discriminate.
    + exists p, l. rewrite E1. now rewrite <- app_assoc.
  - intros (p & q & ->). exists p, (q ++ ws). now rewrite <- !app_assoc.
Qed.
Lemma main_exact : forall text, is_main_tex_file text = true <-> marked_main text.
Proof.
  intros text. unfold is_main_tex_file, marked_main. rewrite orb_true_iff, <- !occurs_dec.
  destruct (c09_lines text) as (lines & outs & L & F & ->).
  assert (M : forall m0 z, isspace z = false -> ~ In c_nl (m0 ++ [z]) -> (occurs (m0 ++ [z]) (join [c_nl] outs) <-> exists line cut, In line lines /\ uncommented line cut /\ occurs (m0 ++ [z]) cut)).
  { intros m0 z Hz Nn. rewrite occurs_join by (try assumption; destruct m0; discriminate). clear L. induction F as [|line out lines outs (cut & ws & U & Ec & B & _) F IH].
    - split; [intros (o & [] & _)|intros (l & c & [] & _)].
    - split.
      + intros (o & [<-|Ho] & H).
        * exists line, cut. split; [now left|]. split; [exact U|]. rewrite Ec. apply occurs_trail; assumption.
        * destruct (proj1 IH) as (l & c & Hl & Hc & Hm); [exists o; split; assumption|]. exists l, c. split; [now right|]. split; assumption.
      + intros (l & c & [<-|Hl] & Hc & Hm).
        * exists out. split; [now left|]. replace c with cut in Hm by (apply (proj2 (c09_fun [] [] [] line cut c)); assumption).
          rewrite Ec in Hm. apply occurs_trail in Hm; assumption.
        * destruct (proj2 IH) as (o & Ho & H); [exists l, c; split; [assumption|split; assumption]|]. exists o. split; [now right|exact H]. }
  pose proof (M (lit "\documentclas") 115%N eq_refl ltac:(cbn; intuition discriminate)) as M1.
  pose proof (M (lit "\begin{document") 125%N eq_refl ltac:(cbn; intuition discriminate)) as M2.
  change (lit "\documentclas" ++ [115%N]) with (lit "\documentclass") in M1.
  change (lit "\begin{document" ++ [125%N]) with (lit "\begin{document}") in M2.
  rewrite M1, M2. split.
  - intros [(l & c & H1 & H2 & H3)|(l & c & H1 & H2 & H3)]; exists lines, l, c; auto.
  - intros (ls & l & c & L' & H1 & H2 & H3). replace ls with lines in H1 by (apply (proj1 (c09_fun text lines ls [] [] [])); assumption).
    destruct H3 as [H3|H3]; [left|right]; exists l, c; auto.
Qed.
Lemma first_main_ext : forall (P Q : str -> Prop) w r f, (forall t, P t <-> Q t) -> first_main P w r f -> first_main Q w r f.
Proof.
  intros P Q w r f E (d1 & f1 & c & f2 & d2 & A & B & C & D). exists d1, f1, c, f2, d2. split; [exact A|]. split; [exact B|]. split; [now apply E|].
  intros d g t X Y Z. apply (D d g t X Y). now apply E.
Qed.
Lemma c52_some : forall w root f, find_main_tex_file w = Some (root, f) -> first_main marked_main w root f.
Proof. intros w root f H. apply first_main_ext with main_text; [apply main_exact|]. apply find_main_some. exact H. Qed.
Lemma c52_none : forall w, find_main_tex_file w = None <-> no_main marked_main w.
Proof.
  intros w. rewrite find_main_none. unfold no_main. split; intros H d f t A B C D; apply (H d f t A B C); now apply main_exact.
Qed.

Lemma base_nosep : forall p, ~ In c_slash (basename p).
Proof.
  intros p. unfold basename. destruct (exists_last (split_char_nonempty c_slash p)) as (ws & w & E). rewrite E, last_last.
  eapply split_char_nosep. rewrite E. apply in_or_app. right. now left.
Qed.
Lemma in_firstn : forall n (s : str) x, In x (firstn n s) -> In x s.
Proof. intros n s x H. rewrite <- (firstn_skipn n s). apply in_or_app. now left. Qed.
Lemma gz_entry : forall (lower : str -> str) p, lower [] = [] -> lower (lit ".") = lit "." -> lower (lit "..") = lit ".." -> entry_name (gz_output lower p).
Proof.
  intros lower p L0 L1 L2. pose proof (base_nosep p) as B. unfold gz_output. set (base := basename p) in *. clearbody base.
  set (out := if endswith (lower base) (lit ".gz") then _ else _).
  assert (O : ~ In c_slash out).
  { unfold out. destruct (endswith (lower base) (lit ".gz")); intros H.
    - apply B. eapply in_firstn. exact H.
    - apply in_app_or in H as [H|H]; [exact (B H)|cbn in H; intuition discriminate]. }
  clearbody out. destruct (endswith (lower out) (lit ".tex")) eqn:E.
  - repeat split; try exact O; intros ->; [rewrite L0 in E|rewrite L1 in E|rewrite L2 in E]; discriminate.
  - assert (LL : 4 <= length (out ++ lit ".tex")) by (rewrite app_length; cbn; lia).
    repeat split.
    + intros X. rewrite X in LL. cbn in LL. lia.
    + intros X. rewrite X in LL. cbn in LL. lia.
    + intros X. rewrite X in LL. cbn in LL. lia.
    + intros H. apply in_app_or in H as [H|H]; [exact (O H)|cbn in H; intuition discriminate].
Qed.

(** ** Cases *)
Definition sample_temp : loc := [lit "tmp"; lit "x"].
Definition sample_fs : fs := fun p =>
  if loc_eq_dec p [] then Some NDir else if loc_eq_dec p [lit "tmp"] then Some NDir
  else if loc_eq_dec p sample_temp then Some NDir else if loc_eq_dec p [lit "etc"] then Some NDir
  else if loc_eq_dec p [lit "etc"; lit "passwd"] then Some NFile else None.
Lemma sample_temp_ok : temp_ok sample_temp.
Proof. split; [|discriminate]. repeat constructor; try discriminate; intros H; cbn in H; intuition discriminate. Qed.
Lemma sample_fresh : fresh_dir sample_fs sample_temp.
Proof.
  split.
  - intros a b E. destruct a as [|x a]; [reflexivity|]. injection E as <- E. destruct a as [|y a]; [reflexivity|]. injection E as <- E. destruct a; [reflexivity|discriminate].
  - intros p (r & N0 & ->). destruct r as [|c r]; [congruence|]. unfold sample_fs.
    repeat (match goal with |- context[loc_eq_dec ?a ?b] => destruct (loc_eq_dec a b) as [E|_] end; [cbn in E; try discriminate E; exfalso; injection E as E; try discriminate E; try congruence|]). reflexivity.
Qed.
Definition evil : list member := [{| m_name := lit "l"; m_kind := KSym (lit "/etc") |}; {| m_name := lit "l/passwd"; m_kind := KFile |}].
Definition evil_rel : list member := [{| m_name := lit "l"; m_kind := KSym (lit "../../etc") |}; {| m_name := lit "l/passwd"; m_kind := KFile |}].
Lemma c32_refuted : exists k cwd T f ms p, temp_ok T /\ fresh_dir f T /\
  (forall m, In m ms -> accepted cwd (path_of T) (m_name m) = true) /\
  In p (touched (fst (extract_tar k cwd T f ms))) /\ f p = Some NFile /\ ~ below T p.
Proof.
  exists 20, (lit "/home"), sample_temp, sample_fs, evil, [lit "etc"; lit "passwd"].
  split; [exact sample_temp_ok|]. split; [exact sample_fresh|]. split; [intros m [<-|[<-|[]]]; vm_compute; reflexivity|].
  split; [vm_compute; left; reflexivity|]. split; [reflexivity|]. intros (r & _ & E). discriminate.
Qed.
Definition good : list member :=
  [{| m_name := lit "./"; m_kind := KDir |}; {| m_name := lit "src/main.tex"; m_kind := KFile |}; {| m_name := lit "../evil"; m_kind := KFile |};
   {| m_name := lit "fig"; m_kind := KSym (lit "src") |}; {| m_name := lit "fig/a.tex"; m_kind := KFile |}].
Lemma good_harmless : forall m, In m good -> harmless m.
Proof.
  intros m [<-|[<-|[<-|[<-|[<-|[]]]]]]; try exact I. split; [discriminate|]. intros H. vm_compute in H. destruct H as [H|[]]. discriminate.
Qed.
Lemma good_result : let r := extract_tar 20 (lit "/home") sample_temp sample_fs good in
  snd r = true /\ touched (fst r) = [sample_temp ++ [lit "src"; lit "a.tex"]; sample_temp ++ [lit "fig"]; sample_temp ++ [lit "src"; lit "main.tex"]; sample_temp ++ [lit "src"]].
Proof. vm_compute. split; reflexivity. Qed.
Lemma zip_result : let r := extract_zip 20 (lit "/home") sample_temp sample_fs [lit "a/"; lit "a/b.tex"; lit "/etc/x"; lit "../y"] in
  snd r = true /\ touched (fst r) = [sample_temp ++ [lit "a"; lit "b.tex"]; sample_temp ++ [lit "a"]].
Proof. vm_compute. split; reflexivity. Qed.
Lemma c31_over : exists cwd T name, temp_ok T /\ lexical T (split_char c_slash name) (T ++ [lit "fig..1.tex"]) /\ accepted cwd (path_of T) name = false.
Proof.
  exists (lit "/home"), sample_temp, (lit "fig..1.tex"). split; [exact sample_temp_ok|]. split; [|vm_compute; reflexivity].
  cbn. apply lx_down; try discriminate. apply lx_end.
Qed.
Lemma c52_case : first_main marked_main [(lit "/d", [(lit "a.tex", Some (lit "%\documentclass{a}")); (lit "b.txt", Some (lit "\documentclass{a}")); (lit "c.tex", None)]);
    (lit "/d/e", [(lit "m.tex", Some (lit "\documentclass{a}"))])] (lit "/d/e") (lit "m.tex").
Proof. apply c52_some. vm_compute. reflexivity. Qed.
