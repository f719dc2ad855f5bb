(** C27: the files that are read. *)
From Coq Require Import List NArith ZArith PeanoNat Lia Bool String.
From Verif Require Import PyStr Regex Json TexUtilsModel BuilderModel TokensModel TokensSpec TokensProofs TableProofs2 ContentProofs.
Import ListNotations. Notation length := List.length. Notation concat := List.concat. Open Scope list_scope.

Lemma paths_named : forall ps, files_named ps (map strip (filter (fun p => negb (str_eqb (strip p) [])) ps)).
Proof.
  induction ps as [|p ps IH]; [apply fn_nil|]. cbn [filter]. destruct (str_eqb (strip p) []) eqn:E; cbn [negb map].
  - apply fn_blank; [apply str_eqb_spec; exact E|exact IH].
  - apply fn_name; [|exact IH]. intros X. rewrite X in E. discriminate E.
Qed.
Lemma mmap_inv : forall A B (f : A -> res B) l, (exists ys, mmap f l = Ok ys /\ Forall2 (fun x y => f x = Ok y) l ys) \/ (exists e x, In x l /\ f x = Raise e /\ mmap f l = Raise e).
Proof.
  induction l as [|x l IH]; [left; exists []; split; [reflexivity|constructor]|]. cbn [mmap]. destruct (f x) as [y|e] eqn:E.
  - destruct IH as [(ys & E1 & F)|(e & z & I & Ez & E1)]; rewrite E1; [left; exists (y :: ys); split; [reflexivity|constructor; assumption]|right; exists e, z; split; [right; exact I|split; [exact Ez|reflexivity]]].
  - right. exists e, x. split; [left; reflexivity|split; [exact E|reflexivity]].
Qed.
Lemma tokens_files : forall parse pf dir ps, exists tss, Forall2 (file_tokens parse pf dir) ps tss /\ bib_tokens parse pf dir ps = concat tss.
Proof.
  induction ps as [|p ps (tss & F & E)]; [exists []; split; [constructor|reflexivity]|]. cbn [bib_tokens]. fold (in_dir dir p). destruct (pf (in_dir dir p)) as [es|x] eqn:Ep; cbn [bind].
  - destruct (mmap_inv _ _ (convert_bibentry parse) es) as [(ys & E1 & F1)|(e & z & I & Ez & E1)]; rewrite E1, E.
    + exists (ys :: tss). split; [constructor; [exact (ft_read _ _ _ _ es ys Ep F1)|exact F]|reflexivity].
    + exists ([] :: tss). split; [constructor; [exact (ft_entry _ _ _ _ es z e Ep I Ez)|exact F]|reflexivity].
  - exists ([] :: tss). split; [constructor; [exact (ft_unreadable _ _ _ _ x Ep)|exact F]|rewrite E; reflexivity].
Qed.
Theorem c27_files : forall parse pf dir names, names <> [] -> (forall n, In n names -> ~ In c_comma n) -> exists files tss out,
  files_named names files /\ Forall2 (file_tokens parse pf dir) files tss /\
  parse_bib_file parse pf dir (join [c_comma] names) = Ok [(k_type, VStr (lit "bibliography")); (k_content, VList (map (fun d => VDict d) out))] /\
  first_occurrences (concat tss) out.
Proof.
  intros parse pf dir names N C. destruct (c27_first parse pf dir (join [c_comma] names)) as (out & E & F). unfold bib_paths in F. rewrite split_join in F by assumption.
  destruct (tokens_files parse pf dir (map strip (filter (fun p => negb (str_eqb (strip p) [])) names))) as (tss & Ft & Et). rewrite Et in F.
  exists (map strip (filter (fun p => negb (str_eqb (strip p) [])) names)), tss, out. repeat split; try assumption; try apply F; try apply paths_named.
Qed.
Lemma c27_files_case : files_named [lit "a"; lit " "; lit " b "; lit "c"] [lit "a"; lit "b"; lit "c"].
Proof. apply fn_name; [discriminate|]. apply fn_blank; [reflexivity|]. apply (fn_name (lit " b ")); [discriminate|]. apply fn_name; [discriminate|]. apply fn_nil. Qed.
