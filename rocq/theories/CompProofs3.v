(** C108: entries, the text made of them, files. *)
From Coq Require Import List NArith ZArith PeanoNat Lia Bool String.
From Verif Require BibProofs3 BibParserProofs KeyvalProofs2.
From Verif Require Import PyStr Regex RegexLemmas RegexHead RegexLocal DelimFinal EqProofs StyleSpec ItemSpec CommandSpec KeyvalModel BibModel BibSpec BibitemSpec CompModel CompSpec CompProofs CompProofs2.
Import ListNotations. Notation length := List.length. Notation concat := List.concat. Open Scope list_scope.
Local Notation fm := RegexHead.first_match.
Definition put (d : list (str * str)) (kv : str * str) : list (str * str) := sset (fst kv) (snd kv) d.
Lemma put_keep : forall k t (d : list (str * str)) fs, (forall a b, In (a, b) fs -> a <> lit "key" /\ a <> lit "type") ->
  fold_left put fs ((lit "key", k) :: (lit "type", t) :: d) = (lit "key", k) :: (lit "type", t) :: fold_left put fs d.
Proof.
  intros k t d fs. revert d. induction fs as [|[a b] fs IH]; intros d H; [reflexivity|].
  assert (E : put ((lit "key", k) :: (lit "type", t) :: d) (a, b) = (lit "key", k) :: (lit "type", t) :: put d (a, b)).
  { destruct (H a b (or_introl eq_refl)) as (N1 & N2). unfold put. cbn [sset fst snd]. apply KeyvalProofs2.str_eqb_neq in N1, N2. rewrite N1, N2. reflexivity. }
  change (fold_left put ((a, b) :: fs) ((lit "key", k) :: (lit "type", t) :: d)) with (fold_left put fs (put ((lit "key", k) :: (lit "type", t) :: d) (a, b))).
  rewrite E, IH; [reflexivity|]. intros x y I. apply (H x y). right. exact I.
Qed.
Lemma sset_keys : forall k v d, map fst (sset k v d) = if existsb (str_eqb k) (map fst d) then map fst d else map fst d ++ [k].
Proof.
  intros k v. induction d as [|[k' w] d IH]; [reflexivity|]. cbn [sset map existsb fst]. destruct (str_eqb k k') eqn:E; [reflexivity|]. cbn [map fst orb]. rewrite IH. destruct (existsb (str_eqb k) (map fst d)); reflexivity.
Qed.
Lemma sset_nodup : forall k v d, NoDup (map fst d) -> NoDup (map fst (sset k v d)).
Proof.
  intros k v d N. rewrite sset_keys. destruct (existsb (str_eqb k) (map fst d)) eqn:E; [exact N|]. apply NoDup_rev in N. rewrite <- (rev_involutive (map fst d ++ [k])). apply NoDup_rev. rewrite rev_app_distr. cbn. constructor; [|exact N].
  intros I. apply in_rev in I. assert (X : existsb (str_eqb k) (map fst d) = true) by (apply existsb_exists; exists k; split; [exact I|apply str_eqb_refl]). congruence.
Qed.
Lemma puts_nodup : forall fs d, NoDup (map fst d) -> NoDup (map fst (fold_left put fs d)).
Proof. induction fs as [|kv fs IH]; intros d N; [exact N|]. cbn [fold_left]. apply IH. apply sset_nodup. exact N. Qed.
Lemma puts_in : forall fs d k v, In (k, v) (fold_left put fs d) -> In k (map fst d) \/ In k (map fst fs).
Proof.
  induction fs as [|[a b] fs IH]; intros d k v I; [left; apply (in_map fst) in I; exact I|]. cbn [fold_left] in I. apply IH in I as [I|I]; [|right; right; exact I].
  unfold put in I. rewrite sset_keys in I. cbn [fst snd] in I. destruct (existsb _ _); [left; exact I|]. apply in_app_or in I as [I|[<-|[]]]; [left; exact I|right; left; reflexivity].
Qed.
Lemma the_nodup : forall c, NoDup (map fst (the_fields c)).
Proof. intros c. apply (puts_nodup (all_fields c) []). constructor. Qed.
Lemma the_clash : forall c, no_clash c -> forall k v, In (k, v) (the_fields c) -> k <> lit "key" /\ k <> lit "type".
Proof. intros c N k v I. apply (puts_in (all_fields c) [] k v) in I as [[]|I]. apply in_map_iff in I as ([a b] & <- & I). exact (N a b I). Qed.
(** * The dictionary of an entry *)
Section Any.
Variable isword : ch -> bool.
Hypothesis W : BibSpec.word_class isword.
Hypothesis Hl : forall x, letter x -> isword x = true.
Lemma word_nospace : forall x, isword x = true -> isspace x = false.
Proof. intros x X. apply W in X as (X & _). exact X. Qed.
Lemma entry_read : forall raw text c, expanded isword raw text -> says isword text c -> no_clash c ->
  parse_compiled_bibtex_entry isword raw = Some ((lit "key", c_key c) :: (lit "type", c_type c) :: the_fields c).
Proof.
  intros raw text c X ((key & ty & options & body & E & N1 & N2 & R1 & R2 & R3 & -> & ->) & A & F & P) N. unfold parse_compiled_bibtex_entry. rewrite (replacements_ok isword Hl word_nospace _ _ X).
  destruct (header_read key ty options body N1 N2 R1 R2 R3) as (h & S & G1 & G2). rewrite <- E in S, G1, G2. cbv zeta. rewrite S, G1, G2, (authors_read isword W _ _ A).
  assert (FR : forall e, fields text (re_finditer FIELD text) e = Some (fold_left put (flat_map kept_field (c_fields c)) e)).
  { intros e. change (re_finditer FIELD text) with (iter_at FIELD text 0). apply (fields_read _ _ F); [lia|reflexivity]. }
  rewrite FR. pose proof (eprint_read _ _ P) as PE.
  assert (H2 : match re_search EPRINT text with Some m => fun d => sset (lit "eprint") (strip (group text 1 m)) d | None => fun d => d end = fun d => fold_left put (match c_eprint c with Some e => [(lit "eprint", e)] | None => [] end) d).
  { destruct (re_search EPRINT text) as [m|]; rewrite <- PE; reflexivity. }
  set (e0 := fold_left put (flat_map kept_field (c_fields c)) _).
  assert (H3 : match re_search EPRINT text with Some m => sset (lit "eprint") (strip (group text 1 m)) e0 | None => e0 end = fold_left put (match c_eprint c with Some e => [(lit "eprint", e)] | None => [] end) e0).
  { apply (f_equal (fun f => f e0)) in H2. destruct (re_search EPRINT text); exact H2. }
  rewrite H3. f_equal. unfold e0. unfold the_fields, fields_dict. rewrite <- fold_left_app.
  change (fun (d : list (str * str)) (kv : str * str) => sset (fst kv) (snd kv) d) with put.
  unfold no_clash in N. unfold all_fields in *. destruct (c_people c) as [|p ps].
  - cbn [List.app] in *. apply (put_keep _ _ [] _ N).
  - cbn [List.app] in *. rewrite (put_keep _ _ [(lit "author", with_and (map printed (p :: ps)))]); [reflexivity|]. intros a b I. apply (N a b). right. exact I.
Qed.
End Any.
(** * The text made of it *)
Lemma sget_filter : forall k d, NoDup (map fst d) -> match sget k d with Some v => [(k, v)] | None => [] end = filter (fun kv => str_eqb k (fst kv)) d.
Proof.
  intros k. induction d as [|[k' v] d IH]; intros N; [reflexivity|]. cbn [sget filter fst]. inversion N as [|? ? N1 N2]; subst. destruct (str_eqb k k') eqn:E; [|apply IH; exact N2].
  apply str_eqb_spec in E. subst k'. f_equal. clear IH N N2. induction d as [|[a b] d IH]; [reflexivity|]. cbn [filter fst map] in *. destruct (str_eqb k a) eqn:E; [apply str_eqb_spec in E; subst a; exfalso; apply N1; left; reflexivity|]. apply IH. intros I. apply N1. right. exact I.
Qed.
Definition line (kv : str * str) : str := field_line (fst kv) (snd kv).
Lemma join_lines : forall h ls z, join [c_nl] ([h] ++ ls ++ [z]) = h ++ [c_nl] ++ concat (map (fun l => l ++ [c_nl]) ls) ++ z.
Proof.
  intros h ls z. revert h. induction ls as [|l ls IH]; intros h; [reflexivity|]. change ([h] ++ (l :: ls) ++ [z]) with (h :: [l] ++ ls ++ [z]). change (join [c_nl] (h :: [l] ++ ls ++ [z])) with (h ++ [c_nl] ++ join [c_nl] ([l] ++ ls ++ [z])). rewrite IH. cbn [map concat]. rewrite <- !app_assoc. reflexivity.
Qed.
Lemma map_flat : forall (A B C : Type) (g : B -> C) (f : A -> list B) l, flat_map (fun x => map g (f x)) l = map g (flat_map f l).
Proof. intros A B C g f. induction l as [|x l IH]; [reflexivity|]. cbn [flat_map]. rewrite map_app, IH. reflexivity. Qed.
Lemma convert_ok : forall key ty fs, NoDup (map fst fs) -> (forall k v, In (k, v) fs -> k <> lit "key" /\ k <> lit "type") ->
  convert_to_regular_bibtex ((lit "key", key) :: (lit "type", ty) :: fs) = bib_text ty key (arranged fs).
Proof.
  intros key ty fs N H. unfold convert_to_regular_bibtex. set (d := (lit "key", key) :: (lit "type", ty) :: fs).
  assert (S1 : sget (lit "type") d = Some ty) by reflexivity. assert (S2 : sget (lit "key") d = Some key) by reflexivity. rewrite S1, S2. cbv zeta.
  assert (S3 : flat_map (fun k => match sget k d with Some v => [field_line k v] | None => [] end) field_order = map line (flat_map (fun k => filter (fun kv => str_eqb k (fst kv)) fs) first_names)).
  { rewrite <- map_flat. change field_order with first_names.
    assert (X : forall k, In k first_names -> match sget k d with Some v => [field_line k v] | None => [] end = map line (filter (fun kv => str_eqb k (fst kv)) fs)).
    { intros k I. rewrite <- (sget_filter k fs N). assert (Sk : sget k d = sget k fs). { unfold first_names in I. cbn [In] in I. repeat (destruct I as [<-|I]; [reflexivity|]). destruct I. } rewrite Sk. destruct (sget k fs); reflexivity. }
    revert X. generalize first_names. induction l as [|k l IH]; intros X; [reflexivity|]. cbn [flat_map]. rewrite X by (left; reflexivity). rewrite IH; [reflexivity|]. intros k' I. apply X. right. exact I. }
  assert (S4 : flat_map (fun kv => if str_eqb (fst kv) (lit "key") || str_eqb (fst kv) (lit "type") || in_order (fst kv) then [] else [field_line (fst kv) (snd kv)]) d = map line (filter (fun kv => negb (existsb (str_eqb (fst kv)) first_names)) fs)).
  { unfold d. change (flat_map (fun kv => if str_eqb (fst kv) (lit "key") || str_eqb (fst kv) (lit "type") || in_order (fst kv) then [] else [field_line (fst kv) (snd kv)]) fs = map line (filter (fun kv => negb (existsb (str_eqb (fst kv)) first_names)) fs)).
    clear N S1 S2 S3. clear d. induction fs as [|[k v] fs IH]; [reflexivity|]. cbn [flat_map filter fst snd]. destruct (H k v (or_introl eq_refl)) as (N1 & N2). apply KeyvalProofs2.str_eqb_neq in N1, N2. rewrite N1, N2. cbn [orb]. rewrite IH by (intros a b I; apply (H a b); right; exact I). change (in_order k) with (existsb (str_eqb k) first_names). destruct (existsb (str_eqb k) first_names); reflexivity. }
  rewrite S3, S4. rewrite (app_assoc (map line _) (map line _)), <- map_app. fold (arranged fs). rewrite join_lines. unfold bib_text. rewrite map_map.
  assert (L : forall kv, line kv ++ [c_nl] = lit "  " ++ fst kv ++ lit " = {" ++ snd kv ++ lit "}," ++ [10%N]). { intros kv. unfold line, field_line. rewrite <- !app_assoc. reflexivity. }
  rewrite (map_ext _ _ L). rewrite <- !app_assoc. reflexivity.
Qed.
