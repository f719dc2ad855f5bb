(** C108: what an entry says is what is read. *)
From Coq Require Import List NArith ZArith PeanoNat Lia Bool String.
From Verif Require BibProofs3 FormatProofs3 BibParserProofs ExtractProofs2 BibProofs2 TextProofs2 CommandCases.
From Verif Require Import PyStr Regex RegexLemmas RegexHead RegexLocal DelimSpec DelimProofs DelimFinal TexUtilsModel EqProofs StyleSpec ItemSpec CommandSpec CommandProofs4 KeyvalModel BibModel BibSpec BibitemSpec CompModel CompSpec CompProofs.
Import ListNotations. Notation length := List.length. Notation concat := List.concat. Open Scope list_scope.
Local Notation fm := RegexHead.first_match.
Lemma no_rb_forall : forall s, ~ In c_rb s -> forallb (fun x => negb (N.eqb x c_rb)) s = true.
Proof. intros s N. apply forallb_forall. intros x I. destruct (N.eqb_spec x c_rb) as [->|_]; [contradiction|reflexivity]. Qed.
Lemma cap_slice : forall t i s r, skipn i t = s ++ r -> slice i (i + length s) t = s.
Proof. intros t i s r E. unfold slice. rewrite E. replace (i + length s - i) with (length s) by lia. apply firstn_app_exact. reflexivity. Qed.
(** * Header *)
Lemma header_read : forall key ty options body, key <> [] -> ty <> [] -> ~ In c_rb key -> ~ In c_rb ty -> ~ In c_rb options ->
  let t := lit "\entry{" ++ key ++ lit "}{" ++ ty ++ lit "}{" ++ options ++ [c_rb] ++ body in
  exists m, re_search HEADER t = Some m /\ group t 1 m = key /\ group t 2 m = ty.
Proof.
  intros key ty options body N1 N2 R1 R2 R3 t. assert (E : skipn 0 t = lit "\entry{" ++ key ++ lit "}{" ++ ty ++ lit "}{" ++ options ++ [c_rb] ++ body) by reflexivity.
  pose proof (skipn_more _ _ _ _ E) as E1. pose proof (skipn_more _ _ _ _ E1) as E2. pose proof (skipn_more _ _ _ _ E2) as E3. pose proof (skipn_more _ _ _ _ E3) as E4. pose proof (skipn_more _ _ _ _ E4) as E5. pose proof (skipn_more _ _ _ _ E5) as E6.
  eexists. split.
  - apply fm_search0. unfold HEADER. cbn [rseq]. eapply fm_seq; [apply (fm_rstr (lit "\entry{") _ _ _ _ E)|]. eapply fm_seq; [apply fm_grp; apply (fm_plus _ _ _ _ key _ E1 N1 (no_rb_forall _ R1)); reflexivity|].
    eapply fm_seq; [apply (fm_rstr (lit "}{") _ _ _ _ E2)|]. eapply fm_seq; [apply fm_grp; apply (fm_plus _ _ _ _ ty _ E3 N2 (no_rb_forall _ R2)); reflexivity|].
    eapply fm_seq; [apply (fm_rstr (lit "}{") _ _ _ _ E4)|]. eapply fm_seq; [apply (fm_star _ _ _ _ options _ E5 (no_rb_forall _ R3)); reflexivity|]. eapply fm_is_ch. exact E6.
  - unfold group, m_group. cbn [m_caps cap_get Nat.eqb option_map]. split; [exact (cap_slice _ _ _ _ E1)|exact (cap_slice _ _ _ _ E3)].
Qed.
(** * Names *)
Lemma first_not_rb : forall v, good_body v -> v <> [] -> exists a b, v ++ [c_rb] = a ++ c_rb :: b /\ a <> [] /\ ~ In c_rb a.
Proof.
  intros v (B & _) N. destruct v as [|x v]; [congruence|].
  assert (X : x <> c_rb). { intros ->. unfold marks in B. cbn [mark] in B. inversion B as [|? ? ? H|]; subst. destruct H as [H|[_ H]]; [discriminate|congruence]. }
  assert (S : forall s : str, exists a b, s ++ [c_rb] = a ++ c_rb :: b /\ ~ In c_rb a).
  { induction s as [|y s (a & b & E & Na)]; [exists [], []; split; [reflexivity|intros []]|]. destruct (N.eq_dec y c_rb) as [->|Ny]; [exists [], (s ++ [c_rb]); split; [reflexivity|intros []]|].
    exists (y :: a), b. split; [cbn [List.app]; rewrite E; reflexivity|]. intros [->|I]; [congruence|contradiction]. }
  destruct (S v) as (a & b & E & Na). exists (x :: a), b. split; [cbn [List.app]; rewrite E; reflexivity|]. split; [discriminate|]. intros [->|I]; [congruence|contradiction].
Qed.
Lemma heads_part : forall k, heads (NAMEPART k) (lit k ++ lit "={").
Proof.
  intros k t i j R. unfold NAMEPART in R. cbn [rseq] in R. apply rel_rseq2 in R as (k1 & R1 & R). apply rel_grp1 in R1. apply rel_rstr in R1 as (-> & q & E). apply rel_rseq2 in R as (k2 & R2 & _). apply rel_is_ch in R2 as (_ & r & E2). apply skipn_more in E as E1. rewrite E2 in E1. exists r. rewrite E, <- E1, <- !app_assoc. reflexivity.
Qed.
Lemma part_read : forall k block value, (forall x r, lit k = x :: r -> ~ In x (r ++ lit "={")) -> lit k <> [] -> has_part k block value ->
  exists m, re_search (NAMEPART k) block = Some m /\ fst (extract_nested_content (skipn (group_end 1 m) block) c_lb c_rb) = Some value.
Proof.
  intros k block value Hk Nk (a & b & E & No & Nv & G). destruct (first_not_rb value G Nv) as (c & d & Ec & Nc & Rc).
  set (rest := lit k ++ lit "={" ++ value ++ [c_rb] ++ b) in *. assert (E0 : skipn (length a) block = (lit k ++ lit "=") ++ c_lb :: c ++ c_rb :: d ++ b).
  { rewrite E, skipn_app_exact by reflexivity. unfold rest. rewrite <- app_assoc. f_equal. change (lit "={" ++ value ++ [c_rb] ++ b) with (lit "=" ++ c_lb :: value ++ [c_rb] ++ b). f_equal. f_equal. rewrite app_assoc, Ec, <- app_assoc. reflexivity. }
  pose proof (skipn_more _ _ _ _ E0) as E1. change (c_lb :: c ++ c_rb :: d ++ b) with ([c_lb] ++ c ++ c_rb :: d ++ b) in E1. pose proof (skipn_more _ _ _ _ E1) as E2. pose proof (skipn_more _ _ _ _ E2) as E3.
  eexists. split.
  - eapply (search_here _ (lit k ++ lit "={") block a rest); [apply heads_part|exact E| |].
    + apply absent_word; [destruct (lit k); [congruence|discriminate]|exact No|]. intros x r Er. unfold rest in Er. destruct (lit k) as [|y q] eqn:Ek; [congruence|]. cbn [List.app] in Er. injection Er as -> _. cbn [List.app tl]. apply (Hk x q eq_refl).
    + apply fm_match. unfold NAMEPART. cbn [rseq]. eapply fm_seq; [apply fm_grp; apply (fm_rstr (lit k ++ lit "=") _ _ _ _ E0)|]. eapply fm_seq; [eapply fm_is_ch; exact E1|]. replace (S (length a + length (lit k ++ lit "="))) with (length a + length (lit k ++ lit "=") + length [c_lb]) by (cbn [List.length]; lia).
      eapply fm_seq; [apply fm_grp; apply (fm_plus _ _ _ _ c _ E2 Nc (no_rb_forall _ Rc)); reflexivity|]. eapply fm_is_ch. exact E3.
  - unfold group_end. cbn [m_caps cap_get Nat.eqb].
    assert (E4 : skipn (length a + length (lit k ++ lit "=")) block = c_lb :: value ++ [c_rb] ++ b).
    { rewrite E1. cbn [List.app]. f_equal. change (c ++ c_rb :: d ++ b) with (c ++ (c_rb :: d) ++ b). rewrite (app_assoc c), <- Ec, <- app_assoc. reflexivity. }
    rewrite E4, FormatProofs3.group_end by exact G. reflexivity.
Qed.
Lemma person_read : forall block family given, is_person block family given -> person block = Some [printed (family, given)].
Proof.
  intros block family given (F & G). unfold person.
  destruct (part_read "family" block family) as (m1 & S1 & X1); [intros x r E; injection E as <- <-; cbn; intuition discriminate|discriminate|exact F|].
  destruct (part_read "given" block given) as (m2 & S2 & X2); [intros x r E; injection E as <- <-; cbn; intuition discriminate|discriminate|exact G|].
  rewrite S1, S2. cbv zeta. rewrite X1, X2. reflexivity.
Qed.
Section Any.
Variable isword : ch -> bool.
Hypothesis W : BibSpec.word_class isword.
Lemma heads_hash : heads (HASH isword) (lit "{hash=").
Proof. unfold HASH. cbn [rseq]. apply heads_seq. Qed.
Lemma people_read : forall s ps, names_list isword s ps -> forall t pos, pos <= length t -> skipn pos t = s -> people t (iter_at (HASH isword) t pos) = Some (map printed ps).
Proof.
  intros s ps N. induction N as [junk No|junk hash block family given rest ps No Wh G Nb P N IH]; intros t pos L E.
  - rewrite (iter_nowhere (HASH isword) (lit "{hash=")) with (s := junk); [reflexivity|cbn; lia|apply heads_hash|discriminate|exact L|exact E|exact No].
  - rewrite (iter_absent (HASH isword) (lit "{hash=")) with (a := junk) (rest := lit "{hash=" ++ hash ++ lit "}{" ++ block ++ [c_rb] ++ rest); [|cbn; lia|apply heads_hash|exact E|].
    2: { apply absent_word; [discriminate|exact No|]. intros x r Er. injection Er as <- _. cbn. intuition discriminate. }
    pose proof (skipn_more _ _ _ _ E) as E1. set (p := pos + length junk) in *. pose proof (skipn_more _ _ _ _ E1) as E2. pose proof (skipn_more _ _ _ _ E2) as E3. pose proof (skipn_more _ _ _ _ E3) as E4. change (length (lit "{hash=")) with 6 in *. change (length (lit "}{")) with 2 in *.
    assert (Lp : p < length t) by (eapply skipn_cons_lt; exact E1). rewrite iter_at_step; [|cbn; lia|exact Lp].
    assert (M : re_match_at (HASH isword) t p = Some {| m_start := p; m_end := p + 6 + length hash + 2; m_caps := [] |}).
    { apply fm_match. unfold HASH. cbn [rseq]. eapply fm_seq; [apply (fm_rstr (lit "{hash=") _ _ _ _ E1)|]. destruct Wh as (Wn & Wf). eapply fm_seq; [apply (fm_plus isword _ _ _ hash _ E2 Wn Wf)|exact (fm_rstr (lit "}{") _ _ _ _ E3)].
      cbn. destruct (isword c_rb) eqn:X; [|exact X]. destruct (W c_rb X) as (_ & Hn & _). exfalso. apply Hn. cbn. auto 10. }
    rewrite M. cbn [people m_end]. replace (p + 6 + length hash + 2 - 1) with (p + 6 + length hash + 1) by lia.
    assert (E5 : skipn (p + 6 + length hash + 1) t = c_lb :: block ++ [c_rb] ++ rest) by (rewrite <- skipn_add, E3; reflexivity).
    rewrite E5, FormatProofs3.group_end by exact G. cbn [fst].
    assert (Ep : match block with [] => Some [] | x :: b => person (x :: b) end = person block).
    { destruct block; [|reflexivity]. destruct P as ((a & b & Eb & _) & _). exfalso. destruct a; discriminate Eb. }
    rewrite Ep, (person_read _ _ _ P).
    assert (E6 : skipn (p + 6 + length hash + 2) t = (block ++ [c_rb]) ++ rest) by (rewrite E4, <- app_assoc; reflexivity).
    pose proof (skipn_more _ _ _ _ E6) as E7.
    assert (I1 : iter_at (HASH isword) t (p + 6 + length hash + 2) = iter_at (HASH isword) t (p + 6 + length hash + 2 + length (block ++ [c_rb]))).
    { rewrite app_length, Nat.add_assoc. rewrite (iter_absent (HASH isword) (lit "{hash=")) with (a := block) (rest := [c_rb] ++ rest); [|cbn; lia|apply heads_hash|exact E4|].
      - apply (iter_absent (HASH isword) (lit "{hash=")) with (rest := rest); [cbn; lia|apply heads_hash|exact (skipn_more _ _ _ _ E4)|].
        intros a1 a2 q Ea Na X. destruct a1 as [|z a1]; [cbn [List.app] in Ea; subst a2; discriminate X|]. destruct a1; destruct a2; try discriminate Ea; congruence.
      - apply absent_word; [discriminate|exact Nb|]. intros x r Er. injection Er as <- _. cbn. intuition discriminate. }
    rewrite I1, (IH t _); [reflexivity| |exact E7]. apply (f_equal (@List.length ch)) in E7. apply (f_equal (@List.length ch)) in E6. rewrite !skipn_length in *. rewrite !app_length in *. cbn [List.length] in *. lia.
Qed.
Lemma with_and_join : forall l, join (lit " and ") l = with_and l.
Proof. induction l as [|a l IH]; [reflexivity|]. cbn [join with_and]. destruct l; [reflexivity|]. rewrite IH. reflexivity. Qed.
Lemma authors_read : forall text ps, authors_in isword text ps -> authors isword text = Some (match ps with [] => None | _ => Some (with_and (map printed ps)) end).
Proof.
  intros text ps [(No & ->)|(a & b & count & options & block & n & E & No & G & N)]; unfold authors.
  - rewrite (search_nowhere AUTHOR (lit "\name{author}")); [reflexivity|intros t i j R; apply rel_rstr in R as (_ & q & E); exists q; exact E|discriminate|exact No].
  - assert (S : re_search AUTHOR text = Some {| m_start := length a; m_end := length a + 13; m_caps := [] |}).
    { eapply (search_here AUTHOR (lit "\name{author}") text a (lit "\name{author}" ++ b)); [intros t i j R; apply rel_rstr in R as (_ & q & Eq); exists q; exact Eq|exact E| |].
      - apply absent_word; [discriminate|exact No|]. intros x r Er. injection Er as <- _. cbn. intuition discriminate.
      - apply fm_match. apply (fm_rstr (lit "\name{author}") _ _ _ b). rewrite E, skipn_app_exact by reflexivity. reflexivity. }
    rewrite S. cbn [m_end]. assert (Sb : skipn (length a + 13) text = b) by (rewrite <- skipn_add, E, skipn_app_exact by reflexivity; reflexivity). rewrite Sb.
    rewrite (blocks_max c_lb c_rb b [count; options; block] n 3 delims_curly G); [|cbn; lia|cbn; lia]. cbn [fst nth_error].
    assert (X : match block with [] => Some [] | _ :: _ => people block (re_finditer (HASH isword) block) end = Some (map printed ps)).
    { destruct block as [|x block]; [|change (re_finditer (HASH isword) (x :: block)) with (iter_at (HASH isword) (x :: block) 0); apply (people_read _ _ N); [lia|reflexivity]].
      inversion N as [|junk ? ? ? ? ? ? ? ? ? ? ? ? E0]; [reflexivity|]. destruct junk; discriminate. }
    rewrite X. destruct ps as [|p ps]; [reflexivity|]. cbn [map]. rewrite with_and_join. reflexivity.
Qed.
(** * Fields *)
Lemma heads_field : heads FIELD (lit "\field{").
Proof.
  intros t i j R. unfold FIELD in R. cbn [rseq] in R. apply rel_rseq2 in R as (k1 & R1 & R). apply rel_grp1 in R1. apply rel_rstr in R1 as (-> & q & E). apply rel_rseq2 in R as (k2 & R2 & _). apply rel_is_ch in R2 as (_ & r & E2). apply skipn_more in E as E1. rewrite E2 in E1. exists r. rewrite E, <- E1. reflexivity.
Qed.
Lemma name_good : forall name, ~ In c_lb name -> ~ In c_rb name -> ~ In c_bs name -> good_body name.
Proof.
  intros name L R B. split; [apply BibProofs3.bal_mark_free; split; assumption|]. destruct name as [|x name] using rev_ind; [apply CommandCases.closed_grp; reflexivity|]. exists 0. split; [constructor; intros ->; apply B; apply in_or_app; right; left; reflexivity|exists 0; reflexivity].
Qed.
Lemma fields_read : forall s fs, fields_in s fs -> forall t pos entry, pos <= length t -> skipn pos t = s ->
  fields t (iter_at FIELD t pos) entry = Some (fold_left (fun d kv => sset (fst kv) (snd kv) d) (flat_map kept_field fs) entry).
Proof.
  intros s fs F. induction F as [junk No|junk name value rest fs No Nn Nl Nr Nb G Nv F IH]; intros t pos entry L E.
  - rewrite (iter_nowhere FIELD (lit "\field{")) with (s := junk); [reflexivity|cbn; lia|apply heads_field|discriminate|exact L|exact E|exact No].
  - rewrite (iter_absent FIELD (lit "\field{")) with (a := junk) (rest := lit "\field{" ++ name ++ lit "}{" ++ value ++ [c_rb] ++ rest); [|cbn; lia|apply heads_field|exact E|].
    2: { apply absent_word; [discriminate|exact No|]. intros x r Er. injection Er as <- _. cbn. intuition discriminate. }
    pose proof (skipn_more _ _ _ _ E) as E1. set (p := pos + length junk) in *. change (lit "\field{" ++ name ++ lit "}{" ++ value ++ [c_rb] ++ rest) with (lit "\field" ++ [c_lb] ++ name ++ lit "}{" ++ value ++ [c_rb] ++ rest) in E1.
    pose proof (skipn_more _ _ _ _ E1) as E2. pose proof (skipn_more _ _ _ _ E2) as E3. pose proof (skipn_more _ _ _ _ E3) as E4. pose proof (skipn_more _ _ _ _ E4) as E5. change (length (lit "\field")) with 6 in *. change (length [c_lb]) with 1 in *. change (length (lit "}{")) with 2 in *.
    assert (Lp : p < length t) by (eapply skipn_cons_lt; exact E1). rewrite iter_at_step; [|cbn; lia|exact Lp].
    assert (M : exists c, re_match_at FIELD t p = Some {| m_start := p; m_end := p + 6 + 1 + length name + 2; m_caps := c |} /\ cap_get 1 c = Some (p, p + 6)).
    { eexists. split; [apply fm_match; unfold FIELD; cbn [rseq]; eapply fm_seq; [apply fm_grp; apply (fm_rstr (lit "\field") _ _ _ _ E1)|]; eapply fm_seq; [eapply fm_is_ch; exact E2|]; change (length (lit "\field")) with 6; replace (S (p + 6)) with (p + 6 + 1) by lia;
        eapply fm_seq; [apply fm_grp; apply (fm_plus _ _ _ _ name _ E3 Nn (no_rb_forall _ Nr)); reflexivity|exact (fm_rstr (lit "}{") _ _ _ _ E4)]|reflexivity]. }
    destruct M as (c & M & Cg). rewrite M. cbn [fields m_end]. unfold group_end. cbn [m_caps]. rewrite Cg.
    assert (B : extract_nested_content_sequence_blocks (skipn (p + 6) t) c_lb c_rb (Some 2) = ([name; value], S (S (length name)) + (S (S (length value)) + 0))).
    { rewrite E2. apply blocks_max; [exact delims_curly| |cbn; lia|cbn; lia]. econstructor.
      - apply (proj1 (extract_nested_content_iff _ _ _ _ _ delims_curly)). exact (FormatProofs3.group_end name (c_lb :: value ++ [c_rb] ++ rest) (name_good _ Nl Nr Nb)).
      - assert (K : skipn (S (S (length name))) ([c_lb] ++ name ++ lit "}{" ++ value ++ [c_rb] ++ rest) = c_lb :: value ++ [c_rb] ++ rest).
        { change ([c_lb] ++ name ++ lit "}{" ++ value ++ [c_rb] ++ rest) with (c_lb :: name ++ [c_rb] ++ c_lb :: value ++ [c_rb] ++ rest). change (skipn (S (length name)) (name ++ [c_rb] ++ c_lb :: value ++ [c_rb] ++ rest) = c_lb :: value ++ [c_rb] ++ rest). rewrite (app_assoc name [c_rb]). apply skipn_app_exact. rewrite app_length. cbn [List.length]. lia. }
        rewrite K. econstructor; [|constructor]. apply (proj1 (extract_nested_content_iff _ _ _ _ _ delims_curly)). exact (FormatProofs3.group_end value rest G). }
    rewrite B. cbn [fst]. cbv zeta.
    assert (I1 : iter_at FIELD t (p + 6 + 1 + length name + 2) = iter_at FIELD t (p + 6 + 1 + length name + 2 + length value + 1)).
    { rewrite (iter_absent FIELD (lit "\field{")) with (a := value) (rest := [c_rb] ++ rest); [|cbn; lia|apply heads_field|exact E5|].
      - apply (iter_absent FIELD (lit "\field{")) with (a := [c_rb]) (rest := rest); [cbn; lia|apply heads_field|exact (skipn_more _ _ _ _ E5)|].
        intros a1 a2 q Ea Na X. destruct a1 as [|z a1]; [cbn [List.app] in Ea; subst a2; discriminate X|]. destruct a1; destruct a2; try discriminate Ea; congruence.
      - apply absent_word; [discriminate|exact Nv|]. intros x r Er. injection Er as <- _. cbn. intuition discriminate. }
    rewrite I1. pose proof (skipn_more _ _ _ _ (skipn_more _ _ _ _ E5)) as E6. cbn [List.length] in E6. rewrite (IH t _); [|apply (f_equal (@List.length ch)) in E5; rewrite skipn_length, !app_length in E5; cbn [List.length] in E5; lia|exact E6].
    cbn [flat_map]. rewrite fold_left_app. f_equal. f_equal. unfold kept_field. cbn [fst snd]. cbv zeta. unfold skip_field. destruct (str_eqb (strip name) (lit "labelnamesource") || str_eqb (strip name) (lit "labeltitlesource")); reflexivity.
Qed.
(** * Eprint *)
Lemma eprint_read : forall text e, eprint_in text e -> match re_search EPRINT text with Some m => Some (strip (group text 1 m)) | None => None end = e.
Proof.
  assert (H : heads EPRINT (lit "\verb{eprint}")) by (unfold EPRINT; cbn [rseq]; apply heads_seq).
  intros text e [(No & ->)|(a & b & ws & ws1 & ws2 & v & E & No & B & B1 & N1 & B2 & N2 & Nv & Sv & Nend & ->)].
  - rewrite (search_nowhere EPRINT (lit "\verb{eprint}")); [reflexivity|exact H|discriminate|exact No].
  - assert (E0 : skipn (length a) text = lit "\verb{eprint}" ++ ws ++ lit "\verb" ++ ws1 ++ v ++ ws2 ++ lit "\endverb" ++ b) by (rewrite E, skipn_app_exact by reflexivity; reflexivity).
    pose proof (skipn_more _ _ _ _ E0) as E1. pose proof (skipn_more _ _ _ _ E1) as E2. pose proof (skipn_more _ _ _ _ E2) as E3. pose proof (skipn_more _ _ _ _ E3) as E4. set (i := length a + length (lit "\verb{eprint}") + length ws + length (lit "\verb") + length ws1) in *.
    pose proof (skipn_more _ _ _ _ E4) as E5. pose proof (skipn_more _ _ _ _ E5) as E6.
    destruct v as [|x v]; [congruence|]. assert (X : isspace x = false).
    { destruct (isspace x) eqn:X; [|reflexivity]. exfalso. assert (K : length (strip (x :: v)) < length (x :: v)); [|rewrite Sv in K; lia]. unfold strip. cbn [lstrip]. rewrite X. unfold rstrip. rewrite rev_length.
      assert (Ls : forall s, length (lstrip s) <= length s) by (induction s as [|y s IH]; [reflexivity|]; cbn [lstrip]; destruct (isspace y); cbn [List.length]; lia). pose proof (Ls (rev (lstrip v))). rewrite rev_length in H0. pose proof (Ls v). cbn [List.length]. lia. }
    assert (Last : forall a1 a2, x :: v = a1 ++ a2 -> blank a2 -> a2 = []).
    { intros a1 a2 Ea Ba. destruct a2 as [|y a2]; [reflexivity|exfalso]. destruct (exists_last (l := y :: a2)) as (a3 & z & Ez); [discriminate|]. rewrite Ez in Ea, Ba. unfold blank in Ba. rewrite forallb_app in Ba. cbn [forallb] in Ba. apply andb_true_iff in Ba as [_ Ba]. apply andb_true_iff in Ba as [Ba _].
      assert (Q : length (strip (x :: v)) < length (x :: v)); [|rewrite Sv in Q; lia]. unfold strip. cbn [lstrip]. rewrite X. unfold rstrip. rewrite Ea, app_assoc, rev_app_distr. cbn [rev List.app lstrip]. rewrite Ba, rev_length.
      assert (Ls : forall s, length (lstrip s) <= length s) by (induction s as [|u s IH]; [reflexivity|]; cbn [lstrip]; destruct (isspace u); cbn [List.length]; lia). pose proof (Ls (rev (a1 ++ a3))) as Q. rewrite rev_length in Q. rewrite (app_length (a1 ++ a3)). cbn [List.length]. lia. }
    set (K := RSeq (rplus rspace) (rstr (lit "\endverb"))).
    assert (Z : forall k c', k < length v -> rm K text (S i + k) c' = []).
    { intros k c' Lk. apply rm_none_rel; [apply (f_equal (@List.length ch)) in E4; rewrite skipn_length, !app_length in E4; cbn [List.length] in E4; lia|]. intros j R. unfold K in R. apply rel_rseq2 in R as (k1 & R1 & R2). apply BibParserProofs.rel_plus_chr in R1 as (us & r1 & Eu & Nu & Bu & ->). apply rel_rstr in R2 as (_ & q & Eq).
      pose proof (skipn_more _ _ _ _ Eu) as Eu1. rewrite Eq in Eu1. subst r1. clear Eq. replace (S i + k) with (i + S k) in Eu by lia. rewrite <- skipn_add, E4 in Eu. set (v2 := skipn (S k) (x :: v)).
      assert (Ev : x :: v = firstn (S k) (x :: v) ++ v2) by (symmetry; apply firstn_skipn). assert (L2 : length v2 = length v - k) by (unfold v2; rewrite skipn_length; cbn [List.length]; lia).
      assert (Eu' : v2 ++ ws2 ++ lit "\endverb" ++ b = us ++ lit "\endverb" ++ q). { rewrite <- Eu. unfold v2. rewrite Ev at 2. rewrite <- app_assoc. symmetry. apply skipn_app_exact. rewrite firstn_length. cbn [List.length]. lia. }
      destruct (Nat.le_gt_cases (length v2) (length us)) as [L3|L3].
      - assert (Bv : blank v2). { apply (f_equal (firstn (length v2))) in Eu'. rewrite firstn_app_exact in Eu' by reflexivity. rewrite firstn_app in Eu'. replace (length v2 - length us) with 0 in Eu' by lia. cbn [firstn] in Eu'. rewrite app_nil_r in Eu'. rewrite Eu'. unfold blank. apply forallb_forall. intros y Iy. rewrite forallb_forall in Bu. apply Bu. eapply ExtractProofs2.in_firstn. exact Iy. }
        rewrite (Last _ _ Ev Bv) in L2. cbn in L2. lia.
      - (* \endverb begins inside v *)
        apply (f_equal (skipn (length us))) in Eu'. replace (skipn (length us) (us ++ lit "\endverb" ++ q)) with (lit "\endverb" ++ q) in Eu' by (symmetry; apply skipn_app_exact; reflexivity). rewrite skipn_app in Eu'. replace (length us - length v2) with 0 in Eu' by lia. cbn [skipn] in Eu'.
        apply (absent_word (lit "\endverb") (x :: v) (ws2 ++ lit "\endverb" ++ b)) with (a1 := firstn (S k) (x :: v) ++ firstn (length us) v2) (a2 := skipn (length us) v2) (q := q); [discriminate|exact Nend| | | |exact Eu'].
        + intros y r Er I. destruct ws2 as [|z ws2]; [congruence|]. cbn [List.app] in Er. injection Er as -> _. unfold blank in B2. cbn [forallb] in B2. apply andb_true_iff in B2 as [B2 _]. cbn in I. repeat (destruct I as [<-|I]; [discriminate B2|]). destruct I.
        + rewrite <- app_assoc, firstn_skipn. exact Ev.
        + intros N. apply (f_equal (@List.length ch)) in N. rewrite skipn_length in N. cbn [List.length] in N. clear -N L3. change (length v2 - length us = 0) in N. lia. }
    assert (FK : forall c, fm K text (i + length (x :: v)) c (i + length (x :: v) + length ws2 + 8) c).
    { intros c. unfold K. eapply fm_seq; [apply (fm_plus isspace _ _ _ ws2 _ E5 N2 B2); reflexivity|]. exact (fm_rstr (lit "\endverb") _ _ _ _ E6). }
    assert (M : exists c, re_match_at EPRINT text (length a) = Some {| m_start := length a; m_end := i + length (x :: v) + length ws2 + 8; m_caps := (1, (i, i + length (x :: v))) :: c |}).
    { eexists. apply fm_match. unfold EPRINT. cbn [rseq]. eapply fm_seq; [apply (fm_rstr (lit "\verb{eprint}") _ _ _ _ E0)|]. eapply fm_seq; [apply (fm_star isspace _ _ _ ws _ E1 B); reflexivity|]. eapply fm_seq; [apply (fm_rstr (lit "\verb") _ _ _ _ E2)|].
      eapply fm_seq; [apply (fm_plus isspace _ _ _ ws1 _ E3 N1 B1); exact X|]. fold i. fold K.
      (* the lazy group *)
      destruct (FK [(1, (i, i + length (x :: v)))]) as (l & F). unfold first_match. pose proof (skipn_more1 _ _ _ _ E4) as E4'.
      change (rm (RSeq (RGrp 1 (RSeq rany (rlazy rany))) K) text i []) with (flat_map (fun jc : nat * caps => rm K text (fst jc) (snd jc)) (map (fun jc : nat * caps => (fst jc, (1, (i, fst jc)) :: snd jc)) (rm (RSeq rany (rlazy rany)) text i []))).
      assert (R0 : rm (RSeq rany (rlazy rany)) text i [] = rm (rlazy rany) text (S i) []).
      { change (rm (RSeq rany (rlazy rany)) text i []) with (flat_map (fun jc : nat * caps => rm (rlazy rany) text (fst jc) (snd jc)) (rm rany text i [])). assert (Ra : rm rany text i [] = [(S i, [])]) by (unfold rany; cbn [rm]; unfold next_is; rewrite nth_error_skipn, E4; reflexivity). rewrite Ra. cbn [flat_map fst snd]. apply app_nil_r. }
      rewrite R0. unfold rany. rewrite rm_lazy_chr, map_map, flat_map_map. cbn [fst snd].
      assert (Lr : length v <= runlen (fun _ => true) (skipn (S i) text)). { rewrite E4'. clear. induction v as [|y v IH]; [cbn; lia|]. cbn [List.app runlen List.length]. lia. }
      replace (S (runlen (fun _ => true) (skipn (S i) text))) with (length v + S (runlen (fun _ => true) (skipn (S i) text) - length v)) by lia. rewrite seq_app, flat_map_app.
      assert (Zz : flat_map (fun k => rm K text (S i + k) [(1, (i, S i + k))]) (seq 0 (length v)) = []) by (apply flat_map_nil; intros k Hk; apply in_seq in Hk; apply Z; lia).
      rewrite Zz. cbn [List.app seq flat_map plus]. replace (S i + length v) with (i + length (x :: v)) by (cbn [List.length]; lia). replace (S (i + length v)) with (i + length (x :: v)) by (cbn [List.length]; lia). rewrite F. eexists. reflexivity. }
    destruct M as (c & M). assert (A0 : absent (lit "\verb{eprint}") a (lit "\verb{eprint}" ++ ws ++ lit "\verb" ++ ws1 ++ (x :: v) ++ ws2 ++ lit "\endverb" ++ b)).
    { apply absent_word; [discriminate|exact No|]. intros y r Er. injection Er as <- _. cbn. intuition discriminate. }
    rewrite (search_here EPRINT _ text a _ _ H E A0 M). unfold group, m_group. cbn [m_caps cap_get Nat.eqb option_map]. rewrite (cap_slice _ _ _ _ E4), Sv. reflexivity.
Qed.
End Any.
