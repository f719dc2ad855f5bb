From Coq Require Import List NArith ZArith PeanoNat Lia Bool String.
From Verif Require Import PyStr Regex RegexLemmas RegexHead TexUtilsModel DelimSpec DelimProofs DelimFinal SubstModel SubstSpec SubstProofs KeyvalProofs2 ContentModel ContentSpec ContentProofs ContentProofs2 ContentProofs3 ContentProofs4 CommandModel CommandSpec CommandProofs.
Import ListNotations. Notation length := List.length. Notation concat := List.concat. Open Scope list_scope.

(** * The head of a definition *)
Lemma list_none : forall (l : list (nat * caps)), (forall j c', ~ In (j, c') l) -> l = [].
Proof. intros [|[j c'] l] H; [reflexivity|]. exfalso. apply (H j c'). left. reflexivity. Qed.
Lemma in_seq : forall a b t i c x, In x (rm (RSeq a b) t i c) -> exists j1 c1, In (j1, c1) (rm a t i c) /\ In x (rm b t j1 c1).
Proof. intros a b t i c x H. cbn [rm] in H. apply in_flat_map in H as ([j1 c1] & H1 & H2). eauto. Qed.
(** blanks, then a character that is not there *)
Lemma sp_then_none : forall x k (t : str) i c ws y r, i <= length t -> skipn i t = ws ++ y :: r -> blank ws -> isspace y = false -> N.eqb x y = false -> isspace x = false ->
  rm (RSeq (rstar rspace) (RSeq (is_ch x) k)) t i c = [].
Proof.
  intros x k t i c ws y r Hi E Hw Hy Hx Hxs. apply list_none. intros j c' H. apply in_seq in H as (j1 & c1 & H1 & H2).
  apply (rm_sp t i c j1 c1 Hi) in H1 as (-> & w' & r' & E' & Hw' & ->). apply in_seq in H2 as (j2 & c2 & H2 & _).
  apply skipn_more in E' as E3. unfold is_ch in H2. rewrite rm_chr_none in H2; [exact H2|]. rewrite E3. rewrite E in E'.
  destruct r' as [|z r']; [reflexivity|]. destruct (N.eqb x z) eqn:Ez; [|reflexivity]. apply N.eqb_eq in Ez. subst z.
  destruct (same_lead x w' ws r' (y :: r) Hw' Hw Hxs Hy E') as [_ E4]. injection E4 as -> _. rewrite N.eqb_refl in Hx. discriminate Hx.
Qed.
Lemma skipn_le : forall (t : str) i x r, skipn i t = x :: r -> i <= length t.
Proof. intros t i x r H. destruct (Nat.leb_spec i (length t)); [assumption|]. rewrite skipn_all2 in H by lia. discriminate H. Qed.
Lemma skipn_le_app : forall (t : str) i s x r, skipn i t = s ++ x :: r -> i <= length t.
Proof. intros t i s x r H. destruct s; apply skipn_le in H; exact H. Qed.

(** one bracketed default *)
Lemma fm_one_default : forall (t : str) i c p r, skipn i t = bracketed p ++ r -> blank (fst p) -> ~ In c_rk (snd p) -> first_match one_default t i c (i + length (bracketed p)) c.
Proof.
  intros t i c [w v] r E Hw Hv. unfold bracketed in *. cbn [fst snd] in *. rewrite <- !app_assoc in E. unfold one_default, rseq.
  eapply fm_seq. { apply (fm_star isspace t i c w ([c_lk] ++ v ++ [c_rk] ++ r) E Hw). reflexivity. }
  apply skipn_more in E. eapply fm_seq; [apply (fm_is_ch c_lk t _ c _ E)|]. apply skipn_more1 in E.
  eapply fm_seq. { apply (fm_star _ t _ c v ([c_rk] ++ r) E); [|reflexivity]. apply forallb_forall. intros x Hx. unfold in_str. cbn [existsb]. rewrite orb_false_r.
    apply negb_true_iff, N.eqb_neq. intros ->. contradiction. }
  apply skipn_more in E. replace (i + length (w ++ [c_lk] ++ v ++ [c_rk])) with (S (S (i + length w) + length v)) by (rewrite !app_length; cbn; lia). apply (fm_is_ch c_rk t _ c r E).
Qed.
Lemma fm_defaults_go : forall ds (t : str) i c fuel ws r, skipn i t = concat (map bracketed ds) ++ ws ++ c_lb :: r -> blank ws -> (forall p, In p ds -> blank (fst p) /\ ~ In c_rk (snd p)) ->
  length ds < fuel -> exists l, star_run (rm one_default t) true fuel i c = (i + length (concat (map bracketed ds)), c) :: l.
Proof.
  induction ds as [|p ds IH]; intros t i c fuel ws r E Hw Hd Hf; (destruct fuel as [|f]; [lia|]); rewrite star_run_S.
  - cbn [map concat List.app] in E. unfold one_default, rseq. rewrite (sp_then_none c_lk _ t i c ws c_lb r (skipn_le_app _ _ _ _ _ E) E Hw eq_refl eq_refl eq_refl). cbn. rewrite Nat.add_0_r. eexists. reflexivity.
  - cbn [map concat] in E. rewrite <- app_assoc in E. destruct (Hd p (or_introl eq_refl)) as [H1 H2]. destruct (fm_one_default t i c p _ E H1 H2) as (l & R). rewrite R. cbn [flat_map fst snd].
    assert (L : 0 < length (bracketed p)) by (unfold bracketed; rewrite !app_length; cbn; lia). replace (Nat.ltb i (i + length (bracketed p))) with true by (symmetry; apply Nat.ltb_lt; lia).
    destruct (IH t (i + length (bracketed p)) c f ws r (skipn_more _ _ _ _ E) Hw (fun q Hq => Hd q (or_intror Hq))) as (l' & R'); [cbn in Hf; lia|]. rewrite R'. cbn [List.app map concat]. rewrite app_length, Nat.add_assoc. eexists. reflexivity.
Qed.
Lemma defaults_len : forall ds, length ds <= length (concat (map bracketed ds)).
Proof. induction ds as [|p ds IH]; [reflexivity|]. cbn [map concat length]. rewrite app_length. unfold bracketed at 1. rewrite !app_length. cbn. lia. Qed.
Lemma fm_defaults : forall ds (t : str) i c ws r, skipn i t = concat (map bracketed ds) ++ ws ++ c_lb :: r -> blank ws -> (forall p, In p ds -> blank (fst p) /\ ~ In c_rk (snd p)) ->
  first_match (rstar one_default) t i c (i + length (concat (map bracketed ds))) c.
Proof.
  intros ds t i c ws r E Hw Hd. unfold first_match, rstar. cbn [rm]. eapply fm_defaults_go; try eassumption.
  assert (L : length (skipn i t) = length t - i) by apply skipn_length. rewrite <- L, E, app_length. pose proof (defaults_len ds). lia.
Qed.

Definition name_text (b : bool) (name : str) : str := if b then [c_lb; c_bs] ++ name ++ [c_rb] else [c_bs] ++ name.
Definition nargs_text (o : option (str * str)) : str := match o with Some p => bracketed p | None => [] end.
(** positions of the pieces after the keyword *)
Lemma fm_name : forall g (t : str) i c name r, skipn i t = [c_bs] ++ name ++ r -> word name -> word_end r ->
  first_match (command_pattern g) t i c (i + S (length name)) ((g, (S i, i + S (length name))) :: c).
Proof.
  intros g t i c name r E W Hr. unfold command_pattern. eapply fm_seq; [apply (fm_is_ch c_bs t i c _ E)|]. apply skipn_more1 in E.
  replace (i + S (length name)) with (S i + length name) by lia. apply fm_grp. unfold ralt. apply fm_alt_left.
  apply (fm_plus name_ch t (S i) c name r E (word_nonempty _ W) (word_forallb _ W)). apply word_end_head. exact Hr.
Qed.
Definition caps_post (i : nat) (b : bool) (name : str) (o : option (str * str)) (ds : list (str * str)) : caps :=
  let j := i + length (name_text b name) in
  let k := j + length (nargs_text o) in
  (4, (k, k + length (concat (map bracketed ds)))) ::
  (match o with Some (w, n) => [(3, (j + length w + 1, j + length w + 1 + length n))] | None => [] end) ++
  [if b then (1, (i + 2, i + 2 + length name)) else (2, (i + 1, i + 1 + length name))].
Lemma sp_word_end : forall ws x r, blank ws -> name_ch x = false -> word_end (ws ++ x :: r).
Proof.
  intros ws x r Hw Hx. apply word_end_head. destruct ws as [|y ws]; [exact Hx|]. cbn. unfold blank in Hw. cbn in Hw. apply andb_prop in Hw as [Hw _]. apply space_not_name. exact Hw.
Qed.
Lemma fm_post : forall (t : str) i (star : bool) (gap : str) b name o ds (gap2 r : str),
  skipn i t = (if star then lit "*" else []) ++ gap ++ name_text b name ++ nargs_text o ++ concat (map bracketed ds) ++ gap2 ++ c_lb :: r ->
  blank gap -> blank gap2 -> word name ->
  (match o with Some (w, n) => blank w /\ n <> [] /\ forallb isdigit n = true | None => ds = [] end) ->
  (forall p, In p ds -> blank (fst p) /\ ~ In c_rk (snd p)) ->
  let s := i + length (if star then lit "*" else []) + length gap in
  first_match POST_NEW_COMMAND t i [] (s + length (name_text b name) + length (nargs_text o) + length (concat (map bracketed ds)) + length gap2 + 1) (caps_post s b name o ds).
Proof.
  intros t i star gap b name o ds gap2 r E Hg Hg2 W Ho Hd s. unfold POST_NEW_COMMAND, rseq.
  assert (WE : word_end (nargs_text o ++ concat (map bracketed ds) ++ gap2 ++ c_lb :: r)).
  { destruct o as [[w n]|]; cbn [nargs_text].
    - unfold bracketed at 1. cbn [fst snd]. destruct Ho as (Hw & _). rewrite <- !app_assoc. apply (sp_word_end w c_lk); [exact Hw|reflexivity].
    - subst ds. cbn [map concat List.app]. apply sp_word_end; [exact Hg2|reflexivity]. }
  assert (NH : (match name_text b name ++ nargs_text o ++ concat (map bracketed ds) ++ gap2 ++ c_lb :: r with x :: _ => isspace x | [] => false end) = false) by (destruct b; reflexivity).
  (* star *)
  eapply fm_seq with (j := i + length (if star then lit "*" else [])) (c1 := []).
  { destruct star; cbn [length].
    - unfold ropt. apply fm_alt_left. change (length (lit "*")) with 1. rewrite Nat.add_1_r. apply (fm_is_ch 42%N t i [] _ E).
    - rewrite Nat.add_0_r. unfold ropt. apply fm_alt_right; [|apply fm_eps]. apply rm_chr_none. rewrite E. cbn [List.app].
      destruct gap as [|y gap]; [destruct b; reflexivity|]. cbn [List.app]. unfold blank in Hg. cbn [forallb] in Hg. apply andb_prop in Hg as [Hg _]. apply N.eqb_neq. intros <-. discriminate Hg. }
  apply skipn_more in E.
  eapply fm_seq; [apply (fm_star isspace t _ [] gap _ E Hg NH)|]. apply skipn_more in E. fold s in E |- *.
  (* name *)
  eapply fm_seq with (j := s + length (name_text b name)) (c1 := [if b then (1, (s + 2, s + 2 + length name)) else (2, (s + 1, s + 1 + length name))]).
  { destruct b; unfold name_text in *.
    - apply fm_alt_left. unfold rseq. rewrite <- !app_assoc in E. eapply fm_seq; [apply (fm_is_ch c_lb t s [] _ E)|]. apply (skipn_more1 t s c_lb) in E.
      eapply fm_seq. { apply (fm_name 1 t (S s) [] name ([c_rb] ++ nargs_text o ++ concat (map bracketed ds) ++ gap2 ++ c_lb :: r) E W). intros x q Q. injection Q as <- _. apply name_ch_false. reflexivity. }
      assert (E2 : skipn (S s + S (length name)) t = [c_rb] ++ nargs_text o ++ concat (map bracketed ds) ++ gap2 ++ c_lb :: r).
      { change (S (length name)) with (length (c_bs :: name)). apply (skipn_more t (S s) (c_bs :: name)). exact E. }
      replace (s + 2 + length name) with (S s + S (length name)) by lia. replace (s + 2) with (S (S s)) by lia.
      replace (s + length ([c_lb; c_bs] ++ name ++ [c_rb])) with (S (S s + S (length name))) by (rewrite !app_length; cbn; lia). apply (fm_is_ch c_rb t _ _ _ E2).
    - apply fm_alt_right. { unfold rseq. apply rm_seq_none. apply rm_chr_none. rewrite E. reflexivity. }
      replace (s + 1 + length name) with (s + S (length name)) by lia. replace (s + 1) with (S s) by lia. replace (s + length ([c_bs] ++ name)) with (s + S (length name)) by (cbn; lia).
      rewrite <- app_assoc in E. apply (fm_name 2 t s [] name _ E W WE). }
  apply skipn_more in E. set (j := s + length (name_text b name)) in *.
  unfold caps_post. fold j. set (cn := [if b then (1, (s + 2, s + 2 + length name)) else (2, (s + 1, s + 1 + length name))]).
  (* arity *)
  eapply fm_seq with (j := j + length (nargs_text o)) (c1 := (match o with Some (w, n) => [(3, (j + length w + 1, j + length w + 1 + length n))] | None => [] end) ++ cn).
  { destruct o as [[w n]|]; cbn [nargs_text] in *.
    - destruct Ho as (Hw & Hn & Hdg). unfold bracketed in E at 1. cbn [fst snd] in E. rewrite <- !app_assoc in E. unfold ropt. apply fm_alt_left. unfold rseq.
      eapply fm_seq; [apply (fm_star isspace t j cn w _ E Hw); reflexivity|]. apply skipn_more in E. eapply fm_seq; [apply (fm_is_ch c_lk t _ cn _ E)|]. apply skipn_more1 in E.
      eapply fm_seq. { apply fm_grp. apply (fm_plus isdigit t _ cn n _ E Hn Hdg). reflexivity. } apply skipn_more in E.
      replace (j + length (bracketed (w, n))) with (S (S (j + length w) + length n)) by (unfold bracketed; cbn [fst snd]; rewrite !app_length; cbn; lia).
      replace (j + length w + 1) with (S (j + length w)) by lia. apply (fm_is_ch c_rk t _ _ _ E).
    - subst ds. cbn [map concat List.app length] in *. rewrite Nat.add_0_r. unfold ropt. apply fm_alt_right; [|apply fm_eps]. unfold rseq.
      apply (sp_then_none c_lk _ t j cn gap2 c_lb r (skipn_le_app _ _ _ _ _ E) E Hg2); reflexivity. }
  apply skipn_more in E. set (k := j + length (nargs_text o)) in *. set (c2 := (match o with Some (w, n) => [(3, (j + length w + 1, j + length w + 1 + length n))] | None => [] end) ++ cn).
  eapply fm_seq. { apply fm_grp. apply (fm_defaults ds t k c2 gap2 r E Hg2 Hd). } apply skipn_more in E.
  eapply fm_seq; [apply (fm_star isspace t _ _ gap2 _ E Hg2); reflexivity|]. apply skipn_more in E. rewrite Nat.add_1_r. apply (fm_is_ch c_lb t _ _ _ E).
Qed.
