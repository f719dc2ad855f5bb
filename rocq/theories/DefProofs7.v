(** C103 continued: registers, lengths, delimiters and fonts; all declarations together. *)
From Coq Require Import List NArith ZArith PeanoNat Lia Bool String.
From Verif Require EqProofs BoxProofs2 BibParserProofs CommandModel CommandProofs CommandProofs2 CommandProofs4 CommandProofs6 CommandProofs8 DiacriticsProofs FormatProofs3.
From Verif Require Import PyStr Regex RegexLemmas RegexHead RegexAbs DelimSpec DelimProofs DelimFinal TexUtilsModel StyleModel CommandSpec DefModel DefSpec DefProofs DefProofs3 DefProofs4 DefProofs5 DefProofs6.
Import ListNotations. Notation length := List.length. Notation concat := List.concat. Open Scope list_scope.
Notation fm := RegexHead.first_match.
Notation first_match := DefModel.first_match.

Lemma register_head : forall name src follow, register_written name src follow -> forall q x r, src ++ q = x :: r -> isspace x = false.
Proof. intros name src follow R q x r E. destruct R; injection E as <- _; reflexivity. Qed.
Lemma register_strip : forall name src follow, register_written name src follow -> strip src = src.
Proof.
  intros name src follow R. destruct R as [W|a b W Ba Bb].
  - apply CommandProofs8.strip_nospace. intros y [<-|I]; [reflexivity|]. pose proof (proj1 (forallb_forall _ _) (CommandProofs.word_forallb _ W) y I) as Y. apply (CommandProofs6.name_ch_nospace y Y).
  - unfold braced. apply CommandProofs6.strip_id2; reflexivity.
Qed.
Lemma register_name : forall name src follow, register_written name src follow -> varname src = name /\ word name.
Proof.
  intros name src follow R. destruct R as [W|a b W Ba Bb]; (split; [|exact W]); [apply varname_plain; exact W|]. rewrite <- (app_nil_r (braced _)). apply varname_braced; assumption.
Qed.
Lemma named_some : forall f name e, word name -> named f name e = (Some (f name), Z.of_nat e).
Proof. intros f name e W. unfold named. destruct name; [destruct (CommandProofs.word_nonempty _ W eq_refl)|reflexivity]. Qed.
Lemma whole_match : forall (a b : str) c, m_group0 (a ++ b) {| m_start := 0; m_end := length a; m_caps := c |} = a.
Proof. intros a b c. unfold m_group0. cbn [m_start m_end]. unfold slice. cbn [skipn]. rewrite Nat.sub_0_r. apply firstn_app_exact. reflexivity. Qed.
Lemma span_first : forall c' n (m : nat * nat), (fst c' = 2 \/ fst c' = 3) -> group_end 1 {| m_start := 0; m_end := n; m_caps := [c'; (1, m)] |} = snd m.
Proof. intros (g, q) n (m1, m2) [E|E]; cbn [fst] in E; subst g; reflexivity. Qed.
Section Any.
Variables u ualpha ualnum : ch -> bool.
Local Notation handle := (handle u ualpha ualnum).
Lemma toks_ok : forall gap name source follow rest, blank gap -> register_written name source follow -> follow rest ->
  let src := lit "\newtoks" ++ gap ++ source in handle (src ++ rest) = Ok (Some (DToks name), Z.of_nat (length src)).
Proof.
  intros gap name source follow rest B R F. cbv zeta. rewrite <- !app_assoc.
  destruct (sees_register 2 _ _ _ R (([] ++ lit "\newtoks") ++ gap) rest [] F) as (c' & S & Ec). destruct (register_name _ _ _ R) as (V & W).
  reads u KToks (lit "\newtoks") P_toks.
  2:{ apply sees_lit. apply sees_blanks; [exact B|apply (register_head _ _ _ R)|]. eapply fm_seq; [apply fm_grp; exact S|apply fm_eps]. }
  cbn [finish]. unfold handle_toks. cbn [m_end]. erewrite (grp_at _ (([] ++ lit "\newtoks") ++ gap) source _ 1); [|rewrite <- ?app_assoc; reflexivity|reflexivity|reflexivity|exact (app_length _ _)].
  rewrite (register_strip _ _ _ R), V, (named_some _ _ _ W). ends.
Qed.

Lemma length_ok : forall word name source follow rest, In word length_words -> register_written name source follow -> follow rest ->
  let src := lit word ++ source in handle (src ++ rest) = Ok (Some (DLength name), Z.of_nat (length src)).
Proof.
  intros word name source follow rest I R F. cbv zeta. rewrite <- !app_assoc.
  destruct (register_name _ _ _ R) as (V & W).
  destruct (sees_register 2 _ _ _ R (lit word) rest [(1, (1, length (lit word)))] F) as (c' & S & Ec).
  assert (D : clear_to (lit word) KLength (PATTERNS u) = Some P_length) by (destruct I as [<-|[<-|[]]]; vm_compute; reflexivity).
  erewrite handle_finish; [|apply (clear_first (lit word) KLength _ P_length); [exact D|apply fm_match; unfold P_length; apply rseqe_ok; cbn [rseqe]]].
  2:{ instantiate (1 := [c'; (1, (1, length (lit word)))]). instantiate (1 := length (lit word ++ source)).
      assert (S' : sees (RSeq sp (RSeq (CMD_OR_BRACE 2) REps)) (lit word) ([] ++ source ++ rest) [(1, (1, length (lit word)))] (length (lit word ++ source)) [c'; (1, (1, length (lit word)))]).
      { apply sees_blanks; [reflexivity|apply (register_head _ _ _ R)|]. rewrite app_nil_r. eapply fm_seq; [exact S|apply fm_eps]. }
      destruct I as [<-|[<-|[]]]; (eapply fm_seq; [eexists; reflexivity|]; eapply fm_seq; [apply fm_grp; eexists; reflexivity|]; exact S'). }
  cbn [finish]. unfold handle_length. rewrite (span_first c' _ _ Ec). cbn [snd m_end]. rewrite app_assoc, whole_match, skipn_app_exact by reflexivity. rewrite V, (named_some _ _ _ W). reflexivity.
Qed.
Lemma setlength_all : forall keyword name source follow gap body rest, In keyword setlength_words -> register_written name source follow -> follow (gap ++ braced body ++ rest) -> blank gap -> good_body body -> varname (source ++ gap) = name ->
  let src := lit keyword ++ source ++ gap ++ braced body in handle (src ++ rest) = Ok (Some (DLength name), Z.of_nat (length src)).
Proof.
  intros word name source follow gap body rest I R F B G V. cbv zeta. rewrite <- !app_assoc. 
  destruct (register_name _ _ _ R) as (_ & W).
  destruct (sees_register 2 _ _ _ R (lit word) (gap ++ braced body ++ rest) [(1, (1, length (lit word)))] F) as (c' & S & Ec).
  assert (D : clear_to (lit word) KSetlength (PATTERNS u) = Some P_setlength) by (repeat (destruct I as [<-|I]; [vm_compute; reflexivity|]); destruct I).
  erewrite handle_finish; [|apply (clear_first (lit word) KSetlength _ P_setlength); [exact D|apply fm_match; unfold P_setlength; apply rseqe_ok; cbn [rseqe]]].
  2:{ instantiate (1 := [c'; (1, (1, length (lit word)))]). instantiate (1 := length (((lit word ++ source) ++ gap) ++ lit "{")).
      assert (S' : sees (RSeq sp (RSeq (CMD_OR_BRACE 2) (RSeq sp (RSeq (rstr (lit "{")) REps)))) (lit word) ([] ++ source ++ gap ++ braced body ++ rest) [(1, (1, length (lit word)))] (length (((lit word ++ source) ++ gap) ++ lit "{")) [c'; (1, (1, length (lit word)))]).
      { apply sees_blanks; [reflexivity|apply (register_head _ _ _ R)|]. rewrite app_nil_r. eapply fm_seq; [exact S|]. rewrite app_assoc. apply sees_blanks; [exact B|apply next_lb2|]. unfold braced. rewrite <- (app_assoc [c_lb]). change [c_lb] with (lit "{"). apply sees_lit. apply sees_done. }
      repeat (destruct I as [<-|I]; [eapply fm_seq; [eexists; reflexivity|]; eapply fm_seq; [apply fm_grp; eexists; reflexivity|]; exact S'|]). destruct I. }
  cbn [finish]. unfold handle_setlength. rewrite (span_first c' _ _ Ec). cbn [snd m_end].
  replace (skipn (length (((lit word ++ source) ++ gap) ++ lit "{") - 1) (lit word ++ source ++ gap ++ braced body ++ rest)) with (c_lb :: body ++ [c_rb] ++ rest).
  2:{ symmetry. replace (lit word ++ source ++ gap ++ braced body ++ rest) with (((lit word ++ source) ++ gap) ++ lit "{" ++ body ++ [c_rb] ++ rest) by (unfold braced; rewrite <- !app_assoc; reflexivity). apply from_brace. }
  rewrite FormatProofs3.group_end by exact G.
  replace (m_group0 _ _) with (((lit word ++ source) ++ gap) ++ lit "{").
  2:{ symmetry. replace (lit word ++ source ++ gap ++ braced body ++ rest) with ((((lit word ++ source) ++ gap) ++ lit "{") ++ body ++ [c_rb] ++ rest) by (unfold braced; rewrite <- !app_assoc; reflexivity). apply whole_match. }
  change (lit "{") with [c_lb] at 1. rewrite removelast_last, <- app_assoc, skipn_app_exact by reflexivity. rewrite V, (named_some _ _ _ W). same_end.
Qed.

Lemma sees_part : forall H K pre s rest c c1 j c', sees H pre (s ++ rest) c (length (pre ++ s)) c1 -> sees K (pre ++ s) rest c1 j c' -> sees (RSeq H K) pre (s ++ rest) c j c'.
Proof. intros H K pre s rest c c1 j c' A B. unfold sees in *. rewrite <- app_assoc in B. eapply fm_seq; [exact A|exact B]. Qed.
Lemma sees_seq : forall l pre rest c j c', sees (rseqe l) pre rest c j c' -> sees (rseq l) pre rest c j c'.
Proof. intros l pre rest c j c' H. apply rseqe_ok. exact H. Qed.
Lemma sees_plus : forall p n K pre rest c j c', n <> [] -> forallb p n = true -> (match rest with x :: _ => p x | [] => false end) = false -> sees K (pre ++ n) rest c j c' -> sees (RSeq (rplus (RChr p)) K) pre (n ++ rest) c j c'.
Proof. intros p n K pre rest c j c' N A S H. unfold sees in *. rewrite app_length, <- app_assoc in H. eapply fm_seq; [apply (fm_plus p _ _ _ n rest); [apply sk_pre|exact N|exact A|exact S]|exact H]. Qed.
Lemma sees_at : forall pre rest c j, j = length pre -> sees REps pre rest c j c.
Proof. intros pre rest c j ->. apply sees_done. Qed.
Lemma paired_ok : forall gap name (in_braces : bool) g1 left g2 right rest, blank gap -> blank g1 -> blank g2 -> solid [c_lb; c_rb] name -> good_body left -> good_body right ->
  let src := lit "\DeclarePairedDelimiter" ++ gap ++ (if in_braces then braced ([c_bs] ++ name) else [c_bs] ++ name) ++ g1 ++ braced left ++ g2 ++ braced right in
  handle (src ++ rest) = Ok (Some (DPaired name left right), Z.of_nat (length src)).
Proof.
  intros gap name b g1 left g2 right rest B B1 B2 N Gl Gr. cbv zeta. rewrite <- !app_assoc. set (p := lit "\DeclarePairedDelimiter"). pose proof (solid_all _ _ _ N) as Na. destruct N as (Ne & Nn).
  assert (Nb : forallb (fun x => negb (isspace x) && negb (N.eqb x c_lb)) name = true) by (apply forallb_forall; intros x I; apply (proj1 (forallb_forall _ _) Na) in I; apply Bool.andb_true_iff in I as (I & _); exact I).
  match goal with |- context [if b then ?x else ?y] => set (nm := if b then x else y) end.
  assert (T : exists c', fm P_paired (p ++ gap ++ nm ++ g1 ++ braced left ++ g2 ++ braced right ++ rest) 0 [] (length ((((([] ++ p) ++ gap) ++ nm) ++ g1) ++ lit "{")) c' /\ grp_or (p ++ gap ++ nm ++ g1 ++ braced left ++ g2 ++ braced right ++ rest) 1 2 {| m_start := 0; m_end := length ((((([] ++ p) ++ gap) ++ nm) ++ g1) ++ lit "{"); m_caps := c' |} = name).
  { set (pre := ([] ++ p) ++ gap). set (tl := braced left ++ g2 ++ braced right ++ rest).
    assert (Tl : forall c, sees (RSeq sp (RSeq (rstr (lit "{")) REps)) (pre ++ nm) (g1 ++ tl) c (length (((pre ++ nm) ++ g1) ++ lit "{")) c).
    { intros c. apply sees_blanks; [exact B1|unfold tl; apply next_lb2|]. unfold tl, braced at 1. rewrite <- (app_assoc [c_lb]). change [c_lb] with (lit "{"). apply sees_lit. apply sees_done. }
    destruct b.
    - exists [(1, (length ((pre ++ lit "{") ++ lit "\"), length ((pre ++ lit "{") ++ lit "\") + length name))]. split.
      + unfold P_paired. apply rseqe_ok. cbn [rseqe]. apply (sees_lit []). apply sees_blanks; [exact B|intros x r E; injection E as <- _; reflexivity|]. fold pre.
        eapply sees_part; [|apply Tl]. apply fm_alt_left. change (sees (rseq [rstr (lit "{"); rstr (lit "\"); RGrp 1 (rplus (RChr (fun x => negb (isspace x) && negb (N.eqb x c_lb) && negb (N.eqb x c_rb)))); rstr (lit "}")]) pre (nm ++ g1 ++ tl) [] (length (pre ++ nm)) [(1, (length ((pre ++ lit "{") ++ lit "\"), length ((pre ++ lit "{") ++ lit "\") + length name))]).
        apply sees_seq. cbn [rseqe]. replace (nm ++ g1 ++ tl) with (lit "{" ++ lit "\" ++ name ++ lit "}" ++ g1 ++ tl) by (unfold nm, braced; rewrite <- !app_assoc; reflexivity). apply sees_lit. apply sees_lit. apply sees_run; [exact Ne|exact Na|reflexivity|]. apply sees_lit. apply sees_at. unfold nm, braced. rewrite <- !app_assoc. reflexivity.
      + unfold grp_or. erewrite (grp_at _ ((pre ++ lit "{") ++ lit "\") name _ 1); [|unfold nm, braced, pre; rewrite <- !app_assoc; reflexivity|reflexivity|reflexivity|reflexivity]. destruct name; [congruence|reflexivity].
    - exists [(2, (length (pre ++ lit "\"), length (pre ++ lit "\") + length name))]. split.
      + unfold P_paired. apply rseqe_ok. cbn [rseqe]. apply (sees_lit []). apply sees_blanks; [exact B|intros x r E; injection E as <- _; reflexivity|]. fold pre.
        eapply sees_part; [|apply Tl]. apply fm_alt_right; [cbn [rseq]; apply rm_seq_none; rewrite rm_rstr, sk_pre; reflexivity|]. change (sees (rseq [rstr (lit "\"); RGrp 2 (rplus (RChr (fun x => negb (isspace x) && negb (N.eqb x c_lb))))]) pre (nm ++ g1 ++ tl) [] (length (pre ++ nm)) [(2, (length (pre ++ lit "\"), length (pre ++ lit "\") + length name))]).
        apply sees_seq. cbn [rseqe]. replace (nm ++ g1 ++ tl) with (lit "\" ++ name ++ g1 ++ tl) by (unfold nm; rewrite <- !app_assoc; reflexivity). apply sees_lit. apply sees_run; [exact Ne|exact Nb| |apply sees_at; unfold nm; rewrite <- !app_assoc; reflexivity].
        destruct g1 as [|x g1']; [reflexivity|]. unfold blank in B1. cbn [forallb] in B1. apply Bool.andb_true_iff in B1 as (X & _). cbn [List.app]. rewrite X. reflexivity.
      + unfold grp_or. rewrite (grp_none _ 1) by reflexivity. erewrite (grp_at _ (pre ++ lit "\") name _ 2); [reflexivity|unfold nm, pre; rewrite <- !app_assoc; reflexivity|reflexivity|reflexivity|reflexivity]. }
  destruct T as (c' & T & Tn).
  erewrite handle_finish; [|apply (clear_first p KPaired _ P_paired); [vm_compute; reflexivity|apply fm_match; exact T]].
  cbn [finish]. unfold handle_paired. replace (grp_or _ 1 2 _) with name by (symmetry; exact Tn). cbn [m_end].
  replace (skipn _ _) with (braced left ++ g2 ++ braced right ++ rest).
  2:{ symmetry. transitivity (skipn (length ((((([] ++ p) ++ gap) ++ nm) ++ g1) ++ lit "{") - 1) (p ++ gap ++ nm ++ g1 ++ braced left ++ g2 ++ braced right ++ rest)); [reflexivity|]. replace (p ++ gap ++ nm ++ g1 ++ braced left ++ g2 ++ braced right ++ rest) with ((((([] ++ p) ++ gap) ++ nm) ++ g1) ++ lit "{" ++ left ++ [c_rb] ++ g2 ++ braced right ++ rest) by (unfold braced; rewrite <- !app_assoc; reflexivity). etransitivity; [apply from_brace|]. unfold braced. rewrite <- !app_assoc. reflexivity. }
  rewrite (CommandProofs4.blocks_max _ _ _ _ _ 2 delims_curly (groups_two left right g2 rest Gl Gr B2)); [|cbn; lia|cbn; lia]. unfold nm, p; destruct b; same_end.
Qed.
Lemma font_all : forall gap name g1 g2 source size sz rest, blank gap -> blank g1 -> blank g2 -> solid (lit "=") name -> solid [] source ->
  (match size with Some (a, b, num, unit) => sz = size_text a b num unit /\ blank a /\ a <> [] /\ blank b /\ b <> [] /\ size_number num /\ In unit (map lit units)
   | None => sz = [] /\ (rest = [] \/ exists a r, rest = a ++ r /\ a <> [] /\ blank a /\ (forall x q, r = x :: q -> isspace x = false) /\ forall q, r <> lit "at" ++ q) end) ->
  let src := lit "\font" ++ gap ++ [c_bs] ++ name ++ g1 ++ lit "=" ++ g2 ++ source ++ sz in
  handle (src ++ rest) = Ok (Some (DFont name source (match size with Some (_, _, num, unit) => Some (num, unit) | None => None end)), Z.of_nat (length src)).
Proof.
  intros gap name g1 g2 source size sz rest B B1 B2 [Nn Na] [Sn Sa] H. cbv zeta. rewrite <- !app_assoc. set (p := lit "\font").
  assert (Nf : forallb (fun x => negb (isspace x) && negb (N.eqb x 61)) name = true) by (apply forallb_forall; intros x I; destruct (Na x I) as (X & Y); rewrite X; destruct (N.eqb_spec x 61) as [->|_]; [destruct Y; left; reflexivity|reflexivity]).
  assert (Sf : forallb (fun x => negb (isspace x)) source = true) by (apply forallb_forall; intros x I; destruct (Sa x I) as (X & _); rewrite X; reflexivity).
  set (pre1 := (([] ++ p) ++ gap) ++ lit "\"). set (pre2 := (((pre1 ++ name) ++ g1) ++ lit "=") ++ g2).
  set (OPT := ropt (rseq [rplus rspace; rstr (lit "at"); rplus rspace; RGrp 3 (RSeq (rplus rdigit) (ropt (RSeq (rstr (lit ".")) (rplus rdigit)))); RGrp 4 (words ["pt"; "cm"; "mm"; "in"; "ex"; "em"; "bp"; "dd"; "pc"; "sp"]%string)])).
  assert (Cp : forall K c j c', sees K (pre2 ++ source) (sz ++ rest) ((2, (length pre2, length pre2 + length source)) :: (1, (length pre1, length pre1 + length name)) :: c) j c' ->
     sees (RSeq (rstr p) (RSeq sp (RSeq (rstr (lit "\")) (RSeq (RGrp 1 (rplus (RChr (fun x => negb (isspace x) && negb (N.eqb x 61))))) (RSeq sp (RSeq (rstr (lit "=")) (RSeq sp (RSeq (RGrp 2 (rplus nonspace)) K)))))))) [] (p ++ gap ++ [c_bs] ++ name ++ g1 ++ lit "=" ++ g2 ++ source ++ sz ++ rest) c j c').
  { intros K c j c' S. apply sees_lit. apply sees_blanks; [exact B|intros x r E; injection E as <- _; reflexivity|]. change [c_bs] with (lit "\"). apply sees_lit. fold pre1. apply sees_run; [exact Nn|exact Nf| |].
    - destruct g1 as [|x g]; [reflexivity|]. unfold blank in B1. cbn [forallb] in B1. apply Bool.andb_true_iff in B1 as (X & _). cbn [List.app]. rewrite X. reflexivity.
    - apply sees_blanks; [exact B1|intros x r E; injection E as <- _; reflexivity|]. apply sees_lit. apply sees_blanks; [exact B2| |].
      + intros x r E. destruct source as [|y s]; [congruence|]. injection E as <- _. apply (Sa y). left. reflexivity.
      + fold pre2. apply sees_run; [exact Sn|exact Sf| |exact S]. assert (Q : forall (a q : str), a <> [] -> blank a -> match a ++ q with [] => false | x :: _ => negb (isspace x) end = false) by (intros [|x a] q An Ab; [congruence|]; unfold blank in Ab; cbn [forallb] in Ab; apply Bool.andb_true_iff in Ab as (X & _); cbn [List.app]; rewrite X; reflexivity).
        destruct size as [[[[a b] num] unit]|]; [destruct H as (-> & Ba & An & _)|destruct H as (-> & [->|(a & r & -> & An & Ba & _)])]; [unfold size_text; rewrite <- !app_assoc; apply Q; assumption|reflexivity|apply (Q a r); assumption]. }
  assert (G1 : forall m, cap_get 1 (m_caps m) = Some (length pre1, length pre1 + length name) -> grp (p ++ gap ++ [c_bs] ++ name ++ g1 ++ lit "=" ++ g2 ++ source ++ sz ++ rest) 1 m = name).
  { intros m E. eapply (grp_at _ pre1 name); [|exact E|reflexivity|reflexivity]. unfold pre1. rewrite <- !app_assoc. reflexivity. }
  assert (G2 : forall m, cap_get 2 (m_caps m) = Some (length pre2, length pre2 + length source) -> grp (p ++ gap ++ [c_bs] ++ name ++ g1 ++ lit "=" ++ g2 ++ source ++ sz ++ rest) 2 m = source).
  { intros m E. eapply (grp_at _ pre2 source); [|exact E|reflexivity|reflexivity]. unfold pre2, pre1. rewrite <- !app_assoc. reflexivity. }
  destruct size as [[[[a b] num] unit]|].
  - destruct H as (-> & Ba & An & Bb & Bn & Hn & Hu).
    set (pre3 := (((pre2 ++ source) ++ a) ++ lit "at") ++ b). set (pre4 := pre3 ++ num).
    assert (Hd : exists d0 dr, num = d0 :: dr /\ isdigit d0 = true) by (destruct Hn as [d [Dn Df]|d e [Dn Df] _]; (destruct d as [|d0 dr]; [congruence|]; cbn [forallb] in Df; apply Bool.andb_true_iff in Df as (X & _); do 2 eexists; split; [reflexivity|exact X])).
    assert (Hw : exists s, unit = lit s /\ In s units) by (apply in_map_iff in Hu as (s & <- & I); exists s; auto). destruct Hw as (us & -> & Hus). clear Hu.
    assert (Hf : exists x r, lit us ++ rest = x :: r /\ isdigit x = false /\ N.eqb x 46 = false) by (repeat (destruct Hus as [<-|Hus]; [do 2 eexists; split; [reflexivity|split; reflexivity]|]); destruct Hus).
    assert (Fu : fm (words ["pt"; "cm"; "mm"; "in"; "ex"; "em"; "bp"; "dd"; "pc"; "sp"]%string) (pre4 ++ lit us ++ rest) (length pre4) [(3, (length pre3, length pre4)); (2, (length pre2, length pre2 + length source)); (1, (length pre1, length pre1 + length name))] (length (pre4 ++ lit us)) [(3, (length pre3, length pre4)); (2, (length pre2, length pre2 + length source)); (1, (length pre1, length pre1 + length name))]).
    { apply fm_end. apply sees_word; [exact Hus| |apply sees_done]. intros s' I'. repeat (destruct Hus as [<-|Hus]; [repeat (destruct I' as [<-|I']; [solve [left; reflexivity|right; reflexivity]|]); destruct I'|]). destruct Hus. }
    assert (Fn : fm (RSeq (rplus rdigit) (ropt (RSeq (rstr (lit ".")) (rplus rdigit)))) (pre3 ++ num ++ lit us ++ rest) (length pre3) [(2, (length pre2, length pre2 + length source)); (1, (length pre1, length pre1 + length name))] (length pre4) [(2, (length pre2, length pre2 + length source)); (1, (length pre1, length pre1 + length name))]).
    { destruct Hf as (x & r & Ex & Dx & Px). unfold pre4. clear - Hn Ex Dx Px. destruct Hn as [d [Dn Df]|d e [Dn Df] [En Ef]].
      - eapply fm_seq; [apply (fm_plus isdigit _ _ _ d (lit us ++ rest)); [apply sk_pre|exact Dn|exact Df|rewrite Ex; exact Dx]|]. rewrite <- app_length. unfold ropt. apply fm_alt_right; [|apply fm_eps]. apply rm_seq_none. rewrite rm_rstr, app_assoc, sk_pre, Ex. destruct (startswith (x :: r) (lit ".")) eqn:Q; [|reflexivity]. apply startswith_spec in Q as (q & Q). injection Q as -> _. discriminate Px.
      - rewrite <- (app_assoc d). eapply fm_seq; [apply (fm_plus isdigit _ _ _ d ((lit "." ++ e) ++ lit us ++ rest)); [apply sk_pre|exact Dn|exact Df|reflexivity]|]. rewrite <- app_length. unfold ropt. apply fm_alt_left. rewrite (app_assoc pre3). eapply fm_seq; [apply (fm_rstr (lit ".") _ _ _ (e ++ lit us ++ rest)); rewrite sk_pre, <- app_assoc; reflexivity|]. rewrite <- app_length.
        replace (length (pre3 ++ d ++ lit "." ++ e)) with (length ((pre3 ++ d) ++ lit ".") + length e) by (rewrite <- app_length, <- !app_assoc; reflexivity). apply (fm_plus isdigit _ _ _ e (lit us ++ rest)); [|exact En|exact Ef|rewrite Ex; exact Dx]. rewrite <- (app_assoc (lit ".")), (app_assoc (pre3 ++ d) (lit ".")). apply sk_pre. }
    assert (S : sees (RSeq OPT REps) (pre2 ++ source) (size_text a b num (lit us) ++ rest) [(2, (length pre2, length pre2 + length source)); (1, (length pre1, length pre1 + length name))] (length (pre4 ++ lit us)) [(4, (length pre4, length (pre4 ++ lit us))); (3, (length pre3, length pre4)); (2, (length pre2, length pre2 + length source)); (1, (length pre1, length pre1 + length name))]).
    { eapply fm_seq; [|apply fm_eps]. unfold OPT, ropt. apply fm_alt_left. unfold size_text. rewrite <- !app_assoc.
      assert (Q : sees (rseqe [rplus rspace; rstr (lit "at"); rplus rspace; RGrp 3 (RSeq (rplus rdigit) (ropt (RSeq (rstr (lit ".")) (rplus rdigit)))); RGrp 4 (words ["pt"; "cm"; "mm"; "in"; "ex"; "em"; "bp"; "dd"; "pc"; "sp"]%string)]) (pre2 ++ source) (a ++ lit "at" ++ b ++ num ++ lit us ++ rest) [(2, (length pre2, length pre2 + length source)); (1, (length pre1, length pre1 + length name))] (length (pre4 ++ lit us)) [(4, (length pre4, length (pre4 ++ lit us))); (3, (length pre3, length pre4)); (2, (length pre2, length pre2 + length source)); (1, (length pre1, length pre1 + length name))]).
      2:{ apply rseqe_ok in Q. rewrite <- app_assoc in Q. exact Q. }
      cbn [rseqe]. apply sees_plus; [exact An|exact Ba|reflexivity|]. apply sees_lit. apply sees_plus; [exact Bn|exact Bb| |].
      { destruct Hd as (d0 & dr & -> & Dd). cbn [List.app]. clear - Dd. destruct (isspace d0) eqn:Sp; [|reflexivity]. exfalso. unfold isspace in Sp. unfold isdigit in Dd. unfold in_range in *. repeat rewrite ?Bool.orb_true_iff, ?Bool.andb_true_iff, ?N.leb_le, ?N.eqb_eq in Sp. repeat rewrite ?Bool.andb_true_iff, ?N.leb_le in Dd. lia. }
      fold pre3. eapply sees_part; [apply fm_grp; exact Fn|]. fold pre4. eapply sees_part; [apply fm_grp; exact Fu|]. apply sees_done. }
    erewrite handle_finish; [|apply (clear_first p KFont _ P_font); [vm_compute; reflexivity|apply fm_match; unfold P_font; apply rseqe_ok; cbn [rseqe]; apply Cp; exact S]].
    cbn [finish]. unfold handle_font. rewrite G1 by reflexivity. rewrite G2 by reflexivity. unfold some_group.
    erewrite (grp_at _ pre3 num _ 3); [|unfold pre3, pre2, pre1, size_text; rewrite <- !app_assoc; reflexivity|reflexivity|reflexivity|unfold pre4; apply app_length].
    erewrite (grp_at _ pre4 (lit us) _ 4); [|unfold pre4, pre3, pre2, pre1, size_text; rewrite <- !app_assoc; reflexivity|reflexivity|reflexivity|apply app_length].
    destruct Hd as (d0 & dr & En & _). assert (Hu0 : exists y z, lit us = y :: z) by (clear - Hus; repeat (destruct Hus as [<-|Hus]; [do 2 eexists; reflexivity|]); destruct Hus). destruct Hu0 as (y & z & Eu).
    cbn [m_end]. replace (length (pre4 ++ lit us)) with (length (p ++ gap ++ [c_bs] ++ name ++ g1 ++ lit "=" ++ g2 ++ source ++ size_text a b num (lit us))) by (unfold pre4, pre3, pre2, pre1, size_text; rewrite <- !app_assoc; reflexivity).
    rewrite Eu, En. reflexivity.
  - destruct H as (-> & F). cbn [List.app] in *.
    assert (S : sees (RSeq OPT REps) (pre2 ++ source) rest [(2, (length pre2, length pre2 + length source)); (1, (length pre1, length pre1 + length name))] (length (pre2 ++ source)) [(2, (length pre2, length pre2 + length source)); (1, (length pre1, length pre1 + length name))]).
    { eapply fm_seq; [|apply fm_eps]. unfold OPT, ropt. apply fm_alt_right; [|apply fm_eps]. apply EqProofs.rm_none_rel; [rewrite (app_length (pre2 ++ source) rest); lia|]. intros j R. cbn [rseq] in R. apply rel_rseq2 in R as (k & R1 & R). apply rel_rseq2 in R as (k2 & R2 & _). apply BibParserProofs.rel_plus_chr in R1 as (ws & q & E & Wn & Wf & ->). rewrite sk_pre in E. apply rel_rstr in R2 as (_ & q' & R2). rewrite <- skipn_add, sk_pre in R2. rewrite E, skipn_app_exact in R2 by reflexivity.
      destruct F as [->|(a & r & -> & An & Ba & Nr & Nat_)]; [destruct ws; [congruence|discriminate E]|]. rewrite R2 in E. change (lit "at" ++ q') with (97%N :: 116%N :: q') in E. apply run_head in E as (_ & E); [|exact Ba|exact Nr|reflexivity|exact Wf]. exact (Nat_ q' E). }
    erewrite handle_finish; [|apply (clear_first p KFont _ P_font); [vm_compute; reflexivity|apply fm_match; unfold P_font; apply rseqe_ok; cbn [rseqe]; apply Cp; exact S]].
    cbn [finish]. unfold handle_font. rewrite G1 by reflexivity. rewrite G2 by reflexivity. unfold some_group. rewrite (grp_none _ 3) by reflexivity. cbn [m_end].
    replace (length (pre2 ++ source)) with (length (p ++ gap ++ [c_bs] ++ name ++ g1 ++ lit "=" ++ g2 ++ source ++ [])) by (rewrite app_nil_r; unfold pre2, pre1; rewrite <- !app_assoc; reflexivity). reflexivity.
Qed.

Theorem declares_ok : forall s tok follow rest, declares s tok follow -> follow rest -> handle (s ++ rest) = Ok (Some tok, Z.of_nat (length s)).
Proof.
  intros s tok follow rest D F. destruct D.
  - apply theorem_ok; assumption.
  - apply cref_ok; assumption.
  - apply floatname_ok; assumption.
  - apply counter_ok; assumption.
  - apply setcounter_ok; assumption.
  - apply if_ok; assumption.
  - eapply toks_ok; eassumption.
  - eapply length_ok; eassumption.
  - pose proof (setlength_all word name source follow [] body rest H H0) as L. cbn [List.app] in L. apply L; [|reflexivity|assumption|rewrite app_nil_r; apply (register_name _ _ _ H0)].
    destruct H0; [|exact I]. intros x q E. unfold braced in E. injection E as <- _. intros W. clear - W. destruct W as [[W|W]|W]; unfold c_lb in *; lia.
  - pose proof (setlength_all keyword name _ _ gap body rest H (rw_braced name a b H0 H1 H2)) as L. apply L; [exact I|assumption|assumption|]. apply varname_braced; assumption.
  - apply register_ok; assumption.
  - apply fam_ok; assumption.
  - apply color_ok; assumption.
  - apply paired_ok; assumption.
  - pose proof (font_all gap name g1 g2 source None [] rest H H0 H1 H2 H3 (conj eq_refl F)) as L. cbv zeta in L. rewrite app_nil_r in L. exact L.
  - exact (font_all gap name g1 g2 source (Some (a, b, num, unit)) (size_text a b num unit) rest H H0 H1 H2 H3 (conj eq_refl (conj H4 (conj H5 (conj H6 (conj H7 (conj H8 H9))))))).
Qed.
Theorem skipped_ok : forall s rest, skipped s -> handle (s ++ rest) = Ok (None, Z.of_nat (length s)).
Proof. intros s rest D. destruct D; [apply boolean_ok; assumption|apply columntype_ok; assumption]. Qed.
End Any.
