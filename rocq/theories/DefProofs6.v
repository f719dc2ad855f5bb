(** C103 continued: declarations with bodies. *)
From Coq Require Import List NArith ZArith PeanoNat Lia Bool String.
From Verif Require EqProofs BoxProofs2 CommandModel CommandProofs CommandProofs2 CommandProofs4 CommandProofs6 CommandProofs8 DiacriticsProofs FormatProofs3.
From Verif Require Import PyStr Regex RegexLemmas RegexHead RegexAbs DelimSpec DelimProofs DelimFinal TexUtilsModel StyleModel CommandSpec DefModel DefSpec DefProofs DefProofs3 DefProofs4 DefProofs5.
Import ListNotations. Notation length := List.length. Notation concat := List.concat. Open Scope list_scope.
Notation fm := RegexHead.first_match.
Notation first_match := DefModel.first_match.

Ltac same_end := match goal with |- Ok (_, Z.of_nat ?a) = Ok (_, Z.of_nat ?b) => replace a with b; [reflexivity|unfold braced, bracketed; repeat rewrite app_length; cbn [List.length List.app]; repeat rewrite app_length; cbn [List.length]; change (length (lit "{")) with 1; try change (length (lit "\")) with 1; lia] end.
Lemma braced_group : forall ws body rest, blank ws -> good_body body -> group_at c_lb c_rb (ws ++ braced body ++ rest) body (length (ws ++ braced body)).
Proof. intros ws body rest B [G1 G2]. exists ws, rest. split; [unfold braced; rewrite <- !app_assoc; reflexivity|]. split; [exact B|]. split; [exact G1|]. split; [exact G2|]. unfold braced. rewrite !app_length. cbn. lia. Qed.
Lemma braced_skip : forall ws body (rest : str), skipn (length (ws ++ braced body)) (ws ++ braced body ++ rest) = rest.
Proof. intros. rewrite app_assoc. apply skipn_app_exact. reflexivity. Qed.
Lemma groups_two : forall a b g rest, good_body a -> good_body b -> blank g -> groups_at c_lb c_rb (braced a ++ g ++ braced b ++ rest) [a; b] (length (braced a ++ g ++ braced b)).
Proof.
  intros a b g rest Ga Gb B. replace (length (braced a ++ g ++ braced b)) with (length ([] ++ braced a) + (length (g ++ braced b) + 0)) by (rewrite !app_length; cbn; lia).
  eapply ga_cons; [apply (braced_group [] a); [reflexivity|exact Ga]|]. change (braced a ++ g ++ braced b ++ rest) with ([] ++ braced a ++ g ++ braced b ++ rest). rewrite braced_skip. eapply ga_cons; [apply braced_group; assumption|]. apply ga_nil.
Qed.
Lemma groups_three : forall a b c g h rest, good_body a -> good_body b -> good_body c -> blank g -> blank h ->
  groups_at c_lb c_rb (braced a ++ g ++ braced b ++ h ++ braced c ++ rest) [a; b; c] (length (braced a ++ g ++ braced b ++ h ++ braced c)).
Proof.
  intros a b c g h rest Ga Gb Gc B B'. replace (length (braced a ++ g ++ braced b ++ h ++ braced c)) with (length ([] ++ braced a) + (length (g ++ braced b) + (length (h ++ braced c) + 0))) by (rewrite !app_length; cbn; lia).
  eapply ga_cons; [apply (braced_group [] a); [reflexivity|exact Ga]|]. change (braced a ++ g ++ braced b ++ h ++ braced c ++ rest) with ([] ++ braced a ++ g ++ braced b ++ h ++ braced c ++ rest). rewrite braced_skip.
  eapply ga_cons; [apply braced_group; assumption|]. rewrite braced_skip. eapply ga_cons; [apply braced_group; assumption|]. apply ga_nil.
Qed.
Lemma sees_star : forall p n K pre rest c j c', forallb p n = true -> (match rest with x :: _ => p x | [] => false end) = false -> sees K (pre ++ n) rest c j c' -> sees (RSeq (rstar (RChr p)) K) pre (n ++ rest) c j c'.
Proof. intros p n K pre rest c j c' A S H. unfold sees in *. rewrite app_length, <- app_assoc in H. eapply fm_seq; [apply (fm_star p _ _ _ n rest); [apply sk_pre|exact A|exact S]|exact H]. Qed.
(** blanks and then something *)
Lemma run_head : forall (ws ds r q : str) x, blank ws -> (forall y z, r = y :: z -> isspace y = false) -> isspace x = false -> ws ++ r = ds ++ x :: q -> forallb isspace ds = true -> ds = ws /\ r = x :: q.
Proof.
  induction ws as [|w ws IH]; intros ds r q x B N X E D.
  - destruct ds as [|d ds]; [split; [reflexivity|exact E]|]. cbn [List.app] in E. apply N in E. cbn [forallb] in D. rewrite E in D. discriminate D.
  - unfold blank in B. cbn [forallb] in B. apply Bool.andb_true_iff in B as (B1 & B). destruct ds as [|d ds]; cbn [List.app] in E; injection E as -> E; [congruence|]. cbn [forallb] in D. apply Bool.andb_true_iff in D as (_ & D). destruct (IH ds r q x B N X E D) as (-> & ->). auto.
Qed.
Lemma sp_lit_none : forall ws r x s K (t : str) i c, i <= length t -> skipn i t = ws ++ r -> blank ws -> (forall y z, r = y :: z -> isspace y = false /\ y <> x) -> isspace x = false -> rm (RSeq sp (RSeq (rstr (x :: s)) K)) t i c = [].
Proof.
  intros ws r x s K t i c L E B N X. apply EqProofs.rm_none_rel; [exact L|]. intros j R. apply rel_rseq2 in R as (k & R1 & R). apply rel_rseq2 in R as (k2 & R2 & _). unfold sp in R1. apply rel_star_chr in R1 as (ds & q & E1 & D & ->). apply rel_rstr in R2 as (_ & q' & R2). rewrite <- skipn_add, E1, skipn_app_exact in R2 by reflexivity. assert (Q : q = x :: s ++ q') by exact R2. rewrite E1 in E. rewrite Q in E. symmetry in E. apply run_head in E as (_ & E); [|exact B|intros y z Ey; apply (N y z Ey)|exact X|exact D]. destruct (N _ _ E) as (_ & C). congruence.
Qed.
(** the text from the last brace read onwards *)
Lemma from_brace : forall pre (s : str), skipn (length (pre ++ lit "{") - 1) (pre ++ lit "{" ++ s) = c_lb :: s.
Proof. intros pre s. replace (length (pre ++ lit "{") - 1) with (length pre) by (rewrite app_length; cbn; lia). rewrite skipn_app_exact by reflexivity. reflexivity. Qed.
Lemma name_inside : forall a b name, word name -> blank a -> blank b -> ~ In c_rb (a ++ [c_bs] ++ name ++ b) /\ a ++ [c_bs] ++ name ++ b <> [] /\ good_body (a ++ [c_bs] ++ name ++ b) /\ strip (a ++ [c_bs] ++ name ++ b) = [c_bs] ++ name.
Proof.
  intros a b name W Ba Bb.
  assert (B : forall s, blank s -> forall y, In y s -> isspace y = true) by (intros s Hs; apply forallb_forall; exact Hs).
  assert (M : forall y, In y ([c_bs] ++ name) -> isspace y = false /\ y <> c_lb /\ y <> c_rb).
  { intros y [<-|I]; [repeat split; discriminate|]. pose proof (proj1 (forallb_forall _ _) (CommandProofs.word_forallb _ W) y I) as Y. pose proof (CommandProofs6.name_ch_nospace y Y) as (Y1 & Y2 & _). split; [exact Y1|]. split; intros ->; discriminate. }
  assert (A : forall y, In y (a ++ [c_bs] ++ name ++ b) -> y <> c_lb /\ y <> c_rb).
  { intros y I. apply in_app_or in I as [I|I]; [apply (B _ Ba) in I; split; intros ->; discriminate I|]. rewrite app_assoc in I. apply in_app_or in I as [I|I]; [apply M; exact I|]. apply (B _ Bb) in I. split; intros ->; discriminate I. }
  split; [intros I; destruct (A _ I) as (_ & C); congruence|]. split; [destruct a; discriminate|]. split.
  - split; [apply BoxProofs2.free_balanced; exact A|]. rewrite app_assoc. apply BoxProofs2.inside_closes; assumption.
  - replace (a ++ [c_bs] ++ name ++ b) with (a ++ ([c_bs] ++ name) ++ b) by (rewrite <- app_assoc; reflexivity). apply BoxProofs2.strip_around; [assumption|assumption|discriminate|]. intros y I. apply M. exact I.
Qed.
Lemma varname_braced : forall a b name (rest : str), word name -> blank a -> blank b -> varname (braced (a ++ [c_bs] ++ name ++ b) ++ rest) = name.
Proof.
  intros a b name rest W Ba Bb. destruct (name_inside a b name W Ba Bb) as (_ & Ne & G & St).
  assert (E : extract_nested_content (braced (a ++ [c_bs] ++ name ++ b) ++ rest) c_lb c_rb = (Some (a ++ [c_bs] ++ name ++ b), S (S (length (a ++ [c_bs] ++ name ++ b))))).
  { unfold braced. rewrite <- !app_assoc. pose proof (FormatProofs3.group_end (a ++ [c_bs] ++ name ++ b) rest G) as E. rewrite <- !app_assoc in E. exact E. }
  remember (a ++ [c_bs] ++ name ++ b) as body. destruct body as [|y v]; [congruence|]. unfold varname.
  remember (braced (y :: v) ++ rest) as s0 eqn:Es. assert (exists q, s0 = c_lb :: q) as (q & Eq) by (rewrite Es; eexists; reflexivity). clear Es. subst s0. change (N.eqb c_lb c_lb) with true. cbv iota. rewrite E. rewrite St. cbv zeta. change (unslash ([c_bs] ++ name)) with name.
  assert (Ix : index_ch c_lb name = None); [|rewrite Ix; reflexivity].
  clear - W. apply CommandProofs.word_forallb in W. induction name as [|x n IH]; [reflexivity|]. cbn [forallb] in W. apply Bool.andb_true_iff in W as (W1 & W2). cbn [index_ch]. destruct (CommandProofs6.name_ch_nospace x W1) as (_ & Q & _). rewrite Q, (IH W2). reflexivity.
Qed.
Lemma varname_plain : forall name, word name -> varname ([c_bs] ++ name) = name.
Proof.
  intros name W. unfold varname. cbn [List.app]. change (N.eqb c_bs c_lb) with false. cbv zeta iota. cbn [unslash]. change (N.eqb c_bs c_bs) with true. cbv iota.
  assert (Ix : index_ch c_lb name = None); [|rewrite Ix; reflexivity].
  clear - W. apply CommandProofs.word_forallb in W. induction name as [|x n IH]; [reflexivity|]. cbn [forallb] in W. apply Bool.andb_true_iff in W as (W1 & W2). cbn [index_ch]. destruct (CommandProofs6.name_ch_nospace x W1) as (_ & Q & _). rewrite Q, (IH W2). reflexivity.
Qed.
(** a register as it is written, read by the pattern *)
Lemma sees_register : forall g name src follow, register_written name src follow -> forall pre rest c, follow rest -> exists c', fm (CMD_OR_BRACE g) (pre ++ src ++ rest) (length pre) c (length (pre ++ src)) (c' :: c) /\ (fst c' = g \/ fst c' = S g).
Proof.
  intros g name src follow R pre rest c F. destruct R as [W|a b W Ba Bb].
  - eexists. split; [|right]. unfold CMD_OR_BRACE. apply fm_alt_right.
    + unfold BRACE. cbn [rseq]. apply rm_seq_none. rewrite rm_rstr, sk_pre. reflexivity.
    + rewrite app_length. cbn [List.length]. eapply (CommandProofs2.fm_name (S g) _ _ _ name rest); [rewrite sk_pre, <- app_assoc; reflexivity|exact W|exact F].
    + reflexivity.
  - destruct (name_inside a b name W Ba Bb) as (N & Ne & _ & _). eexists. split; [|left]. unfold CMD_OR_BRACE. apply fm_alt_left.
    assert (S0 : sees (RSeq (BRACE g) REps) pre (braced (a ++ [c_bs] ++ name ++ b) ++ rest) c (length (pre ++ braced (a ++ [c_bs] ++ name ++ b))) ((g, (length (pre ++ [c_lb]), length (pre ++ [c_lb]) + length (a ++ [c_bs] ++ name ++ b))) :: c)).
    { apply sees_plus_arg; [exact N|exact Ne|]. apply sees_done. }
    apply fm_end in S0. exact S0. reflexivity.
Qed.
Section Any.
Variables u ualpha ualnum : ch -> bool.
Local Notation handle := (handle u ualpha ualnum).
Lemma color_ok : forall gap name g1 format g2 value rest, blank gap -> blank g1 -> blank g2 -> good_body name -> good_body format -> good_body value ->
  let src := lit "\definecolor" ++ gap ++ braced name ++ g1 ++ braced format ++ g2 ++ braced value in handle (src ++ rest) = Ok (Some (DColor name format value), Z.of_nat (length src)).
Proof.
  intros gap name g1 format g2 value rest B B1 B2 G1 G2 G3. cbv zeta. rewrite <- !app_assoc. unfold braced at 1. rewrite <- !app_assoc. reads u KColor (lit "\definecolor") P_color.
  2:{ apply sees_lit. apply sees_blanks; [exact B|intros x r E; injection E as <- _; reflexivity|]. apply sees_lit. apply sees_done. }
  cbn [finish]. unfold handle_color. cbn [m_end].
  match goal with |- context [skipn ?a ?b] => replace (skipn a b) with (braced name ++ g1 ++ braced format ++ g2 ++ braced value ++ rest) end.
  2:{ symmetry. rewrite (app_assoc (lit "\definecolor") gap). etransitivity; [exact (from_brace (lit "\definecolor" ++ gap) _)|]. unfold braced. rewrite <- ?app_assoc. reflexivity. }
  rewrite (CommandProofs4.blocks_max _ _ _ _ _ 3 delims_curly (groups_three name format value g1 g2 rest G1 G2 G3 B1 B2)); [|cbn; lia|cbn; lia]. same_end.
Qed.
Lemma columntype_ok : forall word gap name g1 body rest, In word ["\newcolumntype"; "\renewcolumntype"]%string -> blank gap -> ~ In c_rb name -> blank g1 -> good_body body ->
  let src := lit word ++ gap ++ braced name ++ g1 ++ braced body in handle (src ++ rest) = Ok (None, Z.of_nat (length src)).
Proof.
  intros word gap name g1 body rest I B N B1 G. cbv zeta. rewrite <- !app_assoc. unfold braced at 2. rewrite <- !app_assoc.
  assert (D : clear_to (lit word) KColumntype (PATTERNS u) = Some P_columntype) by (destruct I as [<-|[<-|[]]]; vm_compute; reflexivity).
  erewrite handle_finish; [|apply (clear_first (lit word) KColumntype _ P_columntype); [exact D|apply fm_match; unfold P_columntype; apply rseqe_ok; cbn [rseqe]]].
  2:{ instantiate (1 := []). instantiate (1 := length ((((lit word ++ gap) ++ braced name) ++ g1) ++ lit "{")).
      assert (S : forall K1, K1 = RSeq sp (RSeq (rstr (lit "{")) REps) -> sees (RSeq sp (RSeq (rstr (lit "{")) (RSeq (rstar no_rb) (RSeq (rstr (lit "}")) (RSeq (ropt (rseq [sp; rstr (lit "["); rplus rdigit; rstr (lit "]")])) K1))))) (lit word) (gap ++ braced name ++ g1 ++ lit "{" ++ body ++ [c_rb] ++ rest) [] (length ((((lit word ++ gap) ++ braced name) ++ g1) ++ lit "{")) []).
      { intros K1 ->. apply sees_blanks; [exact B|apply next_lb2|]. change (braced name ++ g1 ++ lit "{" ++ body ++ [c_rb] ++ rest) with (([c_lb] ++ name ++ [c_rb]) ++ g1 ++ lit "{" ++ body ++ [c_rb] ++ rest). rewrite <- !app_assoc. change ([c_lb] ++ name ++ [c_rb] ++ g1 ++ lit "{" ++ body ++ [c_rb] ++ rest) with (lit "{" ++ name ++ lit "}" ++ g1 ++ lit "{" ++ body ++ [c_rb] ++ rest).
        apply sees_lit. apply sees_star; [apply no_rb_all; exact N|reflexivity|]. apply sees_lit.
        assert (E : ((((lit word ++ gap) ++ lit "{") ++ name) ++ lit "}") = ((lit word ++ gap) ++ braced name)) by (unfold braced; rewrite <- !app_assoc; reflexivity). rewrite E. set (pre := (lit word ++ gap) ++ braced name).
        eapply fm_seq; [unfold ropt; apply fm_alt_right; [|apply fm_eps]|].
        - cbn [rseq]. apply (sp_lit_none g1 (lit "{" ++ body ++ [c_rb] ++ rest) c_lk []); [rewrite app_length; lia|apply sk_pre|exact B1|intros y z Q; injection Q as <- _; split; [reflexivity|discriminate]|reflexivity].
        - apply sees_blanks; [exact B1|intros x r Q; injection Q as <- _; reflexivity|]. apply sees_lit. match goal with |- sees REps ?p _ _ ?j _ => replace j with (length p); [apply sees_done|unfold pre; rewrite <- ?app_assoc; reflexivity] end. }
      specialize (S _ eq_refl).
      destruct I as [<-|[<-|[]]]; (eapply fm_seq; [eexists; reflexivity|]; eapply fm_seq; [eexists; reflexivity|]; exact S). }
  cbn [finish m_end].
  replace (skipn _ _) with (c_lb :: body ++ [c_rb] ++ rest).
  2:{ symmetry. replace (lit word ++ gap ++ braced name ++ g1 ++ [c_lb] ++ body ++ [c_rb] ++ rest) with ((((lit word ++ gap) ++ braced name) ++ g1) ++ lit "{" ++ body ++ [c_rb] ++ rest) by (rewrite <- !app_assoc; reflexivity). apply from_brace. }
  rewrite FormatProofs3.group_end by exact G. cbn [snd]. same_end.
Qed.
End Any.
