From Coq Require Import List NArith ZArith PeanoNat Lia Bool String.
From Verif Require Import PyStr Regex RegexLemmas RegexHead TexUtilsModel DelimSpec DelimProofs DelimFinal SubstModel SubstSpec SubstProofs EtoolProofs KeyvalProofs2 ContentModel ContentSpec ContentProofs ContentProofs2 ContentProofs3 ContentProofs4 CommandModel CommandSpec CommandProofs CommandProofs2.
Import ListNotations. Notation length := List.length. Notation concat := List.concat. Open Scope list_scope.

(** * Reading the defaults back *)
Lemma lazy_run : forall p (v : str) y (t : str) r fuel i c, skipn i t = v ++ y :: r -> forallb p v = true -> length v < fuel ->
  exists pre tl, star_run (rm (RChr p) t) false fuel i c = pre ++ (i + length v, c) :: tl /\ forall j c', In (j, c') pre -> c' = c /\ exists z q, skipn j t = z :: q /\ In z v.
Proof.
  intros p. induction v as [|x v IH]; intros y t r fuel i c E Hp Hf; (destruct fuel as [|f]; [lia|]); cbn [star_run].
  - exists []. eexists. rewrite Nat.add_0_r. split; [reflexivity|]. intros j c' [].
  - cbn [forallb] in Hp. apply andb_prop in Hp as [Hx Hp]. destruct (fm_chr p t i c x (v ++ y :: r) E Hx) as (l & R).
    assert (Rl : rm (RChr p) t i c = [(S i, c)]) by (cbn [rm] in R |- *; destruct (next_is p t i); [reflexivity|discriminate R]).
    rewrite Rl. cbn [flat_map fst snd]. replace (Nat.ltb i (S i)) with true by (symmetry; apply Nat.ltb_lt; lia). rewrite app_nil_r.
    destruct (IH y t r f (S i) c (skipn_more1 _ _ _ _ E) Hp) as (pre & tl & R' & Hpre); [cbn in Hf; lia|]. rewrite R'.
    exists ((i, c) :: pre), tl. replace (i + length (x :: v)) with (S i + length v) by (cbn; lia). split; [reflexivity|].
    intros j c' [H|H]; [injection H as <- <-; split; [reflexivity|]; exists x, (v ++ y :: r); split; [exact E|left; reflexivity]|].
    destruct (Hpre j c' H) as (-> & z & q & Eq & Hz). split; [reflexivity|]. exists z, q. split; [exact Eq|right; exact Hz].
Qed.
Lemma fm_lazy_until : forall n p (v : str) y (t : str) r i c, skipn i t = v ++ y :: r -> forallb p v = true -> ~ In y v ->
  first_match (RSeq (RGrp n (rlazy (RChr p))) (is_ch y)) t i c (S (i + length v)) ((n, (i, i + length v)) :: c).
Proof.
  intros n p v y t r i c E Hp Hy. unfold first_match.
  assert (L : length v < S (length t - i)) by (rewrite <- (skipn_length i t), E, app_length; lia).
  destruct (lazy_run p v y t r _ i c E Hp L) as (pre & tl & R & Hpre).
  change (rm (RSeq (RGrp n (rlazy (RChr p))) (is_ch y)) t i c) with
    (flat_map (fun jc : nat * caps => rm (is_ch y) t (fst jc) (snd jc)) (map (fun jc : nat * caps => (fst jc, (n, (i, fst jc)) :: snd jc)) (star_run (rm (RChr p) t) false (S (length t - i)) i c))).
  rewrite R, map_app, flat_map_app. cbn [map flat_map fst snd].
  match goal with |- context [flat_map ?f (map ?g pre)] => assert (Z : flat_map f (map g pre) = []) end.
  { clear R. induction pre as [|[j c'] pre IH]; [reflexivity|]. cbn [map flat_map fst snd]. rewrite IH by (intros a b Hab; apply (Hpre a b); right; exact Hab).
    destruct (Hpre j c' (or_introl eq_refl)) as (_ & z & q & Eq & Hz). unfold is_ch. rewrite rm_chr_none; [reflexivity|]. rewrite Eq. apply N.eqb_neq. intros ->. contradiction. }
  match goal with |- exists l, ?A ++ ?B = _ => let HA := fresh in assert (HA : A = []) by exact Z; rewrite HA; clear HA end. cbn [List.app]. apply skipn_more in E. destruct (fm_is_ch y t (i + length v) ((n, (i, i + length v)) :: c) r E) as (l & R2). rewrite R2. cbn [List.app]. eexists. reflexivity.
Qed.
Lemma default_min : 0 < minlen P_default. Proof. cbn. lia. Qed.
Lemma default_iter : forall ds (pre t : str), (forall p, In p ds -> blank (fst p) /\ ~ In c_rk (snd p) /\ ~ In c_nl (snd p)) -> t = pre ++ concat (map bracketed ds) ->
  map (grp t 1) (iter_at P_default t (length pre)) = map snd ds.
Proof.
  induction ds as [|[w v] ds IH]; intros pre t Hd Et.
  - cbn [map concat] in *. rewrite app_nil_r in Et. rewrite iter_at_end; [reflexivity|exact default_min|subst; lia].
  - destruct (Hd (w, v) (or_introl eq_refl)) as (Hw & Hv & Hn). cbn [fst snd] in *. cbn [map concat] in Et. unfold bracketed at 1 in Et. cbn [fst snd] in Et.
    rewrite <- !app_assoc in Et.
    revert pre Et. induction w as [|x w IHw]; intros pre Et.
    + cbn [List.app] in Et. assert (E : skipn (length pre) t = c_lk :: v ++ c_rk :: concat (map bracketed ds)) by (rewrite Et, skipn_app, skipn_all, Nat.sub_diag; reflexivity).
      rewrite iter_at_step; [|exact default_min|rewrite Et, app_length; cbn; lia].
      assert (M : re_match_at P_default t (length pre) = Some {| m_start := length pre; m_end := S (S (length pre) + length v); m_caps := [(1, (S (length pre), S (length pre) + length v))] |}).
      { apply fm_match. unfold P_default. eapply fm_seq; [apply (fm_is_ch c_lk t _ [] _ E)|]. apply skipn_more1 in E. apply (fm_lazy_until 1 _ v c_rk t _ _ [] E); [|exact Hv].
        apply forallb_forall. intros z Hz. apply negb_true_iff, N.eqb_neq. intros ->. contradiction. }
      rewrite M. cbn [m_end map]. f_equal.
      * unfold grp, m_group. cbn [m_caps cap_get Nat.eqb option_map snd]. apply skipn_more1 in E. unfold slice. rewrite E. replace (S (length pre) + length v - S (length pre)) with (length v) by lia. apply firstn_app_exact; reflexivity.
      * replace (S (S (length pre) + length v)) with (length (pre ++ [c_lk] ++ v ++ [c_rk])) by (rewrite !app_length; cbn; lia).
        apply IH; [intros p Hp; apply Hd; right; exact Hp|]. rewrite Et, <- !app_assoc. reflexivity.
    + cbn [List.app] in Et. unfold blank in Hw. cbn [forallb] in Hw. apply andb_prop in Hw as [Hx Hw].
      assert (E : skipn (length pre) t = x :: w ++ [c_lk] ++ v ++ [c_rk] ++ concat (map bracketed ds)) by (rewrite Et, skipn_app, skipn_all, Nat.sub_diag; reflexivity).
      rewrite iter_at_step; [|exact default_min|rewrite Et, app_length; cbn; lia].
      assert (M : re_match_at P_default t (length pre) = None).
      { unfold re_match_at, P_default. rewrite rm_seq_none; [reflexivity|]. apply rm_chr_none. rewrite E. apply N.eqb_neq. intros <-. discriminate Hx. }
      rewrite M. replace (S (length pre)) with (length (pre ++ [x])) by (rewrite app_length; cbn; lia).
      specialize (IHw (fun p Hp => match Hp with or_introl q => ltac:(subst p; cbn [fst snd]; auto) | or_intror q => Hd p (or_intror q) end) Hw).
      apply (IHw (pre ++ [x])). rewrite <- app_assoc. exact Et.
Qed.
Lemma defaults_read : forall ds, (forall p, In p ds -> blank (fst p) /\ ~ In c_rk (snd p) /\ ~ In c_nl (snd p)) ->
  map (grp (concat (map bracketed ds)) 1) (re_finditer P_default (concat (map bracketed ds))) = map snd ds.
Proof. intros ds H. apply (default_iter ds [] _ H eq_refl). Qed.

(** * The definition as a whole *)
Lemma let_miss : forall (q : str), In q (map lit keywords) -> forall r, re_match_at P_let (q ++ r) 0 = None.
Proof. intros q H r. repeat (destruct H as [<-|H]; [reflexivity|]). destruct H. Qed.
Lemma keyword_dispatch : forall kw, In kw keywords -> forall (r : str) j c, let t := lit kw ++ r in first_match POST_NEW_COMMAND t (length (lit kw)) [] j c ->
  handle_definition t = handle_newcommand (String.eqb kw "\DeclareMathOperator") t {| m_start := 0; m_end := j; m_caps := c |}.
Proof.
  intros kw K r j c t FM. unfold handle_definition. assert (LM : re_match_at P_let t 0 = None) by (apply let_miss; apply in_map; exact K). rewrite LM. clear LM.
  destruct K as [<-|[<-|[<-|[<-|[<-|[]]]]]].
  - rewrite (fm_match P_newcommand t 0 j c); [reflexivity|]. unfold P_newcommand. eapply fm_seq; [apply (fm_is_ch c_bs t 0 [] (lit "newcommand" ++ r)); reflexivity|].
    eapply fm_seq. { apply fm_alt_left. apply (fm_rstr (lit "new") t 1 [] (lit "command" ++ r)). reflexivity. }
    eapply fm_seq; [apply (fm_rstr (lit "command") t (1 + length (lit "new")) [] r); reflexivity|]. exact FM.
  - rewrite (fm_match P_newcommand t 0 j c); [reflexivity|]. unfold P_newcommand. eapply fm_seq; [apply (fm_is_ch c_bs t 0 [] (lit "renewcommand" ++ r)); reflexivity|].
    eapply fm_seq. { apply fm_alt_right; [reflexivity|]. apply fm_alt_left. apply (fm_rstr (lit "renew") t 1 [] (lit "command" ++ r)). reflexivity. }
    eapply fm_seq; [apply (fm_rstr (lit "command") t (1 + length (lit "renew")) [] r); reflexivity|]. exact FM.
  - rewrite (fm_match P_newcommand t 0 j c); [reflexivity|]. unfold P_newcommand. eapply fm_seq; [apply (fm_is_ch c_bs t 0 [] (lit "providecommand" ++ r)); reflexivity|].
    eapply fm_seq. { apply fm_alt_right; [reflexivity|]. apply fm_alt_right; [reflexivity|]. apply (fm_rstr (lit "provide") t 1 [] (lit "command" ++ r)). reflexivity. }
    eapply fm_seq; [apply (fm_rstr (lit "command") t (1 + length (lit "provide")) [] r); reflexivity|]. exact FM.
  - replace (re_match_at P_newcommand t 0) with (@None mobj) by reflexivity. rewrite (fm_match P_declarerobust t 0 j c); [reflexivity|]. unfold P_declarerobust.
    eapply fm_seq; [apply (fm_rstr (lit "\DeclareRobustCommand") t 0 [] r); reflexivity|]. exact FM.
  - replace (re_match_at P_newcommand t 0) with (@None mobj) by reflexivity. replace (re_match_at P_declarerobust t 0) with (@None mobj) by reflexivity.
    rewrite (fm_match P_declaremathop t 0 j c); [reflexivity|]. unfold P_declaremathop. eapply fm_seq; [apply (fm_rstr (lit "\DeclareMathOperator") t 0 [] r); reflexivity|]. exact FM.
Qed.

Lemma slice_of : forall (t a b c : str), t = a ++ b ++ c -> slice (length a) (length a + length b) t = b.
Proof. intros t a b c ->. unfold slice. rewrite skipn_app, skipn_all, Nat.sub_diag. cbn [skipn List.app]. replace (length a + length b - length a) with (length b) by lia. apply firstn_app_exact. reflexivity. Qed.
Theorem newcommand_definition : forall d rest, well_written d ->
  handle_definition (macro_text d ++ rest) =
    (Some (TNew (mc_name d) (mc_body d) (arity d) (default_values d) (usage_pattern (mc_name d)) (math_only d)), length (macro_text d)).
Proof.
  intros [kw star gap b name o ds gap2 body] rest (K & Hg & Hg2 & W & B & Ho & Hd & Hlen). cbn [mc_keyword mc_star mc_gap mc_braced mc_name mc_nargs mc_defaults mc_gap2 mc_body] in *.
  unfold macro_text, macro_head, arity, default_values, math_only. cbn [mc_keyword mc_star mc_gap mc_braced mc_name mc_nargs mc_defaults mc_gap2 mc_body].
  change (if b then [c_lb; c_bs] ++ name ++ [c_rb] else [c_bs] ++ name) with (name_text b name). change (match o with Some p => bracketed p | None => [] end) with (nargs_text o).
  set (st := if star then lit "*" else []). set (D := concat (map bracketed ds)).
  set (t := _ ++ rest). set (post := st ++ gap ++ name_text b name ++ nargs_text o ++ D ++ gap2 ++ c_lb :: body ++ [c_rb] ++ rest).
  assert (Et : t = lit kw ++ post) by (unfold t, post; rewrite <- !app_assoc; reflexivity).
  assert (Hd' : forall p, In p ds -> blank (fst p) /\ ~ In c_rk (snd p)) by (intros [w v] Hp; destruct (Hd w v Hp) as (H1 & H2 & _); auto).
  assert (Es : skipn (length (lit kw)) t = post) by (rewrite Et, skipn_app, skipn_all, Nat.sub_diag; reflexivity).
  pose proof (fm_post t (length (lit kw)) star gap b name o ds gap2 (body ++ [c_rb] ++ rest) Es Hg Hg2 W Ho Hd') as FM. cbv zeta in FM.
  set (s := length (lit kw) + length (if star then lit "*" else []) + length gap) in FM. rewrite Et in FM. rewrite Et. rewrite (keyword_dispatch kw K post _ _ FM). rewrite <- Et in *. clear FM.
  assert (Hs : s = length (lit kw) + length st + length gap) by reflexivity. clearbody s.
  set (pre := lit kw ++ st ++ gap ++ name_text b name ++ nargs_text o ++ D ++ gap2).
  assert (Lp : s + length (name_text b name) + length (nargs_text o) + length (concat (map bracketed ds)) + length gap2 + 1 = S (length pre)) by (rewrite Hs; unfold pre; rewrite !app_length; fold D; lia).
  rewrite Lp. unfold handle_newcommand. cbn [m_end].
  rewrite (nested_arg t pre body rest B) by (unfold t, pre; rewrite <- !app_assoc; reflexivity).
  assert (G12 : unslash (grp_or t 1 2 {| m_start := 0; m_end := S (length pre); m_caps := caps_post s b name o ds |}) = name).
  { assert (Gn : grp_or t 1 2 {| m_start := 0; m_end := S (length pre); m_caps := caps_post s b name o ds |} = name).
    { unfold grp_or, grp, m_group, caps_post. cbn [m_caps]. destruct b.
      - assert (S1 : slice (s + 2) (s + 2 + length name) t = name).
        { replace (s + 2) with (length (lit kw ++ st ++ gap ++ [c_lb; c_bs])) by (rewrite Hs; rewrite !app_length; cbn [length]; lia). apply (slice_of t _ name ([c_rb] ++ nargs_text o ++ D ++ gap2 ++ c_lb :: body ++ [c_rb] ++ rest)). rewrite Et. unfold post, name_text. rewrite <- !app_assoc. reflexivity. }
        destruct o as [[w n]|]; cbn [cap_get Nat.eqb List.app option_map]; rewrite S1; destruct name; [apply word_nonempty in W; congruence|reflexivity|apply word_nonempty in W; congruence|reflexivity].
      - assert (S1 : slice (s + 1) (s + 1 + length name) t = name).
        { replace (s + 1) with (length (lit kw ++ st ++ gap ++ [c_bs])) by (rewrite Hs; rewrite !app_length; cbn [length]; lia). apply (slice_of t _ name (nargs_text o ++ D ++ gap2 ++ c_lb :: body ++ [c_rb] ++ rest)). rewrite Et. unfold post, name_text. rewrite <- !app_assoc. reflexivity. }
        destruct o as [[w n]|]; cbn [cap_get Nat.eqb List.app option_map]; exact S1. }
    rewrite Gn. destruct name as [|x name]; [reflexivity|]. cbn [unslash]. apply word_forallb in W. cbn [forallb] in W. apply andb_prop in W as [W _]. destruct (N.eqb x c_bs) eqn:Ex; [|reflexivity]. apply N.eqb_eq in Ex. subst x. discriminate W. }
  rewrite G12.
  assert (G3 : grp t 3 {| m_start := 0; m_end := S (length pre); m_caps := caps_post s b name o ds |} = match o with Some (_, n) => n | None => [] end).
  { unfold grp, m_group, caps_post. cbn [m_caps]. destruct o as [[w n]|].
    - cbn [cap_get Nat.eqb List.app option_map nargs_text]. replace (s + length (name_text b name) + length w + 1) with (length (lit kw ++ st ++ gap ++ name_text b name ++ w ++ [c_lk])) by (rewrite Hs; rewrite !app_length; cbn [length]; lia).
      apply (slice_of t _ n ([c_rk] ++ D ++ gap2 ++ c_lb :: body ++ [c_rb] ++ rest)). rewrite Et. unfold post, nargs_text, bracketed. cbn [fst snd]. rewrite <- !app_assoc. reflexivity.
    - destruct b; reflexivity. }
  rewrite G3.
  assert (G4 : grp t 4 {| m_start := 0; m_end := S (length pre); m_caps := caps_post s b name o ds |} = D).
  { unfold grp, m_group, caps_post. cbn [m_caps cap_get Nat.eqb option_map]. replace (s + length (name_text b name) + length (nargs_text o)) with (length (lit kw ++ st ++ gap ++ name_text b name ++ nargs_text o)) by (rewrite Hs; rewrite !app_length; lia).
    apply (slice_of t _ D (gap2 ++ c_lb :: body ++ [c_rb] ++ rest)). rewrite Et. unfold post. rewrite <- !app_assoc. reflexivity. }
  rewrite G4. unfold D. rewrite defaults_read by (intros [w v] Hp; exact (Hd w v Hp)).
  f_equal; [|change (match o with Some p => bracketed p | None => [] end) with (nargs_text o); unfold pre; unfold D; rewrite !app_length; unfold st, nargs_text; clear; destruct star; destruct o; cbn [length]; lia]. do 2 f_equal. destruct o as [[w n]|]; [reflexivity|]. reflexivity.
Qed.
