(** C104, C105: \let. *)
From Coq Require Import List NArith ZArith PeanoNat Lia Bool String.
From Verif Require CommandModel ContentProofs2 FormatProofs3 FormatProofs5 CommandProofs CommandProofs2 CommandProofs3 CommandProofs4 CommandProofs6 CommandProofs7 CommandProofs8.
From Verif Require Import PyStr Regex RegexLemmas RegexHead RegexAbs DelimSpec DelimProofs DelimFinal TexUtilsModel EnvModel EnvSpec EnvProofs StyleModel CommandSpec DefModel DefSpec DefProofs DefProofs3 DefProofs4 DefProofs8 DefProofs9 DefProofs10 DefProofs11.
Import ListNotations. Notation length := List.length. Notation concat := List.concat. Open Scope list_scope.
Notation P_let := CommandModel.P_let.
Section Any.
Variables u ualpha ualnum : ch -> bool.
Local Notation handle := (handle u ualpha ualnum).
Lemma let_token : forall gap name eq old rest, blank gap -> word name -> word old -> let_stop rest -> let t := let_text gap name eq old ++ rest in
  exists m, re_match_at P_let t 0 = Some m /\ handle_let t m = Ok (Some (DLet name ([c_bs] ++ old) (use_text name 0)), Z.of_nat (length (let_text gap name eq old))).
Proof.
  intros gap name eq old rest B W Wo S t. pose proof (CommandProofs6.let_definition gap name eq old rest B W Wo S) as H. fold t in H. assert (Et : exists r, t = lit "\let" ++ r) by (eexists; unfold t, let_text; rewrite <- !app_assoc; reflexivity). destruct Et as (r & Et).
  unfold CommandModel.handle_definition in H. rewrite Et in H. 
  replace (re_match_at CommandModel.P_newcommand _ 0) with (@None mobj) in H by (symmetry; vm_compute; reflexivity); replace (re_match_at CommandModel.P_declarerobust _ 0) with (@None mobj) in H by (symmetry; vm_compute; reflexivity);
    replace (re_match_at CommandModel.P_declaremathop _ 0) with (@None mobj) in H by (symmetry; vm_compute; reflexivity); replace (re_match_at CommandModel.P_def _ 0) with (@None mobj) in H by (symmetry; vm_compute; reflexivity).
  rewrite <- Et in H. destruct (re_match_at P_let t 0) as [m|] eqn:M; [|discriminate H]. exists m. split; [reflexivity|]. unfold CommandModel.handle_let in H. unfold handle_let.
  change (CommandModel.grp t) with (grp t) in H. change CommandModel.last_ch with last_ch in H. set (n0 := strip (grp t 1 m)) in *. set (b0 := strip (grp t 2 m)) in *. cbv zeta in H |- *.
  destruct b0 as [|x b].
  - destruct (startswith (m_group0 t m) (lit "\futurelet")); discriminate H.
  - destruct (N.eqb x 61).
    + destruct (startswith (m_group0 t m) (lit "\futurelet")); [discriminate H|]. assert (E1 : name = n0) by congruence. assert (E2 : [c_bs] ++ old = b) by congruence. assert (E3 : length (let_text gap name eq old) = m_end m) by congruence. rewrite E1 at 1 2. rewrite <- E1, E2, E3. unfold use_text, behind_name. cbn [repeat concat]. rewrite app_nil_r. reflexivity.
    + destruct (startswith (m_group0 t m) (lit "\futurelet")); [discriminate H|]. set (n1 := match last_ch n0 with Some y => if N.eqb y 61 then removelast n0 else n0 | None => n0 end) in *. assert (E1 : name = n1) by congruence. assert (E2 : [c_bs] ++ old = x :: b) by congruence. assert (E3 : length (let_text gap name eq old) = m_end m) by congruence. rewrite <- E1, E2, E3. unfold use_text, behind_name. cbn [repeat concat]. rewrite app_nil_r. reflexivity.
Qed.
Lemma let_enter : forall gap r, blank gap -> let t := lit "\let" ++ gap ++ c_bs :: r in
  handle t = def_prefix_loop u (S (length t)) t (lit "\let" ++ gap) P_let handle_let false 2 (length (lit "\let" ++ gap)) [].
Proof.
  intros gap r B t. assert (F : first_match (PATTERNS u) t = Some (KLet, {| m_start := 0; m_end := S (length (lit "\let" ++ gap)); m_caps := [] |})).
  { unfold t. apply (clear_first (lit "\let") KLet _ LET_PREFIX); [vm_compute; reflexivity|]. apply fm_match. unfold LET_PREFIX. cbn [rseq]. do 3 (eapply fm_seq; [eexists; reflexivity|]).
    assert (E : skipn 4 (lit "\let" ++ gap ++ c_bs :: r) = gap ++ c_bs :: r) by reflexivity. eapply fm_seq; [apply (fm_star isspace _ _ [] gap _ E B); reflexivity|]. apply skipn_more in E.
    pose proof (fm_rstr (lit "\") _ _ [] r E) as F. rewrite app_length. change (length (lit "\")) with 1 in F. change (length (lit "\let")) with 4. replace (S (4 + length gap)) with (4 + length gap + 1) by lia. exact F. }
  rewrite (handle_finish _ _ _ _ _ _ F). cbn [finish]. unfold def_prefix. cbn [m_end]. replace (S (length (lit "\let" ++ gap)) - 1) with (length (lit "\let" ++ gap)) by lia.
  do 2 f_equal. unfold m_group0, slice. cbn [m_start m_end skipn]. rewrite Nat.sub_0_r.
  assert (Et : t = (lit "\let" ++ gap ++ [c_bs]) ++ r) by (unfold t; rewrite <- !app_assoc; reflexivity). rewrite Et. replace (S (length (lit "\let" ++ gap))) with (length (lit "\let" ++ gap ++ [c_bs])) by (rewrite !app_length; cbn; lia).
  rewrite firstn_app_exact by reflexivity. rewrite (app_assoc (lit "\let")). apply removelast_last.
Qed.
Lemma let_ok : forall gap name eq old rest, blank gap -> plain_name name -> word old -> let_stop rest ->
  handle (let_text gap name eq old ++ rest) = Ok (Some (DLet name ([c_bs] ++ old) (use_text name 0)), Z.of_nat (length (let_text gap name eq old))).
Proof.
  intros gap name eq old rest B P Wo S. set (tl := (if eq then lit "=" else []) ++ [c_bs] ++ old ++ rest).
  assert (Es : let_text gap name eq old ++ rest = lit "\let" ++ gap ++ c_bs :: name ++ tl) by (unfold let_text, tl; rewrite <- !app_assoc; reflexivity).
  rewrite Es, (let_enter gap (name ++ tl) B). set (t := lit "\let" ++ gap ++ c_bs :: name ++ tl).
  assert (Ht : exists x r, tl = x :: r /\ StyleModel.is_letter x = false) by (unfold tl; destruct eq; eexists; eexists; split; reflexivity). destruct Ht as (x & r & Ht & Nl). destruct (plain_nothing u name x r (proj2 P) Nl) as (N1 & N2).
  assert (Sk : skipn (length (lit "\let" ++ gap)) t = c_bs :: name ++ x :: r) by (unfold t; rewrite app_assoc, <- Ht; apply sk_pre).
  assert (L : length (lit "\let" ++ gap) < length t) by (unfold t; rewrite !app_length; cbn; lia).
  rewrite (loop_stop u t _ _ _ _ _ _ _ [] _ L Sk (fun _ => conj N1 N2)). cbn [named_by]. cbv zeta. change (N.eqb c_bs c_bs) with true. cbv iota.
  assert (Ss : skipn (Datatypes.S (length (lit "\let" ++ gap))) t = name ++ tl) by (rewrite Ht; apply (skipn_more1 _ _ _ _ Sk)). rewrite Ss.
  destruct (let_token gap name eq old rest B (proj1 P) Wo S) as (m & M & Hd). cbv zeta in M, Hd.
  assert (Et : ((lit "\let" ++ gap) ++ [c_bs]) ++ name ++ tl = let_text gap name eq old ++ rest) by (rewrite Es, <- !app_assoc; reflexivity).
  rewrite Et, M, Hd. cbn [option_map with_csname]. f_equal. f_equal. rewrite (app_length (lit "\let" ++ gap)). cbn [List.length]. lia.
Qed.
Lemma named_raw : forall name raw, csname_of name raw -> ~ In c_bs raw /\ (match raw with x :: _ => StyleModel.is_letter x | [] => false end) = false /\ no_blanks raw = name /\ word name.
Proof.
  intros name raw [g1 g2 B1 N1 B2 W]. destruct (only_blank _ B1) as (Q1 & _ & Q1b). destruct (only_blank _ B2) as (Q3 & _ & Q3b). destruct (no_blanks_word _ W) as (Qn & Qnb). split; [|split; [|split; [|exact W]]].
  - intros H. apply in_app_or in H as [H|H]; [contradiction|]. apply in_app_or in H as [H|H]; contradiction.
  - destruct g1 as [|y g1]; [congruence|]. cbn [List.app]. rewrite (B1 y (or_introl eq_refl)). reflexivity.
  - rewrite !no_blanks_app, Q1, Qn, Q3, app_nil_r. reflexivity.
Qed.
Definition let_csname_token (name raw old : str) : dtok := DLet name ([c_bs] ++ old) (use_text name 0 ++ lit "|" ++ use_csname_text raw 0).
Lemma let_stop_letter : forall rest, let_stop rest -> (match rest with x :: _ => StyleModel.is_letter x | [] => false end) = false /\ (forall s0 : nat, (match rest with y :: _ => if N.eqb y c_bs then S s0 else s0 | [] => s0 end) = s0).
Proof.
  intros [|x rest] H; [split; reflexivity|]. cbn in H. assert (Hx : isspace x = true \/ x = c_hash \/ x = c_lb) by (destruct H; auto). destruct (tail_char x Hx) as (Nb & _ & Nl). split; [exact Nl|]. intros s0. destruct (N.eqb_spec x c_bs) as [E|_]; [congruence|reflexivity].
Qed.
Lemma let_csname_ok : forall gap name raw old rest, blank gap -> csname_of name raw -> word old -> let_stop rest ->
  let src := lit "\let" ++ gap ++ csname_text raw ++ lit "=" ++ [c_bs] ++ old in
  handle (src ++ rest) = Ok (Some (let_csname_token name raw old), Z.of_nat (length src)).
Proof.
  intros gap name raw old rest B Nr Wo Ls src. destruct (named_raw _ _ Nr) as (Q1 & Q2 & Q3 & W). set (tl := lit "=" ++ [c_bs] ++ old ++ rest).
  assert (Es : src ++ rest = (lit "\let" ++ gap) ++ lit "\csname" ++ raw ++ lit "\endcsname" ++ tl) by (unfold src, csname_text, tl; rewrite <- !app_assoc; reflexivity).
  pose proof (let_enter gap (lit "csname" ++ raw ++ lit "\endcsname" ++ tl) B) as H. cbv zeta in H. replace (lit "\let" ++ gap ++ c_bs :: lit "csname" ++ raw ++ lit "\endcsname" ++ tl) with (src ++ rest) in H by (rewrite Es, <- app_assoc; reflexivity). rewrite H. clear H. set (t := src ++ rest) in *.
  assert (Sk : skipn (length (lit "\let" ++ gap)) t = lit "\csname" ++ raw ++ lit "\endcsname" ++ tl) by (rewrite Es; apply sk_pre).
  assert (C : concat_csname u (lit "\csname" ++ raw ++ lit "\endcsname" ++ tl) = Some (raw, 17 + length raw)) by (apply csname_read; [exact Q1|exact Q2|reflexivity]).
  assert (Lt : length t = length (lit "\let" ++ gap) + (17 + length raw) + length tl).
  { rewrite Es, app_length, (app_length (lit "\csname")), (app_length raw), (app_length (lit "\endcsname")). change (length (lit "\csname")) with 7. change (length (lit "\endcsname")) with 10. lia. }
  assert (Lx : 0 < length tl) by (cbn; lia). destruct (length t) as [|n] eqn:Ln; [lia|]. rewrite <- Ln in Lt.
  assert (L1 : length (lit "\let" ++ gap) < length t) by lia. assert (L2 : length (lit "\let" ++ gap) + (17 + length raw) < length t) by lia.
  rewrite (loop_csname u t _ _ _ _ _ _ _ [] _ raw (17 + length raw) L1 Sk Nat.lt_0_2); [|vm_compute; reflexivity|exact C]. cbn [List.app].
  assert (Sk2 : skipn (length (lit "\let" ++ gap) + (17 + length raw)) t = tl).
  { rewrite Es. replace ((lit "\let" ++ gap) ++ lit "\csname" ++ raw ++ lit "\endcsname" ++ tl) with (((lit "\let" ++ gap) ++ lit "\csname" ++ raw ++ lit "\endcsname") ++ tl) by (rewrite <- !app_assoc; reflexivity).
    apply skipn_app_exact. rewrite (app_length (lit "\let" ++ gap)), (app_length (lit "\csname")), (app_length raw). change (length (lit "\csname")) with 7. change (length (lit "\endcsname")) with 10. lia. }
  rewrite (loop_stop u t _ _ _ _ _ _ _ [raw] tl L2 Sk2) by (intros _; split; vm_compute; reflexivity). cbv zeta. change (match tl with y :: _ => if N.eqb y c_bs then S (length (lit "\let" ++ gap) + (17 + length raw)) else length (lit "\let" ++ gap) + (17 + length raw) | [] => length (lit "\let" ++ gap) + (17 + length raw) end) with (length (lit "\let" ++ gap) + (17 + length raw)). rewrite Sk2.
  assert (Ec : named_by [raw] = c_bs :: name) by (cbn [named_by map concat]; rewrite Q3, app_nil_r; reflexivity). rewrite Ec.
  destruct (let_token gap name true old rest B W Wo Ls) as (m & M & Hd). cbv zeta in M, Hd.
  assert (Et : ((lit "\let" ++ gap) ++ c_bs :: name) ++ tl = let_text gap name true old ++ rest) by (unfold tl, let_text; rewrite <- !app_assoc; reflexivity).
  rewrite Et, M, Hd. cbn [option_map with_csname]. f_equal. f_equal.
  unfold let_text, src, csname_text. rewrite !app_length. change (length (lit "\csname")) with 7. change (length (lit "\endcsname")) with 10. change (length (lit "=")) with 1. cbn [List.length]. lia.
Qed.
Lemma let_csnames_ok : forall gap name raw old raw2 rest, blank gap -> csname_of name raw -> csname_of old raw2 -> let_stop rest -> rest <> [] ->
  let src := lit "\let" ++ gap ++ csname_text raw ++ csname_text raw2 in
  handle (src ++ rest) = Ok (Some (let_csname_token name raw old), Z.of_nat (length src)).
Proof.
  intros gap name raw old raw2 rest B Nr Nr2 Ls Ne src. destruct (named_raw _ _ Nr) as (Q1 & Q2 & Q3 & W). destruct (named_raw _ _ Nr2) as (P1 & P2 & P3 & Wo). destruct (let_stop_letter _ Ls) as (Rl & Rb). set (tl := lit "\csname" ++ raw2 ++ lit "\endcsname" ++ rest).
  assert (Es : src ++ rest = (lit "\let" ++ gap) ++ lit "\csname" ++ raw ++ lit "\endcsname" ++ tl) by (unfold src, csname_text, tl; rewrite <- !app_assoc; reflexivity).
  pose proof (let_enter gap (lit "csname" ++ raw ++ lit "\endcsname" ++ tl) B) as H. cbv zeta in H. replace (lit "\let" ++ gap ++ c_bs :: lit "csname" ++ raw ++ lit "\endcsname" ++ tl) with (src ++ rest) in H by (rewrite Es, <- app_assoc; reflexivity). rewrite H. clear H. set (t := src ++ rest) in *.
  assert (Sk : skipn (length (lit "\let" ++ gap)) t = lit "\csname" ++ raw ++ lit "\endcsname" ++ tl) by (rewrite Es; apply sk_pre).
  assert (C : concat_csname u (lit "\csname" ++ raw ++ lit "\endcsname" ++ tl) = Some (raw, 17 + length raw)) by (apply csname_read; [exact Q1|exact Q2|reflexivity]).
  assert (C2 : concat_csname u tl = Some (raw2, 17 + length raw2)) by (apply csname_read; [exact P1|exact P2|exact Rl]).
  assert (Ltl : length tl = 17 + length raw2 + length rest) by (unfold tl; rewrite (app_length (lit "\csname")), (app_length raw2), (app_length (lit "\endcsname")); change (length (lit "\csname")) with 7; change (length (lit "\endcsname")) with 10; lia).
  assert (Lt : length t = length (lit "\let" ++ gap) + (17 + length raw) + length tl).
  { rewrite Es, app_length, (app_length (lit "\csname")), (app_length raw), (app_length (lit "\endcsname")). change (length (lit "\csname")) with 7. change (length (lit "\endcsname")) with 10. lia. }
  assert (Lr : 0 < length rest) by (destruct rest; [congruence|cbn; lia]). destruct (length t) as [|n] eqn:Ln; [lia|]. rewrite <- Ln in Lt.
  assert (L1 : length (lit "\let" ++ gap) < length t) by lia. assert (L2 : length (lit "\let" ++ gap) + (17 + length raw) < length t) by lia. assert (L3 : length (lit "\let" ++ gap) + (17 + length raw) + (17 + length raw2) < length t) by lia.
  rewrite (loop_csname u t _ _ _ _ _ _ _ [] _ raw (17 + length raw) L1 Sk Nat.lt_0_2); [|vm_compute; reflexivity|exact C]. cbn [List.app].
  assert (Sk2 : skipn (length (lit "\let" ++ gap) + (17 + length raw)) t = tl).
  { rewrite Es. replace ((lit "\let" ++ gap) ++ lit "\csname" ++ raw ++ lit "\endcsname" ++ tl) with (((lit "\let" ++ gap) ++ lit "\csname" ++ raw ++ lit "\endcsname") ++ tl) by (rewrite <- !app_assoc; reflexivity).
    apply skipn_app_exact. rewrite (app_length (lit "\let" ++ gap)), (app_length (lit "\csname")), (app_length raw). change (length (lit "\csname")) with 7. change (length (lit "\endcsname")) with 10. lia. }
  assert (Sk3 : skipn (length (lit "\let" ++ gap) + (17 + length raw) + (17 + length raw2)) t = rest).
  { rewrite <- skipn_add, Sk2. unfold tl. replace (lit "\csname" ++ raw2 ++ lit "\endcsname" ++ rest) with ((lit "\csname" ++ raw2 ++ lit "\endcsname") ++ rest) by (rewrite <- !app_assoc; reflexivity). apply skipn_app_exact. rewrite !app_length. change (length (lit "\csname")) with 7. change (length (lit "\endcsname")) with 10. lia. }
  destruct n as [|n]; [lia|].
  rewrite (loop_csname u t _ _ _ _ _ _ _ [raw] tl raw2 (17 + length raw2) L2 Sk2 Nat.lt_1_2); [|vm_compute; reflexivity|exact C2]. cbn [List.app].
  rewrite (loop_stop u t _ _ _ _ _ _ _ [raw; raw2] rest L3 Sk3) by (cbn; lia). cbv zeta. rewrite Rb, Sk3.
  assert (Ec : named_by [raw; raw2] = c_bs :: name ++ c_bs :: old) by (cbn [named_by map concat]; rewrite Q3, P3, app_nil_r; reflexivity). rewrite Ec.
  destruct (let_token gap name false old rest B W Wo Ls) as (m & M & Hd). cbv zeta in M, Hd.
  assert (Et : ((lit "\let" ++ gap) ++ c_bs :: name ++ c_bs :: old) ++ rest = let_text gap name false old ++ rest) by (unfold let_text; rewrite <- !app_assoc; cbn [List.app]; rewrite <- !app_assoc; reflexivity).
  rewrite Et, M, Hd. cbn [option_map with_csname]. f_equal. f_equal.
  unfold let_text, src, csname_text. rewrite !app_length. change (length (lit "\csname")) with 7. change (length (lit "\endcsname")) with 10. cbn [List.length]. rewrite !app_length. cbn [List.length]. lia.
Qed.
End Any.
