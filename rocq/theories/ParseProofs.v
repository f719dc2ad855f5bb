(** Facts about the main loop: positions, delimiters, termination. *)
From Coq Require Import List NArith ZArith PeanoNat Lia Bool String.
From Verif Require Import PyStr Regex RegexLemmas RegexHead TexUtilsModel DelimSpec DelimProofs Json BuilderModel TokensModel CommandModel ParseModel.
Import ListNotations. Notation length := List.length. Notation concat := List.concat. Open Scope list_scope.

(** positions *)
Lemma clip_nonneg : forall (t : str) (z : Z), (0 <= z)%Z -> clip t z = Nat.min (length t) (Z.to_nat z).
Proof. intros t z H. unfold clip. replace (z <? 0)%Z with false by (symmetry; apply Z.ltb_ge; lia). lia. Qed.
Lemma from_nat : forall (t : str) (z : Z), (0 <= z)%Z -> from t z = skipn (Z.to_nat z) t.
Proof.
  intros t z H. unfold from. rewrite (clip_nonneg t z H).
  destruct (Nat.le_gt_cases (length t) (Z.to_nat z)).
  - rewrite Nat.min_l by lia. rewrite !skipn_all2 by lia. reflexivity.
  - rewrite Nat.min_r by lia. reflexivity.
Qed.
Lemma at_pos_nat : forall (t : str) (z : Z), (0 <= z)%Z -> at_pos t z = match nth_error t (Z.to_nat z) with Some x => Ok x | None => Raise IndexError end.
Proof. intros t z H. unfold at_pos. replace (z <? 0)%Z with false by (symmetry; apply Z.ltb_ge; lia). replace (z <? 0)%Z with false by (symmetry; apply Z.ltb_ge; lia). reflexivity. Qed.
Lemma at_pos_in : forall (t : str) (z : Z), (0 <= z < Z.of_nat (length t))%Z -> exists x, at_pos t z = Ok x /\ skipn (Z.to_nat z) t = x :: skipn (S (Z.to_nat z)) t.
Proof.
  intros t z H. rewrite at_pos_nat by lia. destruct (nth_error t (Z.to_nat z)) as [x|] eqn:E.
  - exists x. split; [reflexivity|]. revert E. generalize (Z.to_nat z). clear H. intros n. revert t. induction n as [|n IH]; intros [|y t] E; cbn in E; try discriminate.
    + injection E as ->. reflexivity.
    + cbn [skipn]. rewrite (IH t E). reflexivity.
  - apply nth_error_None in E. lia.
Qed.
Lemma upto_from : forall (t : str) (z : Z) (r q : str), (0 <= z <= Z.of_nat (length t))%Z -> from (upto t z ++ r ++ q) z = r ++ q.
Proof.
  intros t z r q H. rewrite from_nat by lia. unfold upto. rewrite clip_nonneg by lia. rewrite Nat.min_r by lia.
  rewrite skipn_app. rewrite skipn_all2 by (rewrite firstn_length; lia). rewrite firstn_length. rewrite Nat.min_l by lia. rewrite Nat.sub_diag. reflexivity.
Qed.
Lemma skip_spaces_ge : forall n t z, (0 <= z)%Z -> (z <= skip_spaces n t z)%Z.
Proof.
  induction n as [|n IH]; intros t z H; cbn [skip_spaces]; [lia|].
  destruct (at_pos t z) as [x|]; [|lia]. destruct (isspace x); [|lia]. specialize (IH t (z + 1)%Z). lia.
Qed.
Lemma skip_spaces_le : forall n t z, (0 <= z <= Z.of_nat (length t))%Z -> (skip_spaces n t z <= Z.of_nat (length t))%Z.
Proof.
  induction n as [|n IH]; intros t z H; cbn [skip_spaces]; [lia|].
  rewrite at_pos_nat by lia. destruct (nth_error t (Z.to_nat z)) as [x|] eqn:E; [|lia].
  destruct (isspace x); [|lia]. apply IH. assert (Z.to_nat z < length t) by (apply nth_error_Some; rewrite E; discriminate). lia.
Qed.
(** what is skipped is exactly the leading white space *)
Lemma skip_spaces_lstrip : forall t (z : Z), (0 <= z <= Z.of_nat (length t))%Z ->
  skipn (Z.to_nat (skip_spaces (Z.to_nat (Z.of_nat (length t) - z)) t z)) t = lstrip (skipn (Z.to_nat z) t).
Proof.
  intros t z H. remember (Z.to_nat (Z.of_nat (length t) - z)) as n eqn:En.
  revert z H En. induction n as [|n IH]; intros z H En; cbn [skip_spaces].
  - rewrite skipn_all2 by lia. reflexivity.
  - destruct (at_pos_in t z) as (x & Ex & Es); [lia|]. rewrite Ex. rewrite Es. cbn [lstrip]. destruct (isspace x).
    + rewrite (IH (z + 1)%Z) by lia. f_equal. f_equal. lia.
    + rewrite Es. reflexivity.
Qed.

(** the delimiter at an opening brace *)
Lemma delim_brace : forall t, exists m, re_search DELIM (c_lb :: t) = Some m /\ m_start m = 0.
Proof.
  intros t. unfold re_search, re_search_from. cbn [Nat.leb]. cbn [length]. replace (S (length t) - 0) with (S (length t)) by lia.
  cbn [re_search_go]. assert (H : exists m, re_match_at DELIM (c_lb :: t) 0 = Some m /\ m_start m = 0).
  { unfold re_match_at. destruct t as [|y t]; [eexists; split; [vm_compute; reflexivity|reflexivity]|].
    assert (E : exists jc l, rm DELIM (c_lb :: y :: t) 0 [] = jc :: l).
    { eexists _, _. cbv [DELIM ralt rstr is_ch rspace rcls]. cbn [rm prev_is xorb app flat_map]. cbn. reflexivity. }
    destruct E as (jc & l & E). rewrite E. destruct jc. eexists. split; reflexivity. }
  destruct H as (m & -> & Hm). exists m. auto.
Qed.
From Verif Require Import ParseSpec.

Lemma from_add : forall (t : str) (z e : Z), (0 <= z <= Z.of_nat (length t))%Z -> (0 <= e)%Z -> from t (z + e) = from (from t z) e.
Proof.
  intros t z e H1 H2. rewrite !from_nat by lia. rewrite Z2Nat.inj_add by lia. revert H1. intros _.
  generalize (Z.to_nat z) (Z.to_nat e). intros n m. revert t. induction n as [|n IH]; intros t; [reflexivity|]. destruct t as [|x t]; cbn [skipn Nat.add]; [destruct m; reflexivity|apply IH].
Qed.

Section Term.
Variables (St : Type) (W : str -> nat) (I : St -> Prop).
Variable expand : St -> str -> res str.
Variable user_command : St -> str -> res (option (str * Z)).
Variable define : St -> str -> res (St * Z).
Variable if_else legacy : St -> str -> res (option (str * Z)).
Variable handlers : list (handler St).
Variable process : parser St -> bool -> tok_in -> St -> list dict -> run (St * list dict).
Variable on_label : St -> str -> list dict -> res (St * list dict).
Hypothesis HW : weight W.
Hypothesis Hu : replacing_shrinks St W I user_command.
Hypothesis Hi : replacing_shrinks St W I if_else.
Hypothesis Hl : replacing_shrinks St W I legacy.
Hypothesis Hh : Forall (handler_progress St W I process) handlers.
Hypothesis Hd : keeps_state St I define.
Hypothesis Hlab : keeps_label St I on_label.
Let stepf := step St expand user_command define if_else legacy handlers process on_label.
Let dispatchf := dispatch St expand user_command define if_else legacy handlers process on_label.
Let afterf := after_group St expand user_command define if_else legacy handlers process on_label.

(** a round ends and leaves less to do *)
Definition shrinks (n : nat) (r : outcome St) : Prop :=
  match r with Halt s _ => I s | Next s c p _ => I s /\ (0 <= p)%Z /\ W (from c p) < n end.

Lemma drop_shrinks : forall c pos e, (0 <= pos < Z.of_nat (length c))%Z -> (0 < e)%Z -> W (from c (pos + e)) < W (from c pos).
Proof.
  intros c pos e H1 H2. rewrite from_add by lia. set (t := from c pos).
  assert (L : 0 < length t) by (unfold t; rewrite from_nat by lia; rewrite skipn_length; lia).
  rewrite (from_nat t) by lia. destruct (Nat.le_gt_cases (length t) (Z.to_nat e)) as [G|G].
  - rewrite skipn_all2 by lia. pose proof (w_drop W HW (length t) t (le_n _)) as D. rewrite skipn_all in D. lia.
  - pose proof (w_drop W HW (Z.to_nat e) t). lia.
Qed.
Lemma splice_shrinks : forall f s c pos r e, replacing_shrinks St W I f -> I s -> (0 <= pos < Z.of_nat (length c))%Z ->
  f s (from c pos) = Ok (Some (r, e)) -> (0 < e)%Z -> W (from (spliced c pos r e) pos) < W (from c pos).
Proof.
  intros f s c pos r e Hf Is H E P. unfold spliced. rewrite upto_from by lia. rewrite from_add by lia. eapply Hf; eauto.
  intros C. assert (L : length (from c pos) = 0) by (rewrite C; reflexivity). rewrite from_nat in L by lia. rewrite skipn_length in L. lia.
Qed.
Lemma nonempty : forall (c : str) pos, (0 <= pos < Z.of_nat (length c))%Z -> from c pos <> [].
Proof. intros c pos H C. assert (L : length (from c pos) = 0) by (rewrite C; reflexivity). rewrite from_nat in L by lia. rewrite skipn_length in L. lia. Qed.

Lemma handlers_end : forall ps hs s t tokens, Forall (handler_progress St W I process) hs -> I s -> t <> [] -> ends_below St W I ps (W t) ->
  ends (fun r => I (fst (fst r)) /\ forall e, snd r = Some e -> (0 < e)%Z) (check_handlers St process ps hs s t tokens).
Proof.
  intros ps hs s t tokens F Is Nt E. induction F as [|h hs Hh1 F IH]; cbn [check_handlers].
  - cbn. split; [exact Is|discriminate].
  - destruct (h_can h s t) eqn:C; [|exact IH]. specialize (Hh1 ps s t tokens Is Nt C E).
    destruct (apply_handler St process ps h s t tokens) as [[[[s1 tk] e]|x]|]; cbn in *; [|exact Logic.I|destruct Hh1].
    destruct Hh1 as [H1 H2]. split; [exact H1|]. intros e' [= <-]. exact H2.
Qed.

Lemma match_pos : forall r t m k, k <= minlen r -> re_match_at r t 0 = Some m -> k <= m_end m.
Proof.
  intros r t m k L E. apply re_match_at_some in E; [|lia]. destruct E as (_ & Hr & _). pose proof (minlen_ok _ _ _ _ Hr). lia.
Qed.

Lemma remaining_ends : forall o s t tokens, I s ->
  match check_remaining St on_label o s t tokens with Ok (Some (s', _, e)) => I s' /\ 0 < e | _ => True end.
Proof.
  intros o s t tokens Is. unfold check_remaining.
  destruct (re_match_at P_label t 0) as [m|] eqn:E1.
  { pose proof (match_pos P_label t m 7 ltac:(vm_compute; lia) E1).
    destruct (extract_nested_content (skipn (m_end m - 1) t) c_lb c_rb) as [[[|x y]|] e]; try (split; [exact Is|lia]).
    destruct (on_label s (x :: y) tokens) as [[s1 tk]|] eqn:E; cbn; [|exact Logic.I]. split; [|lia]. eapply Hlab; eauto. }
  destruct (re_match_at P_newline t 0) as [m|] eqn:E2.
  { pose proof (match_pos P_newline t m 8 ltac:(vm_compute; lia) E2). destruct (add_token _ _ _); cbn; [|exact Logic.I]. split; [exact Is|lia]. }
  destruct (re_match_at P_break t 0) as [m|] eqn:E3.
  { pose proof (match_pos P_break t m 2 ltac:(vm_compute; lia) E3). destruct (add_token _ _ _); cbn; [|exact Logic.I]. split; [exact Is|lia]. }
  destruct (re_match_at P_continuation t 0) as [m|] eqn:E4; [|exact Logic.I].
  pose proof (match_pos P_continuation t m 1 ltac:(vm_compute; lia) E4). split; [exact Is|lia].
Qed.
Lemma unknown_ends : forall s t, match check_unknown St expand s t with Ok (Some (_, e)) => 0 < e | _ => True end.
Proof.
  intros s t. unfold check_unknown. destruct (re_match_at P_unknown t 0) as [m|] eqn:E; [|exact Logic.I].
  pose proof (match_pos P_unknown t m 2 ltac:(vm_compute; lia) E).
  destruct (endswith (m_group0 t m) [c_lb]).
  - destruct (extract_nested_content (skipn (m_end m - 1) t) c_lb c_rb) as [[inner|] ie]; [|exact Logic.I]. cbn [bind].
    destruct (expand s _) as [x|]; cbn [bind]; [|exact Logic.I]. destruct (startswith x [c_bs]); lia.
  - cbn [bind]. destruct (expand s _) as [x|]; cbn [bind]; [|exact Logic.I]. destruct (startswith x [c_bs]); lia.
Qed.

Lemma dispatch_ends : forall ps o s c pos tokens, I s -> (0 <= pos < Z.of_nat (length c))%Z -> ends_below St W I ps (W (from c pos)) ->
  ends (shrinks (W (from c pos))) (dispatchf ps o s c pos tokens).
Proof.
  intros ps o s c pos tokens Is Hp E. unfold dispatchf, dispatch.
  assert (Sp : forall f s0 r e, replacing_shrinks St W I f -> I s0 -> f s0 (from c pos) = Ok (Some (r, e)) -> (0 <? e)%Z = true ->
    ends (shrinks (W (from c pos))) (ret (Next s0 (spliced c pos r e) pos tokens))).
  { intros f s0 r e Hf I0 Ef L. apply Z.ltb_lt in L. cbn. split; [exact I0|]. split; [lia|]. eapply splice_shrinks; eauto. }
  assert (Dr : forall s0 tk e, I s0 -> (0 < e)%Z -> ends (shrinks (W (from c pos))) (ret (Next s0 c (pos + e) tk))).
  { intros s0 tk e I0 L. cbn. split; [exact I0|]. split; [lia|]. apply drop_shrinks; assumption. }
  destruct (user_command s (from c pos)) as [u|] eqn:Eu; cbn [rbind]; [|exact Logic.I].
  assert (Hu' : forall r e, u = Some (r, e) -> (0 <? e)%Z = true -> ends (shrinks (W (from c pos))) (ret (Next s (spliced c pos r e) pos tokens))) by (intros r e -> L; eapply (Sp user_command); eauto).
  destruct u as [[r e]|]; [destruct (0 <? e)%Z eqn:L; [eapply Hu'; eauto|]|]; clear Hu'.
  all: destruct (define s (from c pos)) as [[s1 e1]|] eqn:Ed; cbn [rbind]; [|exact Logic.I].
  all: assert (Is1 : I s1) by (eapply Hd; eauto).
  all: destruct (0 <? e1)%Z eqn:L1; [apply Dr; [exact Is1|apply Z.ltb_lt; exact L1]|].
  all: destruct (if_else s1 (from c pos)) as [u|] eqn:Ei; cbn [rbind]; [|exact Logic.I].
  all: assert (Hi' : forall r e, u = Some (r, e) -> (0 <? e)%Z = true -> ends (shrinks (W (from c pos))) (ret (Next s1 (spliced c pos r e) pos tokens))) by (intros r0 e0 -> L0; eapply (Sp if_else); eauto).
  all: destruct u as [[r2 e2]|]; [destruct (0 <? e2)%Z eqn:L2; [eapply Hi'; eauto|]|]; clear Hi'.
  all: destruct (if legacy_on o then legacy s1 (from c pos) else Ok None) as [u|] eqn:El; cbn [rbind]; [|exact Logic.I].
  all: assert (Hl' : forall r e, u = Some (r, e) -> (0 <? e)%Z = true -> ends (shrinks (W (from c pos))) (ret (Next s1 (spliced c pos r e) pos tokens)))
         by (intros r0 e0 -> L0; destruct (legacy_on o); [|discriminate]; eapply (Sp legacy); eauto).
  all: destruct u as [[r3 e3]|]; [destruct (0 <? e3)%Z eqn:L3; [eapply Hl'; eauto|]|]; clear Hl'.
  all: pose proof (handlers_end ps handlers s1 (from c pos) tokens Hh Is1 (nonempty c pos Hp) E) as HE;
    destruct (check_handlers St process ps handlers s1 (from c pos) tokens) as [[[[s2 tk2] h]|]|]; cbn [rbind]; [|exact Logic.I|destruct HE];
    cbn in HE; destruct HE as [Is2 He]; destruct h as [e4|]; [apply Dr; [exact Is2|apply He; reflexivity]|].
  all: pose proof (remaining_ends o s2 (from c pos) tk2 Is2) as HR; destruct (check_remaining St on_label o s2 (from c pos) tk2) as [[[[s5 tk5] e5]|]|]; cbn [rbind]; [destruct HR; apply Dr; [assumption|lia]| |exact Logic.I].
  all: pose proof (unknown_ends s2 (from c pos)) as HU; destruct (unknown_on o);
    [destruct (check_unknown St expand s2 (from c pos)) as [[[d e6]|]|]; cbn [rbind]; [| |exact Logic.I]|cbn [rbind]].
  all: try (destruct (add_token (TDict d) tk2 false); cbn [rbind]; [apply Dr; [exact Is2|lia]|exact Logic.I]).
  all: destruct (at_pos c pos); cbn [rbind]; [|exact Logic.I]; destruct (add_token _ tk2 false); cbn [rbind]; [apply Dr; [exact Is2|lia]|exact Logic.I].
Qed.

Lemma between_nat : forall (c : str) pos n, (0 <= pos)%Z -> Z.to_nat pos + n <= length c -> between c pos (pos + Z.of_nat n) = firstn n (from c pos).
Proof.
  intros c pos n H L. unfold between, slice. rewrite from_nat by lia. rewrite !clip_nonneg by lia.
  replace (Nat.min (length c) (Z.to_nat (pos + Z.of_nat n)) - Nat.min (length c) (Z.to_nat pos)) with n by lia.
  rewrite Nat.min_r by lia. reflexivity.
Qed.
Lemma endswith_one : forall t x, endswith t [x] = true -> exists p, t = p ++ [x].
Proof.
  intros t x H. unfold endswith in H. cbn [rev app] in H. destruct (rev t) as [|y r] eqn:E; cbn in H; [discriminate|].
  apply andb_true_iff in H. destruct H as [H _]. apply N.eqb_eq in H. subst.
  exists (rev r). rewrite <- (rev_involutive t), E. cbn [rev]. reflexivity.
Qed.

Lemma after_ends : forall ps o s c pos tokens, I s -> (0 <= pos < Z.of_nat (length c))%Z -> ends_below St W I ps (W (from c pos)) ->
  ends (shrinks (W (from c pos))) (afterf ps o s c pos tokens).
Proof.
  intros ps o s c pos tokens Is Hp E. unfold afterf, after_group.
  assert (Ln : length (from c pos) = length c - Z.to_nat pos) by (rewrite from_nat by lia; apply skipn_length).
  assert (Br : forall m, re_search DELIM (from c pos) = Some m -> m_start m <= length (from c pos)).
  { intros m Em. apply re_search_some in Em. lia. }
  assert (B0 : forall m r, re_search DELIM (from c pos) = Some m -> from c pos = c_lb :: r -> m_start m = 0).
  { intros m r Em Er. rewrite Er in Em. destruct (delim_brace r) as (m' & Em' & Z'). congruence. }
  destruct (re_search DELIM (from c pos)) as [m|] eqn:Ed.
  - destruct (Nat.ltb 0 (m_start m)) eqn:L; [|apply dispatch_ends; assumption].
    apply Nat.ltb_lt in L. specialize (Br m eq_refl). specialize (fun r => B0 m r eq_refl).
    unfold take_text. rewrite between_nat by lia. destruct (firstn (m_start m) (from c pos)) as [|x text] eqn:Ef.
    + cbn. split; [exact Is|]. split; [lia|]. apply drop_shrinks; lia.
    + cbv zeta. set (n := if endswith (x :: text) [c_lb] then (Z.of_nat (m_start m) - 1)%Z else Z.of_nat (m_start m)).
      assert (Hn : (0 < n)%Z).
      { unfold n. destruct (endswith (x :: text) [c_lb]) eqn:Ew; [|lia].
        destruct (Nat.eq_dec (m_start m) 1) as [E1|E1]; [|lia]. exfalso. rewrite E1 in Ef.
        destruct (from c pos) as [|y r] eqn:Ec; [discriminate Ef|]. cbn [firstn] in Ef. injection Ef as -> <-.
        destruct (endswith_one _ _ Ew) as (p & Ep). destruct p as [|? [|? ?]]; try discriminate. cbn in Ep. injection Ep as ->.
        specialize (B0 r eq_refl). lia. }
      destruct (if unknown_on o then _ else _) as [[tx|]|] eqn:Ex; cbn [rbind]; [|exact Logic.I|destruct (unknown_on o); discriminate].
      destruct (add_token (TStr tx) tokens _); cbn [rbind]; [|exact Logic.I].
      cbn. split; [exact Is|]. split; [lia|]. apply drop_shrinks; lia.
  - destruct (Nat.ltb 0 (length (from c pos))) eqn:L; [|apply dispatch_ends; assumption].
    unfold take_text. destruct (between c pos _) as [|x text]; [exact Is|]. cbv zeta.
    destruct (if unknown_on o then _ else _) as [[tx|]|] eqn:Ex; cbn [rbind]; [|exact Logic.I|destruct (unknown_on o); discriminate].
    destruct (add_token (TStr tx) tokens _); cbn [rbind]; [exact Is|exact Logic.I].
Qed.

Lemma step_ends : forall ps o s c pos tokens, I s -> (0 <= pos)%Z -> ends_below St W I ps (W (from c pos)) ->
  ends (shrinks (W (from c pos))) (stepf ps o s c pos tokens).
Proof.
  intros ps o s c pos tokens Is Hp E. unfold stepf, step.
  destruct (pos <? Z.of_nat (length c))%Z eqn:L; [|exact Is]. apply Z.ltb_lt in L. cbv zeta.
  set (n := Z.to_nat (Z.of_nat (length c) - pos)). pose proof (skip_spaces_ge n c pos Hp) as G1. pose proof (skip_spaces_le n c pos ltac:(lia)) as G2.
  set (pos' := skip_spaces n c pos) in *. clearbody pos'.
  destruct (Z.of_nat (length c) <=? pos')%Z eqn:L2; [exact Is|]. apply Z.leb_gt in L2.
  assert (Wp : W (from c pos') <= W (from c pos)).
  { destruct (Z.eq_dec pos' pos) as [->|]; [lia|]. replace pos' with (pos + (pos' - pos))%Z by lia. pose proof (drop_shrinks c pos (pos' - pos)). lia. }
  assert (E' : ends_below St W I ps (W (from c pos'))) by (intros o0 s0 c0 I0 L0; apply E; [exact I0|lia]).
  assert (Mono : forall r, shrinks (W (from c pos')) r -> shrinks (W (from c pos)) r).
  { intros [s0 c0 p0 t0|s0 t0]; cbn; [intros (A & B & C); repeat split; try assumption; lia|auto]. }
  assert (Up : forall r, ends (shrinks (W (from c pos'))) r -> ends (shrinks (W (from c pos))) r).
  { intros [[r|]|]; cbn; auto. }
  destruct (at_pos_in c pos') as (x & Ex & Es); [lia|]. rewrite Ex. cbn [rbind]. rewrite <- (from_nat c pos') in Es by lia.
  destruct (N.eqb x c_lb) eqn:El; [|apply Up, after_ends; [exact Is|lia|exact E']].
  destruct (extract_nested_content (from c pos') c_lb c_rb) as [[inner|] e] eqn:En; [|apply Up, after_ends; [exact Is|lia|exact E']].
  pose proof (w_group W HW _ _ _ En) as Hg. specialize (E' default_opts s inner Is Hg).
  destruct (ps default_opts s inner) as [[[s1 nested]|]|]; cbn [rbind]; [|exact Logic.I|exact E'].
  destruct (add_tokens _ tokens); cbn [rbind]; [|exact Logic.I]. cbn in E'. apply Mono. cbn. split; [exact E'|]. split; [lia|].
  apply drop_shrinks; [lia|]. assert (0 < e); [|lia].
  apply (extract_nested_content_iff c_lb c_rb (from c pos') inner e delims_curly) in En.
  apply group_at_pos in En. lia.
Qed.

Let loopf := loop St expand user_command define if_else legacy handlers process on_label.
Lemma loop_ends : forall f o s c pos tokens, I s -> (0 <= pos)%Z -> W (from c pos) < f -> ends (fun r => I (fst r)) (loopf f o s c pos tokens).
Proof.
  unfold loopf. induction f as [|f IH]; intros o s c pos tokens Is Hp L; [lia|]. cbn [loop].
  pose proof (step_ends (fun o' s' c => loop St expand user_command define if_else legacy handlers process on_label f o' s' (strip_latex_comments c) 0 []) o s c pos tokens Is Hp) as HS.
  unfold stepf in HS. destruct (step _ _ _ _ _ _ _ _ _ _ _ _ _ _ _) as [[r|]|]; cbn [rbind].
  - assert (HS' : shrinks (W (from c pos)) r).
    { apply HS. intros o0 s0 c0 I0 L0. apply IH; [exact I0|lia|]. rewrite from_nat by lia. cbn. lia. }
    destruct r as [s1 c1 p1 t1|s1 t1]; [|exact HS']. destruct HS' as (A & B & C). apply IH; [exact A|exact B|lia].
  - exact Logic.I.
  - apply HS. intros o0 s0 c0 I0 L0. apply IH; [exact I0|lia|]. rewrite from_nat by lia. cbn. lia.
Qed.
Lemma parse_ends : forall f o s content, I s -> W (strip_latex_comments content) < f ->
  ends (fun r => I (fst r)) (parse St expand user_command define if_else legacy handlers process on_label f o s content).
Proof. intros f o s content Is L. apply loop_ends; [exact Is|lia|]. rewrite from_nat by lia. exact L. Qed.

(** a round that changes nothing, and more generally a set of configurations the
    loop never leaves *)
Lemma loop_never : forall (P : St -> str -> Z -> list dict -> Prop) o,
  (forall ps s c pos tk, P s c pos tk -> exists s' c' pos' tk', stepf ps o s c pos tk = ret (Next s' c' pos' tk') /\ P s' c' pos' tk') ->
  forall f s c pos tk, P s c pos tk -> loopf f o s c pos tk = None.
Proof.
  intros P o HP. unfold loopf. induction f as [|f IH]; intros s c pos tk H; [reflexivity|]. cbn [loop].
  destruct (HP (fun o' s' c => loop St expand user_command define if_else legacy handlers process on_label f o' s' (strip_latex_comments c) 0 []) s c pos tk H) as (s' & c' & pos' & tk' & E & H').
  unfold stepf in E. rewrite E. cbn [rbind ret]. apply IH. exact H'.
Qed.
End Term.
