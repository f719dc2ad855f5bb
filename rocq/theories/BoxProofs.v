(** Proofs for C78: box commands. *)
From Coq Require Import List NArith PeanoNat Lia Bool String.
From Verif Require Import PyStr Regex RegexLemmas RegexHead Json TexUtilsModel DelimSpec DelimProofs DelimProofs2 TextModel BuilderModel ContentModel CommandModel CommandSpec CommandProofs2 BoxModel BoxSpec.
Import ListNotations. Notation length := List.length. Open Scope list_scope.

(** ** Arguments *)
Lemma args_split : forall s1 t s2 rs p, args_at t (s1 ++ s2) rs p ->
  exists rs1 rs2 p1 p2, rs = rs1 ++ rs2 /\ p = p1 + p2 /\ args_at t s1 rs1 p1 /\ args_at (skipn p1 t) s2 rs2 p2.
Proof.
  induction s1 as [|d s1 IH]; intros t s2 rs p H.
  - exists [], rs, 0, p. repeat split; auto. constructor.
  - cbn [List.app] in H. inversion H as [|t0 b n sp rs0 m G H1 E1 E2 E3 E4|t0 b n sp rs0 m G H1 E1 E2 E3 E4|t0 sp rs0 m G H1 E1 E2 E3 E4]; subst.
    + destruct (IH _ _ _ _ H1) as (a & b' & p1 & p2 & -> & -> & A & B). exists (Some b :: a), b', (n + p1), p2. repeat split; [lia|constructor; assumption|].
      rewrite <- skipn_add. exact B.
    + destruct (IH _ _ _ _ H1) as (a & b' & p1 & p2 & -> & -> & A & B). exists (Some b :: a), b', (n + p1), p2. repeat split; [lia|apply aa_opt; assumption|].
      rewrite <- skipn_add. exact B.
    + destruct (IH _ _ _ _ H1) as (a & b' & p1 & p2 & -> & -> & A & B). exists (None :: a), b', p1, p2. repeat split; auto. apply aa_absent; assumption.
Qed.
Lemma args_fun : forall t s rs p, args_at t s rs p -> forall rs' p', args_at t s rs' p' -> rs = rs' /\ p = p'.
Proof.
  induction 1 as [|t b n sp rs m G H IH|t b n sp rs m G H IH|t sp rs m G H IH]; intros rs' p' H'; inversion H'; subst.
  - auto.
  - match goal with K : group_at _ _ t ?b' ?n', L : args_at (skipn ?n' t) _ _ _ |- _ => destruct (group_at_fun _ _ _ _ _ _ _ delims_curly G K) as [-> ->]; destruct (IH _ _ L) as [-> ->] end. auto.
  - match goal with K : group_at _ _ t ?b' ?n', L : args_at (skipn ?n' t) _ _ _ |- _ => destruct (group_at_fun _ _ _ _ _ _ _ delims_square G K) as [-> ->]; destruct (IH _ _ L) as [-> ->] end. auto.
  - exfalso. match goal with K : forall b n, ~ group_at _ _ t b n |- _ => eapply K; exact G end.
  - exfalso. match goal with K : group_at _ _ t _ _ |- _ => eapply G; exact K end.
  - match goal with L : args_at t _ _ _ |- _ => destruct (IH _ _ L) as [-> ->] end. auto.
Qed.
Lemma args_some : forall t s rs p, args_at t s rs p -> (exists s0, s = s0 ++ [c_lb]) ->
  (exists b n, group_at c_lb c_rb t b n) \/ (exists b n, group_at c_lk c_rk t b n).
Proof.
  induction 1 as [|t b n sp rs m G H IH|t b n sp rs m G H IH|t sp rs m G H IH]; intros (s0 & E).
  - destruct s0; discriminate.
  - left; eauto.
  - right; eauto.
  - apply IH. destruct s0 as [|y s0]; [discriminate|]. injection E as _ E. exists s0. exact E.
Qed.
Lemma args_complete : forall content spec rs p, args_at content spec rs p -> (exists s0, spec = s0 ++ [c_lb]) ->
  (forall d, In d spec -> d = c_lb \/ d = c_lk) -> extract_delimited_args content spec = (rs, p).
Proof.
  intros content spec rs p H L D. destruct (extract_delimited_args_spec content spec D) as (s1 & s2 & rs1 & p1 & e & E & Es & A & St & _ & P). subst spec.
  destruct (args_split _ _ _ _ _ H) as (a & b & q1 & q2 & -> & -> & A1 & A2). destruct (args_fun _ _ _ _ A _ _ A1) as [-> ->]. clear A.
  destruct s2 as [|y s2].
  - inversion A2; subst. rewrite E, app_nil_r, Nat.add_0_r. destruct P as [->|[_ (s & P)]]; [reflexivity|discriminate].
  - exfalso. assert (L2 : exists s0, y :: s2 = s0 ++ [c_lb]).
    { destruct L as (s0 & L). destruct (exists_last (l := y :: s2)) as (s' & z & Z); [discriminate|]. rewrite Z in L. rewrite app_assoc in L. apply app_inj_tail in L as [_ ->]. exists s'. exact Z. }
    destruct St as [St|[[N1 N2]|[(s & St) N]]]; [discriminate| |].
    + destruct (args_some _ _ _ _ A2 L2) as [(x & n & G)|(x & n & G)]; [eapply N1|eapply N2]; exact G.
    + injection St as -> ->. inversion A2; subst. eapply N. eassumption.
Qed.
Lemma args_strip : forall t spec rs p, args_at t spec rs p -> (exists s0, spec = s0 ++ [c_lb]) ->
  nlead t < p /\ args_at (lstrip t) spec rs (p - nlead t).
Proof.
  induction 1 as [|t b n sp rs m G H IH|t b n sp rs m G H IH|t sp rs m G H IH]; intros L.
  - destruct L as ([|] & L); discriminate.
  - apply group_at_lstrip in G; [|reflexivity]. destruct G as [Le G]. pose proof (group_at_pos _ _ _ _ _ G) as P. split; [lia|].
    replace (n + m - nlead t) with ((n - nlead t) + m) by lia. rewrite <- lstrip_skipn in G. constructor; [exact G|]. rewrite lstrip_skipn, skipn_add. replace (nlead t + (n - nlead t)) with n by lia. exact H.
  - apply group_at_lstrip in G; [|reflexivity]. destruct G as [Le G]. pose proof (group_at_pos _ _ _ _ _ G) as P. split; [lia|].
    replace (n + m - nlead t) with ((n - nlead t) + m) by lia. rewrite <- lstrip_skipn in G. apply aa_opt; [exact G|]. rewrite lstrip_skipn, skipn_add. replace (nlead t + (n - nlead t)) with n by lia. exact H.
  - assert (L2 : exists s0, sp = s0 ++ [c_lb]). { destruct L as ([|y s0] & E); [discriminate|]. injection E as _ E. exists s0. exact E. }
    destruct (IH L2) as [I1 I2]. split; [exact I1|]. apply aa_absent; [|exact I2]. intros b n K. apply (G b (nlead t + n)). apply group_at_lstrip; [reflexivity|]. split; [lia|].
    rewrite lstrip_skipn in K. replace (nlead t + n - nlead t) with n by lia. exact K.
Qed.
Lemma args_head : forall t spec rs p, args_at t spec rs p -> (exists s0, spec = s0 ++ [c_lb]) ->
  exists ws x r, t = ws ++ x :: r /\ blank ws /\ (x = c_lb \/ x = c_lk).
Proof.
  intros t spec rs p H L. destruct (args_some _ _ _ _ H L) as [(b & n & G)|(b & n & G)]; destruct G as (ws & rest & -> & B & _).
  - exists ws, c_lb, (b ++ c_rb :: rest). auto.
  - exists ws, c_lk, (b ++ c_rk :: rest). auto.
Qed.

(** ** The pattern of a box command *)
Lemma in_boxes : forall (P : str * str -> Prop), (forall k, In k box_commands -> P k) -> Forall P box_commands.
Proof. intros P H. apply Forall_forall. exact H. Qed.
Lemma box_names : forall k, In k box_commands -> forall r, first_match BOX_NAMES (c_bs :: fst k ++ r) 1 [] (1 + length (fst k)) [].
Proof.
  intros k H. unfold box_commands in H. cbn [In] in H. repeat (destruct H as [<-|H]; [intros r; vm_compute; eexists; reflexivity|]). destruct H.
Qed.
Lemma spec_ends : forall k, In k box_commands -> exists s0, snd k = s0 ++ [c_lb].
Proof.
  intros k H. unfold box_commands in H. cbn [In] in H. repeat (destruct H as [<-|H]; [match goal with |- exists s0, snd (?a, ?b) = _ => exists (removelast b); reflexivity end|]). destruct H.
Qed.
Lemma spec_chars : forall k, In k box_commands -> forall d, In d (snd k) -> d = c_lb \/ d = c_lk.
Proof.
  intros k H. unfold box_commands in H. cbn [In] in H. repeat (destruct H as [<-|H]; [intros d D; cbn in D; repeat (destruct D as [<-|D]; [auto|]); destruct D|]). destruct H.
Qed.
Lemma setbox_none : forall k, In k box_commands -> forall r, re_match_at SETBOX_PATTERN (c_bs :: fst k ++ r) 0 = None.
Proof. intros k H r. unfold box_commands in H. cbn [In] in H. repeat (destruct H as [<-|H]; [vm_compute; reflexivity|]). destruct H. Qed.
Lemma saved_none : forall k, In k box_commands -> forall r, re_match_at SAVED_BOX_PATTERN (c_bs :: fst k ++ r) 0 = None.
Proof. intros k H r. unfold box_commands in H. cbn [In] in H. repeat (destruct H as [<-|H]; [vm_compute; reflexivity|]). destruct H. Qed.

Lemma box_match : forall k, In k box_commands -> forall ws x r, blank ws -> x = c_lb \/ x = c_lk ->
  re_match_at BOX_PATTERN (c_bs :: fst k ++ ws ++ x :: r) 0 =
  Some {| m_start := 0; m_end := 2 + length (fst k) + length ws; m_caps := [(1, (1, 1 + length (fst k)))] |}.
Proof.
  intros k H ws x r B X. apply fm_match. unfold BOX_PATTERN. set (t := c_bs :: fst k ++ ws ++ x :: r).
  eapply fm_seq; [apply (fm_is_ch c_bs t 0 [] (fst k ++ ws ++ x :: r)); reflexivity|].
  eapply fm_seq; [apply fm_grp; apply (box_names k H)|].
  assert (E : skipn (1 + length (fst k)) t = ws ++ x :: r). { unfold t. cbn [Nat.add skipn]. rewrite skipn_app, skipn_all, Nat.sub_diag. reflexivity. }
  eapply fm_seq; [apply (fm_star isspace t _ _ ws (x :: r) E B)|]. { destruct X as [-> | ->]; reflexivity. }
  apply skipn_more in E. replace (2 + length (fst k) + length ws) with (S (1 + length (fst k) + length ws)) by lia.
  unfold rcls. eapply fm_chr; [exact E|]. destruct X as [-> | ->]; reflexivity.
Qed.
Lemma delims_of : forall k x, In k box_commands -> (snd k = [c_lb] -> x = c_lb) -> box_delimiters (fst k) x = snd k.
Proof.
  intros k x H X. unfold box_commands in H. cbn [In] in H. repeat (destruct H as [<-|H]; [cbn [fst snd] in *; try reflexivity; rewrite (X eq_refl); reflexivity|]). destruct H.
Qed.

(** A box command yields what [process] makes of its last argument. *)
Definition content_of (name : str) (v : val) : res val :=
  if str_eqb name (lit "mbox") then do f <- flatten_all_to_string v; Ok (VStr (strip_latex_newlines f)) else Ok v.
Lemma mbox_start : forall k, In k box_commands -> forall ws x r, startswith (m_group0 (c_bs :: fst k ++ ws ++ x :: r) {| m_start := 0; m_end := 2 + length (fst k) + length ws; m_caps := [(1, (1, 1 + length (fst k)))] |}) (lit "\mbox") = str_eqb (fst k) (lit "mbox").
Proof.
  intros k H ws x r. unfold m_group0, slice. cbn [m_start m_end skipn]. unfold box_commands in H. cbn [In] in H.
  repeat (destruct H as [<-|H]; [reflexivity|]). destruct H.
Qed.
Lemma single_head : forall args rs p (ws : str) (x : ch) (r : str), args_at args [c_lb] rs p -> args = ws ++ x :: r -> blank ws -> x = c_lb \/ x = c_lk -> x = c_lb.
Proof.
  intros args rs p ws x r A E B X. inversion A as [|t0 b0 n sp rs0 m G| |]; subst. destruct G as (ws' & rest & E2 & B2 & _).
  assert (LS : lstrip (ws ++ x :: r) = x :: r). { rewrite lstrip_skipn, nlead_ws_app by exact B. cbn [nlead]. replace (isspace x) with false by (destruct X as [-> | ->]; reflexivity). rewrite Nat.add_0_r, skipn_app, skipn_all, Nat.sub_diag. reflexivity. }
  assert (E3 : lstrip (ws ++ x :: r) = lstrip (ws' ++ c_lb :: b0 ++ c_rb :: rest)) by (rewrite E2; reflexivity). rewrite LS in E3.
  rewrite lstrip_skipn, nlead_ws_app in E3 by exact B2. cbn [nlead] in E3. change (isspace c_lb) with false in E3. rewrite Nat.add_0_r, skipn_app, skipn_all, Nat.sub_diag in E3. cbn in E3. congruence.
Qed.
Lemma box_handled : forall process st name spec args rs b p, In (name, spec) box_commands -> args_at args spec (rs ++ [Some b]) p -> b <> [] ->
  handle process st ([c_bs] ++ name ++ args) =
  (fst (process st b), do v <- snd (process st b); do v <- content_of name v; do t <- box_token v; Ok (t, 1 + length name + p)).
Proof.
  intros process st name spec args rs b p H A NB. pose proof (spec_ends _ H) as L. pose proof (spec_chars _ H) as D. cbn [snd] in L, D.
  destruct (args_head _ _ _ _ A L) as (ws & x & r & E & B & X). destruct (args_strip _ _ _ _ A L) as [P A1].
  assert (LS : lstrip args = x :: r). { rewrite E, lstrip_skipn, nlead_ws_app by exact B. cbn [nlead]. replace (isspace x) with false by (destruct X as [-> | ->]; reflexivity). rewrite Nat.add_0_r, skipn_app, skipn_all, Nat.sub_diag. reflexivity. }
  assert (NL : nlead args = length ws). { rewrite E, nlead_ws_app by exact B. cbn [nlead]. replace (isspace x) with false by (destruct X as [-> | ->]; reflexivity). lia. }
  rewrite E. cbn [List.app]. unfold handle. rewrite (setbox_none _ H), (saved_none _ H). unfold handle_box. pose proof (box_match _ H ws x r B X) as BM. cbn [fst] in BM. rewrite BM.
  pose proof (mbox_start _ H ws x r) as MB. cbn [fst] in MB |- *. rewrite MB.
  set (t := c_bs :: name ++ ws ++ x :: r) in *.
  assert (G1 : grp t 1 {| m_start := 0; m_end := 2 + length name + length ws; m_caps := [(1, (1, 1 + length name))] |} = name).
  { unfold grp, m_group. unfold m_span. cbn [m_caps cap_get Nat.eqb option_map]. unfold slice, t. replace (1 + length name - 1) with (length name) by lia. cbn [skipn]. rewrite firstn_app, Nat.sub_diag, firstn_all. cbn. apply app_nil_r. }
  rewrite G1.
  assert (LST : last (m_group0 t {| m_start := 0; m_end := 2 + length name + length ws; m_caps := [(1, (1, 1 + length name))] |}) 0%N = x).
  { unfold m_group0, slice. cbn [m_start m_end skipn]. unfold t. replace (c_bs :: name ++ ws ++ x :: r) with ((c_bs :: name ++ ws) ++ x :: r) by (cbn; rewrite <- app_assoc; reflexivity).
    replace (2 + length name + length ws - 0) with (length (c_bs :: name ++ ws) + 1) by (cbn [length]; rewrite app_length; lia). rewrite firstn_app_2. cbn [firstn]. apply last_last. }
  rewrite LST.
  assert (DL : box_delimiters name x = spec).
  { apply (delims_of (name, spec) x H). cbn [snd]. intros SE. rewrite SE in A. exact (single_head _ _ _ _ _ _ A E B X). }
  rewrite DL. cbn [m_end]. replace (2 + length name + length ws - 1) with (1 + length name + length ws) by lia.
  assert (SK : skipn (1 + length name + length ws) t = x :: r). { unfold t. cbn [Nat.add skipn]. rewrite <- skipn_add, skipn_app, skipn_all, Nat.sub_diag. cbn [skipn List.app]. rewrite skipn_app, skipn_all, Nat.sub_diag. reflexivity. }
  rewrite SK, <- LS, (args_complete _ _ _ _ A1 L D).
  assert (LEN : length (rs ++ [Some b]) = length spec). { clear -A. induction A; cbn; congruence. }
  rewrite LEN, Nat.eqb_refl, last_last. destruct b as [|y b]; [congruence|].
  destruct (process st (y :: b)) as [st1 rv]. cbn [fst snd]. f_equal. replace (p - nlead args + (1 + length name + length ws)) with (1 + length name + p) by lia. reflexivity.
Qed.
