(** Proofs: extract_args, extract_delimited_args, equations, comments. *)
From Coq Require Import List NArith PeanoNat Bool Lia.
From Verif Require Import PyStr TexUtilsModel DelimSpec DelimProofs.
Import ListNotations.

(** ** extract_args *)
Lemma extract_args_spec : forall content r q, exists opt p1 req p2,
  groups_at c_lk c_rk content opt p1 /\ groups_at c_lb c_rb (skipn p1 content) req p2 /\
  length opt <= q /\ length req <= r /\
  (length opt < q -> forall ct n, ~ group_at c_lk c_rk (skipn p1 content) ct n) /\
  (length req < r -> forall ct n, ~ group_at c_lb c_rb (skipn (p1 + p2) content) ct n) /\
  extract_args content r q = (req, opt, if Nat.ltb 0 r then p2 else p1).
Proof.
  intros content r q. unfold extract_args.
  destruct (seq_blocks_spec c_lk c_rk (Some q) content delims_square) as (opt & p1 & E1 & G1 & L1 & S1).
  destruct (seq_blocks_spec c_lb c_rb (Some r) (skipn p1 content) delims_curly) as (req & p2 & E2 & G2 & L2 & S2).
  rewrite skipn_add in S2.
  exists opt, p1, req, p2. do 6 (split; [assumption|]).
  assert (Hc : (if Nat.ltb 0 p1 then skipn p1 content else content) = skipn p1 content).
  { destruct p1; reflexivity. }
  destruct (Nat.ltb 0 q) eqn:Eq.
  - rewrite E1, Hc. destruct (Nat.ltb 0 r) eqn:Er.
    + rewrite E2. reflexivity.
    + apply Nat.ltb_ge in Er. assert (req = []) by (destruct req; [reflexivity|cbn in L2; lia]). subst. reflexivity.
  - apply Nat.ltb_ge in Eq. assert (opt = []) by (destruct opt; [reflexivity|cbn in L1; lia]). subst opt.
    assert (p1 = 0) by (inversion G1; reflexivity). subst p1. cbn [skipn] in E2.
    destruct (Nat.ltb 0 r) eqn:Er.
    + rewrite E2. reflexivity.
    + apply Nat.ltb_ge in Er. assert (req = []) by (destruct req; [reflexivity|cbn in L2; lia]). subst. reflexivity.
Qed.

(** ** extract_delimited_args *)
Definition eda_stop (text spec : str) : Prop :=
  spec = [] \/
  (forall b n, ~ group_at c_lb c_rb text b n) /\ (forall b n, ~ group_at c_lk c_rk text b n) \/
  (exists s, spec = c_lb :: s) /\ (forall b n, ~ group_at c_lb c_rb text b n).

Lemma no_group_nil : forall o c text, isspace o = false -> skipn (nlead text) text = [] ->
  forall b n, ~ group_at o c text b n.
Proof.
  intros o c text Hsp E b n H. apply group_at_lstrip in H; auto. destruct H as [_ H].
  rewrite E in H. apply group_at_pos in H. cbn in H. lia.
Qed.

Lemma no_group_head : forall o c text x r, isspace o = false -> skipn (nlead text) text = x :: r ->
  x <> o -> forall b n, ~ group_at o c text b n.
Proof.
  intros o c text x r Hsp E Hx b n H.
  destruct H as (ws & rest & -> & Hb & _).
  rewrite nlead_ws_app in E by exact Hb. cbn [nlead] in E. rewrite Hsp, Nat.add_0_r in E.
  rewrite skipn_app, skipn_all, Nat.sub_diag in E. cbn in E. congruence.
Qed.

Lemma eda_loop_spec : forall content spec cur tot results,
  (forall d, In d spec -> d = c_lb \/ d = c_lk) ->
  (forall text, text = skipn cur content ->
  exists spec1 spec2 rs p,
    spec = spec1 ++ spec2 /\
    args_at text spec1 rs p /\
    fst (eda_loop content spec cur tot results) = results ++ rs /\
    eda_stop (skipn p text) spec2 /\
    let e := snd (eda_loop content spec cur tot results) in
      (e = tot /\ p = 0) \/ (e = cur + p /\ 0 < p) \/
      (e = cur + p + nlead (skipn p text) /\ (exists s, spec2 = c_lb :: s) /\
         exists d r, skipn (nlead (skipn p text)) (skipn p text) = d :: r)).
Proof.
  intros content. induction spec as [|d spec IH]; intros cur tot results Hspec text Ht.
  - exists [], [], [], 0. cbn. rewrite app_nil_r. repeat split; auto; try constructor; auto.
  - cbn [eda_loop].
    assert (Hskip : skipn (cur + nlead (skipn cur content)) content = skipn (nlead text) text).
    { subst text. rewrite skipn_add. reflexivity. }
    rewrite <- Ht. replace (skipn (cur + nlead text) content) with (skipn (nlead text) text)
      by (rewrite <- Hskip, Ht; reflexivity).
    destruct (skipn (nlead text) text) as [|x r] eqn:Ex.
    + exists [], (d :: spec), [], 0. cbn [fst snd app skipn]. rewrite app_nil_r.
      split; [reflexivity|]. split; [apply aa_nil|]. split; [reflexivity|].
      split; [|left; auto].
      right. left. split; apply no_group_nil; auto.
    + destruct (N.eqb x c_lb || N.eqb x c_lk) eqn:Exx; cbn [negb].
      2:{ apply orb_false_iff in Exx. destruct Exx as [E1 E2].
          apply N.eqb_neq in E1. apply N.eqb_neq in E2.
          exists [], (d :: spec), [], 0. cbn [fst snd app skipn]. rewrite app_nil_r.
          split; [reflexivity|]. split; [apply aa_nil|]. split; [reflexivity|].
          split; [|left; auto].
          right. left. split; eapply no_group_head; eauto. }
      assert (Hrec : forall b n o c tot', group_at o c (x :: r) b n ->
         isspace o = false ->
         forall rs0, exists spec1 spec2 rs p,
           spec = spec1 ++ spec2 /\ args_at (skipn (nlead text + n) text) spec1 rs p /\
           fst (eda_loop content spec (cur + nlead text + n) tot' rs0) = rs0 ++ rs /\
           eda_stop (skipn p (skipn (nlead text + n) text)) spec2 /\
           let e := snd (eda_loop content spec (cur + nlead text + n) tot' rs0) in
           (e = tot' /\ p = 0) \/ (e = cur + nlead text + n + p /\ 0 < p) \/
           (e = cur + nlead text + n + p + nlead (skipn p (skipn (nlead text + n) text)) /\
             (exists s, spec2 = c_lb :: s) /\
             exists d r, skipn (nlead (skipn p (skipn (nlead text + n) text))) (skipn p (skipn (nlead text + n) text)) = d :: r)).
      { intros b n o c tot' G Hsp rs0. apply IH.
        - intros d' Hd. apply Hspec. right. exact Hd.
        - rewrite Ht, skipn_add. f_equal. lia. }
      assert (Hd : d = c_lb \/ d = c_lk) by (apply Hspec; left; reflexivity).
      destruct Hd as [-> | ->].
      * rewrite N.eqb_refl.
        destruct (extract_nested_content_cases c_lb c_rb (x :: r) delims_curly) as [(b & n & E & G)|[E Hno]].
        -- rewrite E. pose proof (group_at_pos _ _ _ _ _ G) as Hn.
           destruct (Hrec b n c_lb c_rb (cur + nlead text + n) G eq_refl (results ++ [Some b]))
             as (s1 & s2 & rs & p & -> & HA & HF & HS & HE).
           exists (c_lb :: s1), s2, (Some b :: rs), (nlead text + n + p).
           split; [reflexivity|]. split.
           { constructor; [|exact HA]. apply group_at_lstrip; [reflexivity|].
             split; [lia|]. rewrite Ex. replace (nlead text + n - nlead text) with n by lia. exact G. }
           split; [rewrite HF, <- app_assoc; reflexivity|].
           rewrite <- skipn_add. split; [exact HS|].
           cbv zeta in HE |- *. destruct HE as [[-> ->]|[[-> Hp]|[-> Hp]]].
           ++ right. left. lia.
           ++ right. left. lia.
           ++ right. right. split; [lia|exact Hp].
        -- rewrite E. exists [], (c_lb :: spec), [], 0. cbn [fst snd app skipn]. rewrite app_nil_r.
           split; [reflexivity|]. split; [constructor|]. split; [reflexivity|].
           assert (Hno' : forall b n, ~ group_at c_lb c_rb text b n).
           { intros b n H. apply group_at_lstrip in H; [|reflexivity]. destruct H as [_ H].
             rewrite Ex in H. eapply Hno; exact H. }
           split.
           ++ right. right. split; [eauto|exact Hno'].
           ++ right. right. split; [lia|]. split; eauto.
      * change (N.eqb c_lk c_lb) with false. cbn [negb]. rewrite N.eqb_refl.
        destruct (extract_nested_content_cases c_lk c_rk (x :: r) delims_square) as [(b & n & E & G)|[E Hno]].
        -- rewrite E. pose proof (group_at_pos _ _ _ _ _ G) as Hn.
           destruct (Hrec b n c_lk c_rk (cur + nlead text + n) G eq_refl (results ++ [Some b]))
             as (s1 & s2 & rs & p & -> & HA & HF & HS & HE).
           exists (c_lk :: s1), s2, (Some b :: rs), (nlead text + n + p).
           split; [reflexivity|]. split.
           { apply aa_opt; [|exact HA]. apply group_at_lstrip; [reflexivity|].
             split; [lia|]. rewrite Ex. replace (nlead text + n - nlead text) with n by lia. exact G. }
           split; [rewrite HF, <- app_assoc; reflexivity|].
           rewrite <- skipn_add. split; [exact HS|].
           cbv zeta in HE |- *. destruct HE as [[-> ->]|[[-> Hp]|[-> Hp]]].
           ++ right. left. lia.
           ++ right. left. lia.
           ++ right. right. split; [lia|exact Hp].
        -- rewrite E.
           assert (Hno' : forall b n, ~ group_at c_lk c_rk text b n).
           { intros b n H. apply group_at_lstrip in H; [|reflexivity]. destruct H as [_ H].
             rewrite Ex in H. eapply Hno; exact H. }
           (* recursive call from the non-blank position *)
           destruct (IH (cur + nlead text) tot (results ++ [None])) with (text := x :: r)
             as (s1 & s2 & rs & p & -> & HA & HF & HS & HE).
           { intros d' Hd'. apply Hspec. right. exact Hd'. }
           { rewrite <- Ex, Ht. rewrite skipn_add. reflexivity. }
           assert (HA' : exists p', args_at text s1 rs p' /\
              ((p = 0 /\ p' = 0) \/ (0 < p /\ p' = nlead text + p))).
           { clear - HA Ex.
             remember (x :: r) as t1. revert text Ex.
             induction HA as [t|t b n sp rs m G HA _|t b n sp rs m G HA _|t sp rs m Hn HA IHA]; intros text Ex.
             - exists 0. split; [constructor|left; auto].
             - pose proof (group_at_pos _ _ _ _ _ G) as Hn.
               exists (nlead text + n + m). split; [|right; lia].
               constructor.
               + apply group_at_lstrip; [reflexivity|]. split; [lia|].
                 rewrite Ex. replace (nlead text + n - nlead text) with n by lia. exact G.
               + rewrite <- skipn_add, Ex. exact HA.
             - pose proof (group_at_pos _ _ _ _ _ G) as Hn.
               exists (nlead text + n + m). split; [|right; lia].
               apply aa_opt.
               + apply group_at_lstrip; [reflexivity|]. split; [lia|].
                 rewrite Ex. replace (nlead text + n - nlead text) with n by lia. exact G.
               + rewrite <- skipn_add, Ex. exact HA.
             - destruct (IHA Heqt1 text Ex) as (p' & HA' & Hp').
               exists p'. split; [|exact Hp']. apply aa_absent; auto.
               intros b n H. apply group_at_lstrip in H; [|reflexivity]. destruct H as [_ H].
               rewrite Ex in H. eapply Hn; exact H. }
           destruct HA' as (p' & HA' & Hp').
           exists (c_lk :: s1), s2, (None :: rs), p'.
           split; [reflexivity|]. split; [apply aa_absent; auto|].
           split; [rewrite HF, <- app_assoc; reflexivity|].
           assert (Hws : nlead (x :: r) = 0).
           { cbn. rewrite <- lstrip_skipn in Ex. rewrite (lstrip_head _ _ _ Ex). reflexivity. }
           split.
           { destruct Hp' as [[-> ->]|[Hp ->]].
             - cbn [skipn] in HS |- *. destruct HS as [HS|[[H1 H2]|[H1 H2]]].
               + left. exact HS.
               + right. left. split; intros b n H; apply group_at_lstrip in H; auto; destruct H as [_ H];
                 rewrite Ex in H; eauto. eapply H1; exact H. eapply H2; exact H.
               + right. right. split; auto. intros b n H. apply group_at_lstrip in H; [|reflexivity].
                 destruct H as [_ H]. rewrite Ex in H. eapply H2; exact H.
             - rewrite <- skipn_add, Ex. exact HS. }
           cbv zeta in HE |- *. destruct Hp' as [[-> ->]|[Hp ->]].
           ++ cbn [skipn] in *. destruct HE as [[-> _]|[[_ Hc]|[-> [Hs _]]]].
              ** left. auto.
              ** lia.
              ** right. right. rewrite Hws. split; [lia|]. split; [exact Hs|]. eauto.
           ++ rewrite <- skipn_add, Ex. destruct HE as [[_ Hc]|[[-> _]|[-> Hs]]].
              ** lia.
              ** right. left. lia.
              ** right. right. split; [lia|exact Hs].
Qed.

Lemma args_at_le : forall text spec rs p, args_at text spec rs p -> p <= length text.
Proof.
  induction 1 as [|text b n sp rs m G H IH|text b n sp rs m G H IH|text sp rs m Hn H IH]; [lia| | |exact IH];
   apply group_at_pos in G; rewrite skipn_length in IH; lia.
Qed.

Lemma extract_delimited_args_spec : forall content spec,
  (forall d, In d spec -> d = c_lb \/ d = c_lk) ->
  exists spec1 spec2 rs p e,
    extract_delimited_args content spec = (rs, e) /\
    spec = spec1 ++ spec2 /\ args_at content spec1 rs p /\ eda_stop (skipn p content) spec2 /\
    e <= length content /\
    (e = p \/ (e = p + nlead (skipn p content) /\ exists s, spec2 = c_lb :: s)).
Proof.
  intros content spec Hspec. unfold extract_delimited_args.
  destruct (eda_loop_spec content spec 0 0 [] Hspec content eq_refl)
    as (s1 & s2 & rs & p & Hs & HA & HF & HS & HE).
  destruct (eda_loop content spec 0 0 []) as [rs' e] eqn:E. cbn [fst snd app] in *. subst rs'.
  exists s1, s2, rs, p, e. pose proof (args_at_le _ _ _ _ HA) as Hle.
  do 4 (split; [auto|]). cbv zeta in HE. cbn [plus] in HE.
  destruct HE as [[-> ->]|[[-> Hp]|[-> [Hs2 (d & r & Hr)]]]].
  - split; [lia|left; reflexivity].
  - split; [lia|left; reflexivity].
  - split; [|right; auto].
    apply (f_equal (@length ch)) in Hr. rewrite !skipn_length in Hr. cbn [length] in Hr. lia.
Qed.

(** ** equations *)
Lemma brace_depth_app : forall a b d, brace_depth d (a ++ b) = brace_depth (brace_depth d a) b.
Proof.
  induction a as [|[x e] a IH]; intros b d; cbn; auto.
  destruct e; auto. destruct (N.eqb x c_lb); auto. destruct (N.eqb x c_rb); auto.
Qed.

Section FDE.
Variable delim : str.
Hypothesis Hdelim : match delim with [] => False | x :: _ => x <> c_lb /\ x <> c_rb end.

(** search on marked suffix *)
Fixpoint fde_pos (d : nat) (e : bool) (rest : str) : option nat :=
  match rest with
  | [] => None
  | x :: r =>
      let e' := N.eqb x c_bs && negb e in
      if N.eqb x c_lb && negb e then option_map S (fde_pos (S d) e' r)
      else if N.eqb x c_rb && negb e then option_map S (fde_pos (pred d) e' r)
      else if startswith rest delim && negb e && Nat.eqb d 0 then Some 0
      else option_map S (fde_pos d e' r)
  end.

Lemma fde_loop_pos : forall rest pre stack,
  fde_loop delim (pre ++ rest) (length pre) stack rest =
  option_map (fun k => length pre + k + length delim) (fde_pos (length stack) (esc_end false pre) rest).
Proof.
  induction rest as [|x rest IH]; intros pre stack; [reflexivity|].
  assert (Hstep : forall st, fde_loop delim (pre ++ x :: rest) (S (length pre)) st rest =
     option_map (fun k => length pre + k + length delim)
       (option_map S (fde_pos (length st) (N.eqb x c_bs && negb (esc_end false pre)) rest))).
  { intros st. specialize (IH (pre ++ [x]) st).
    rewrite <- app_assoc in IH. cbn [app] in IH. rewrite app_length in IH. cbn [length] in IH.
    rewrite Nat.add_1_r in IH. rewrite esc_end_app in IH. cbn [esc_end] in IH. rewrite IH. clear IH.
    destruct (fde_pos (length st) _ rest); cbn; [|reflexivity]. f_equal. lia. }
  cbn [fde_loop fde_pos]. rewrite is_escaped_pre. cbv zeta.
  destruct (N.eqb x c_lb && negb (esc_end false pre)); [rewrite Hstep; reflexivity|].
  destruct (N.eqb x c_rb && negb (esc_end false pre)).
  { destruct stack as [|s0 st]; rewrite Hstep; reflexivity. }
  destruct stack as [|s0 st]; cbn [length Nat.eqb].
  - destruct (startswith (x :: rest) delim && negb (esc_end false pre) && true).
    + cbn. f_equal. lia.
    + rewrite Hstep. reflexivity.
  - rewrite !andb_false_r. rewrite Hstep. reflexivity.
Qed.

(** least position characterisation *)
Definition fde_ok (d : nat) (e : bool) (rest : str) (k : nat) : Prop :=
  startswith (skipn k rest) delim = true /\ esc_end e (firstn k rest) = false /\ brace_depth d (firstn k (mark e rest)) = 0.

Lemma startswith_head : forall s, startswith s delim = true ->
  match s with [] => False | x :: _ => x <> c_lb /\ x <> c_rb end.
Proof.
  intros s H. destruct delim as [|y dl]; [contradiction|]. destruct s as [|x s]; [discriminate|].
  cbn in H. apply andb_true_iff in H. destruct H as [H _]. apply N.eqb_eq in H. subst. exact Hdelim.
Qed.

Lemma fde_ok_zero : forall d e rest, fde_ok d e rest 0 <->
  (startswith rest delim = true /\ e = false /\ d = 0).
Proof. intros. unfold fde_ok. cbn. reflexivity. Qed.

Definition depth_step (d : nat) (e : bool) (x : ch) : nat :=
  if e then d else if N.eqb x c_lb then S d else if N.eqb x c_rb then pred d else d.

Lemma fde_ok_succ : forall d e x rest k, fde_ok d e (x :: rest) (S k) <->
  fde_ok (depth_step d e x) (N.eqb x c_bs && negb e) rest k.
Proof.
  intros. unfold fde_ok, depth_step. cbn [skipn firstn esc_end mark brace_depth].
  destruct e; [reflexivity|]. destruct (N.eqb x c_lb); [reflexivity|]. destruct (N.eqb x c_rb); reflexivity.
Qed.

Lemma fde_pos_step : forall d e x rest,
  fde_pos d e (x :: rest) =
  if startswith (x :: rest) delim && negb e && Nat.eqb d 0 then Some 0
  else option_map S (fde_pos (depth_step d e x) (N.eqb x c_bs && negb e) rest).
Proof.
  intros. cbn [fde_pos]. cbv zeta. unfold depth_step.
  destruct (startswith (x :: rest) delim) eqn:Es.
  - pose proof (startswith_head _ Es) as [H1 H2]. cbn in H1, H2.
    apply N.eqb_neq in H1. apply N.eqb_neq in H2. rewrite H1, H2. cbn [andb].
    destruct e; reflexivity.
  - cbn [andb]. destruct e; cbn [negb]; rewrite ?andb_true_r, ?andb_false_r; [reflexivity|].
    destruct (N.eqb x c_lb); [reflexivity|]. destruct (N.eqb x c_rb); reflexivity.
Qed.

Lemma fde_pos_spec : forall rest d e,
  match fde_pos d e rest with
  | Some k => k < length rest /\ fde_ok d e rest k /\ forall j, j < k -> ~ fde_ok d e rest j
  | None => forall j, ~ fde_ok d e rest j
  end.
Proof.
  induction rest as [|x rest IH]; intros d e.
  - cbn. intros j (H & _). rewrite skipn_nil in H. destruct delim; [contradiction|discriminate].
  - rewrite fde_pos_step.
    destruct (startswith (x :: rest) delim && negb e && Nat.eqb d 0) eqn:E.
    + apply andb_true_iff in E. destruct E as [E E3]. apply andb_true_iff in E. destruct E as [E1 E2].
      apply negb_true_iff in E2. apply Nat.eqb_eq in E3. subst e d.
      split; [cbn; lia|]. split; [rewrite fde_ok_zero; auto|intros j Hj; lia].
    + assert (H0 : ~ fde_ok d e (x :: rest) 0).
      { intros H. rewrite fde_ok_zero in H. destruct H as (H1 & -> & ->). rewrite H1 in E. discriminate. }
      specialize (IH (depth_step d e x) (N.eqb x c_bs && negb e)).
      destruct (fde_pos (depth_step d e x) (N.eqb x c_bs && negb e) rest) as [k|]; cbn [option_map].
      * destruct IH as (Hk & Hok & Hmin). split; [cbn; lia|]. split; [rewrite fde_ok_succ; exact Hok|].
        intros [|j] Hj H; [exact (H0 H)|]. rewrite fde_ok_succ in H. apply (Hmin j); [lia|exact H].
      * intros [|j] H; [exact (H0 H)|]. rewrite fde_ok_succ in H. exact (IH j H).
Qed.

Lemma fde_ok_delim_at : forall content start i, start <= i ->
  esc_end false (firstn start content) = false \/ True ->
  (fde_ok 0 (esc_end false (firstn start content)) (skipn start content) (i - start) <->
   delim_at content delim start i).
Proof.
  intros content start i Hi _. unfold fde_ok, delim_at.
  rewrite skipn_add. replace (start + (i - start)) with i by lia.
  rewrite closes_after_esc.
  assert (Hf : firstn i content = firstn start content ++ firstn (i - start) (skipn start content)).
  { rewrite <- (firstn_skipn start content) at 1.
    destruct (Nat.le_gt_cases start (length content)) as [Hle|Hgt].
    - rewrite firstn_app. rewrite firstn_firstn. rewrite Nat.min_r by lia.
      rewrite firstn_length_le by lia. reflexivity.
    - rewrite skipn_all2 by lia. rewrite firstn_nil, !app_nil_r.
      rewrite firstn_firstn. rewrite Nat.min_r by lia. reflexivity. }
  assert (Hm : skipn start (marks content) = mark (esc_end false (firstn start content)) (skipn start content)).
  { rewrite <- (firstn_skipn start content) at 1. rewrite mark_app.
    destruct (Nat.le_gt_cases start (length content)) as [Hle|Hgt].
    - rewrite skipn_app. rewrite skipn_all2 by (rewrite mark_length, firstn_length_le by lia; lia).
      rewrite mark_length, firstn_length_le by lia. rewrite Nat.sub_diag. reflexivity.
    - rewrite (skipn_all2 content) by lia. cbn [mark]. rewrite app_nil_r. apply skipn_all2.
      rewrite mark_length, firstn_length. lia. }
  rewrite Hf, esc_end_app, <- Hm. tauto.
Qed.

Lemma find_delimiter_end_iff : forall content start e,
  find_delimiter_end content start delim = Some e <->
  exists i, delim_at content delim start i /\ e = i + length delim /\
    forall j, j < i -> ~ delim_at content delim start j.
Proof.
  intros content start e. unfold find_delimiter_end.
  destruct (Nat.le_gt_cases start (length content)) as [Hs|Hs].
  2:{ rewrite skipn_all2 by lia. cbn. split; [discriminate|].
      intros (i & (Hi & Hst & _) & _). exfalso. rewrite skipn_all2 in Hst by lia.
      destruct delim; [contradiction|discriminate]. }
  pose proof (fde_loop_pos (skipn start content) (firstn start content) []) as H.
  rewrite firstn_skipn, firstn_length_le in H by lia. rewrite H. cbn [length].
  pose proof (fde_pos_spec (skipn start content) 0 (esc_end false (firstn start content))) as Hp.
  destruct (fde_pos 0 (esc_end false (firstn start content)) (skipn start content)) as [k|]; cbn [option_map].
  - destruct Hp as (Hk & Hok & Hmin). split.
    + intros He. injection He as <-. exists (start + k). split; [|split; [lia|]].
      * rewrite <- fde_ok_delim_at by (lia || auto). replace (start + k - start) with k by lia. exact Hok.
      * intros j Hj Hd. pose proof Hd as (Hj' & _). rewrite <- fde_ok_delim_at in Hd by auto.
        apply (Hmin (j - start)); [lia|exact Hd].
    + intros (i & Hd & -> & Hmin'). f_equal. pose proof Hd as (Hi & _).
      assert (i = start + k); [|lia].
      rewrite <- fde_ok_delim_at in Hd by auto.
      destruct (Nat.lt_trichotomy (i - start) k) as [Hlt|[Heq|Hgt]].
      * exfalso. eapply Hmin; eauto.
      * lia.
      * exfalso. apply (Hmin' (start + k)); [lia|]. rewrite <- fde_ok_delim_at by (lia || auto).
        replace (start + k - start) with k by lia. exact Hok.
  - split; [discriminate|]. intros (i & Hd & _). exfalso. pose proof Hd as (Hi & _).
    rewrite <- fde_ok_delim_at in Hd by auto. exact (Hp _ Hd).
Qed.

Lemma find_delimiter_end_none : forall content start,
  find_delimiter_end content start delim = None <->
  forall i, ~ delim_at content delim start i.
Proof.
  intros content start. split.
  - intros H i Hd.
    (* least such i *)
    assert (Hex : exists i, delim_at content delim start i /\ forall j, j < i -> ~ delim_at content delim start j).
    { clear H. assert (Hall : forall n, (exists i, i <= n /\ delim_at content delim start i) ->
         exists i, delim_at content delim start i /\ forall j, j < i -> ~ delim_at content delim start j).
      { induction n as [|n IH]; intros (i' & Hle & Hd').
        - exists i'. split; auto. intros j Hj. lia.
        - destruct (Nat.eq_dec i' (S n)) as [->|Hne].
          + unfold find_delimiter_end in *.
            pose proof (find_delimiter_end_iff content start) as Hiff. unfold find_delimiter_end in Hiff.
            destruct (fde_loop delim content start [] (skipn start content)) as [e|] eqn:E.
            * destruct (proj1 (Hiff e) eq_refl) as (i1 & H1 & _ & H3). eauto.
            * exfalso.
              destruct (Nat.le_gt_cases start (length content)) as [Hs|Hs].
              -- pose proof (fde_loop_pos (skipn start content) (firstn start content) []) as H.
                 rewrite firstn_skipn, firstn_length_le in H by lia. rewrite H in E. cbn [length] in E.
                 pose proof (fde_pos_spec (skipn start content) 0 (esc_end false (firstn start content))) as Hp.
                 destruct (fde_pos 0 (esc_end false (firstn start content)) (skipn start content)); [discriminate|].
                 pose proof Hd' as (Hi & _). rewrite <- fde_ok_delim_at in Hd' by auto. exact (Hp _ Hd').
              -- destruct Hd' as (Hi & Hst & _). rewrite skipn_all2 in Hst by lia.
                 destruct delim; [contradiction|discriminate].
          + apply IH. exists i'. split; [lia|exact Hd']. }
      apply (Hall i). eauto. }
    destruct Hex as (i0 & H1 & H2).
    assert (Hc : find_delimiter_end content start delim = Some (i0 + length delim)).
    { apply find_delimiter_end_iff. eauto. }
    congruence.
  - intros H. destruct (find_delimiter_end content start delim) as [e|] eqn:E; auto.
    apply find_delimiter_end_iff in E. destruct E as (i & Hd & _). exfalso. eapply H; eauto.
Qed.

Lemma extract_equation_content_spec : forall content,
  (exists i e, startswith content delim = true /\ delim_at content delim (length delim) i /\
     (forall j, j < i -> ~ delim_at content delim (length delim) j) /\
     e = i + length delim /\
     extract_equation_content content delim = (strip (slice (length delim) i content), e))
  \/ ((startswith content delim = false \/ forall i, ~ delim_at content delim (length delim) i) /\
      extract_equation_content content delim = ([], 0)).
Proof.
  intros content. unfold extract_equation_content.
  destruct (startswith content delim) eqn:Es; cbn [negb]; [|right; auto].
  destruct (find_delimiter_end content (length delim) delim) as [e|] eqn:E.
  - left. apply find_delimiter_end_iff in E. destruct E as (i & Hd & -> & Hmin).
    exists i, (i + length delim). repeat split; auto; try apply Hd.
    replace (i + length delim - length delim) with i by lia. reflexivity.
  - right. split; auto. right. apply find_delimiter_end_none. exact E.
Qed.
End FDE.
