(** Proofs about label ownership. *)
From Coq Require Import List PeanoNat Lia Bool.
From Verif Require Import PyStr LabelModel LabelSpec.
Import ListNotations.

Section Ind.
Variable P : event -> Prop.
Hypothesis HL : forall l, P (ELabel l).
Hypothesis HF : forall id, P (ELeaf id).
Hypothesis HP : forall id es, Forall P es -> P (EPlain id es).
Hypothesis HN : forall id es, Forall P es -> P (ENote id es).
Hypothesis HH : forall id es, Forall P es -> P (EHead id es).
Hypothesis HE : forall d id es ts, Forall P es -> Forall P ts -> P (EEnv d id es ts).
Fixpoint event_rect' (e : event) : P e :=
  let all := fix go (es : list event) : Forall P es := match es with [] => Forall_nil _ | e :: r => Forall_cons e (event_rect' e) (go r) end in
  match e with
  | ELabel l => HL l | ELeaf id => HF id
  | EPlain id es => HP id es (all es) | ENote id es => HN id es (all es) | EHead id es => HH id es (all es)
  | EEnv d id es ts => HE d id es ts (all es) (all ts)
  end.
End Ind.
Lemma events_ind (P : event -> Prop) :
  (forall l, P (ELabel l)) -> (forall id, P (ELeaf id)) -> (forall id es, Forall P es -> P (EPlain id es)) -> (forall id es, Forall P es -> P (ENote id es)) ->
  (forall id es, Forall P es -> P (EHead id es)) -> (forall d id es ts, Forall P es -> Forall P ts -> P (EEnv d id es ts)) -> forall es, Forall P es.
Proof. intros A B C D E F es. apply Forall_forall. intros e _. apply event_rect'; assumption. Qed.

Lemma run_app : forall a b s, run_events (a ++ b) s = run_events b (run_events a s).
Proof. induction a as [|e a IH]; intros b s; [reflexivity|]. apply IH. Qed.

(** what a text does to the state: the new labels do not depend on ... their number, and current_env *)
Definition good (e : event) : Prop := forall s,
  (exists new, l_labels (run_event e s) = l_labels s ++ new /\ length new = labels_in e) /\
  l_cur (run_event e s) = match opened e with Some x => Some x | None => l_cur s end.
Definition goods (es : list event) : Prop := forall s,
  (exists new, l_labels (run_events es s) = l_labels s ++ new /\ length new = count_labels es) /\
  l_cur (run_events es s) = match last_opened es with Some x => Some x | None => l_cur s end.
Lemma goods_of : forall es, Forall good es -> goods es.
Proof.
  induction 1 as [|e es He _ IH]; intros s.
  - cbn. split; [exists []; rewrite app_nil_r; auto|reflexivity].
  - cbn [run_events]. fold run_events. destruct (He s) as [(n1 & E1 & L1) C1]. destruct (IH (run_event e s)) as [(n2 & E2 & L2) C2].
    change ((fix go (es : list event) (s : lstate) {struct es} : lstate := match es with [] => s | e :: r => go r (run_event e s) end) es (run_event e s)) with (run_events es (run_event e s)).
    split.
    + exists (n1 ++ n2). rewrite E2, E1, app_assoc. split; [reflexivity|]. rewrite app_length, L1, L2. reflexivity.
    + rewrite C2, C1. cbn [last_opened]. fold last_opened. change ((fix go (es : list event) : option nat := match es with [] => None | e :: r => match go r with Some x => Some x | None => opened e end end) es) with (last_opened es).
      destruct (last_opened es); [reflexivity|]. destruct (opened e); reflexivity.
Qed.
Lemma nested_good : forall es s, goods es -> let r := fst (nested (run_events es) s) in
  (exists new, l_labels r = l_labels s ++ new /\ length new = count_labels es) /\ l_cur r = match last_opened es with Some x => Some x | None => l_cur s end.
Proof. intros es s H. unfold nested. cbn [fst l_labels l_cur]. specialize (H {| l_cur := l_cur s; l_tokens := []; l_labels := l_labels s; l_out := l_out s |}). exact H. Qed.
Lemma all_good : forall e, good e.
Proof.
  apply event_rect'.
  - intros l s. cbn [run_event opened labels_in]. unfold handle_label. destruct (l_cur s) as [c|] eqn:E; [cbn; split; [eauto|first [exact E|reflexivity]]|].
    destruct (last_token (l_tokens s)); cbn; split; eauto.
  - intros id s. cbn. split; [exists []; rewrite app_nil_r; auto|reflexivity].
  - intros id es F s. apply goods_of in F. destruct (nested_good es s F) as [H1 H2]. split; [exact H1|exact H2].
  - intros id es F s. apply goods_of in F. destruct (nested_good es (set_cur (Some id) s) F) as [H1 H2]. split; [exact H1|].
    change (l_cur (run_event (ENote id es) s)) with (l_cur (fst (nested (run_events es) (set_cur (Some id) s)))). rewrite H2.
    change (opened (ENote id es)) with (match last_opened es with Some x => Some x | None => Some id end). destruct (last_opened es); reflexivity.
  - intros id es F s. apply goods_of in F. destruct (nested_good es (set_cur (Some id) s) F) as [H1 H2]. split; [exact H1|].
    change (l_cur (run_event (EHead id es) s)) with (l_cur (fst (nested (run_events es) (set_cur (Some id) s)))). rewrite H2.
    change (opened (EHead id es)) with (match last_opened es with Some x => Some x | None => Some id end). destruct (last_opened es); reflexivity.
  - intros d id es ts F1 F2 s. apply goods_of in F1, F2. destruct (nested_good es (set_cur (Some id) s) F1) as [(n1 & H1 & L1) _].
    set (s1 := fst (nested (run_events es) (set_cur (Some id) s))) in *.
    destruct (nested_good ts (set_cur (l_cur s) s1) F2) as [(n2 & H2 & L2) C2].
    set (s2 := fst (nested (run_events ts) (set_cur (l_cur s) s1))) in *.
    assert (R : l_labels (run_event (EEnv d id es ts) s) = l_labels s2 /\ l_cur (run_event (EEnv d id es ts) s) = l_cur s2).
    { change (run_event (EEnv d id es ts) s) with (if d && snd (nested (run_events es) (set_cur (Some id) s)) then s2 else add_tok id s2). destruct (d && _); split; reflexivity. }
    destruct R as [R1 R2]. rewrite R1, R2. split.
    + exists (n1 ++ n2). rewrite H2. cbn [set_cur l_labels]. rewrite H1, app_assoc. split; [reflexivity|]. rewrite app_length, L1, L2. reflexivity.
    + rewrite C2. reflexivity.
Qed.
Lemma all_goods : forall es, goods es. Proof. intros es. apply goods_of, Forall_forall. intros e _. apply all_good. Qed.

Lemma last_opened_cur : forall es s, l_cur (run_events es s) = match last_opened es with Some x => Some x | None => l_cur s end.
Proof. intros es s. apply all_goods. Qed.

(** the label at a place goes to [owner_at], after the labels before it *)
Lemma put_owner : forall p l after s o, owner_at (l_cur s) p = Some o ->
  exists a b, l_labels (run_events (put p l after) s) = l_labels s ++ a ++ [(l, Token o)] ++ b /\ length a = labels_before p.
Proof.
  assert (Rest : forall here s1 (s : lstate) a o l b, l_labels s1 = l_labels s ++ a ++ [(l, Token o)] ++ b ->
    exists b', l_labels (run_events here s1) = l_labels s ++ a ++ [(l, Token o)] ++ b').
  { intros here s1 s a o l b E. destruct (all_goods here s1) as [(new & En & _) _]. exists (b ++ new). rewrite En, E. rewrite <- !app_assoc. reflexivity. }
  assert (Cons : forall e here s, run_events (e :: here) s = run_events here (run_event e s)) by reflexivity.
  assert (Nest : forall es s1 (X : lstate -> lstate), l_labels (fst (nested (run_events es) s1)) = l_labels (run_events es {| l_cur := l_cur s1; l_tokens := []; l_labels := l_labels s1; l_out := l_out s1 |})) by reflexivity.
  induction p as [before|before id p IH|before id p IH|before id p IH|before d id title p IH|before d id inner p IH]; intros l after s o Ho; cbn [put owner_at labels_before] in *.
  all: set (here := match after with a :: _ => a | [] => [] end); set (rest := match after with _ :: r => r | [] => [] end).
  all: rewrite run_app, Cons; destruct (all_goods before s) as [(nb & Eb & Lb) Cb]; set (s1 := run_events before s) in *.
  - rewrite <- Cb in Ho. assert (E : l_labels (run_event (ELabel l) s1) = l_labels s ++ nb ++ [(l, Token o)] ++ []).
    { cbn [run_event]. unfold handle_label. rewrite Ho. cbn [l_labels]. rewrite Eb. cbn [app]. rewrite <- app_assoc. reflexivity. }
    destruct (Rest here _ s nb o l [] E) as (b' & E'). exists nb, b'. split; [exact E'|exact Lb].
  - rewrite <- Cb in Ho. destruct (IH l rest {| l_cur := l_cur s1; l_tokens := []; l_labels := l_labels s1; l_out := l_out s1 |} o Ho) as (a & b & E & La).
    assert (E2 : l_labels (run_event (EPlain id (put p l rest)) s1) = l_labels s ++ (nb ++ a) ++ [(l, Token o)] ++ b).
    { change (l_labels (run_event (EPlain id (put p l rest)) s1)) with (l_labels (run_events (put p l rest) {| l_cur := l_cur s1; l_tokens := []; l_labels := l_labels s1; l_out := l_out s1 |})). rewrite E. cbn [l_labels]. rewrite Eb, <- !app_assoc. reflexivity. }
    destruct (Rest here _ s _ o l b E2) as (b' & E'). exists (nb ++ a), b'. split; [exact E'|]. rewrite app_length. lia.
  - destruct (IH l rest {| l_cur := Some id; l_tokens := []; l_labels := l_labels s1; l_out := l_out s1 |} o Ho) as (a & b & E & La).
    assert (E2 : l_labels (run_event (ENote id (put p l rest)) s1) = l_labels s ++ (nb ++ a) ++ [(l, Token o)] ++ b).
    { change (l_labels (run_event (ENote id (put p l rest)) s1)) with (l_labels (run_events (put p l rest) {| l_cur := Some id; l_tokens := []; l_labels := l_labels s1; l_out := l_out s1 |})). rewrite E. cbn [l_labels]. rewrite Eb, <- !app_assoc. reflexivity. }
    destruct (Rest here _ s _ o l b E2) as (b' & E'). exists (nb ++ a), b'. split; [exact E'|]. rewrite app_length. lia.
  - destruct (IH l rest {| l_cur := Some id; l_tokens := []; l_labels := l_labels s1; l_out := l_out s1 |} o Ho) as (a & b & E & La).
    assert (E2 : l_labels (run_event (EHead id (put p l rest)) s1) = l_labels s ++ (nb ++ a) ++ [(l, Token o)] ++ b).
    { change (l_labels (run_event (EHead id (put p l rest)) s1)) with (l_labels (run_events (put p l rest) {| l_cur := Some id; l_tokens := []; l_labels := l_labels s1; l_out := l_out s1 |})). rewrite E. cbn [l_labels]. rewrite Eb, <- !app_assoc. reflexivity. }
    destruct (Rest here _ s _ o l b E2) as (b' & E'). exists (nb ++ a), b'. split; [exact E'|]. rewrite app_length. lia.
  - destruct (IH l rest {| l_cur := Some id; l_tokens := []; l_labels := l_labels s1; l_out := l_out s1 |} o Ho) as (a & b & E & La).
    set (s2 := fst (nested (run_events (put p l rest)) (set_cur (Some id) s1))).
    assert (E1 : l_labels s2 = l_labels s ++ (nb ++ a) ++ [(l, Token o)] ++ b).
    { change (l_labels s2) with (l_labels (run_events (put p l rest) {| l_cur := Some id; l_tokens := []; l_labels := l_labels s1; l_out := l_out s1 |})). rewrite E. cbn [l_labels]. rewrite Eb, <- !app_assoc. reflexivity. }
    assert (E2 : exists b2, l_labels (run_event (EEnv d id (put p l rest) title) s1) = l_labels s ++ (nb ++ a) ++ [(l, Token o)] ++ b2).
    { destruct (nested_good title (set_cur (l_cur s1) s2) (all_goods title)) as [(n2 & H2 & _) _]. exists (b ++ n2).
      transitivity (l_labels (fst (nested (run_events title) (set_cur (l_cur s1) s2)))).
      - change (run_event (EEnv d id (put p l rest) title) s1) with (if d && snd (nested (run_events (put p l rest)) (set_cur (Some id) s1)) then fst (nested (run_events title) (set_cur (l_cur s1) s2)) else add_tok id (fst (nested (run_events title) (set_cur (l_cur s1) s2)))). destruct (d && _); reflexivity.
      - rewrite H2. cbn [set_cur l_labels]. rewrite E1, <- !app_assoc. reflexivity. }
    destruct E2 as (b2 & E2). destruct (Rest here _ s _ o l b2 E2) as (b' & E'). exists (nb ++ a), b'. split; [exact E'|]. rewrite app_length. lia.
  - set (s2 := fst (nested (run_events inner) (set_cur (Some id) s1))).
    destruct (nested_good inner (set_cur (Some id) s1) (all_goods inner)) as [(n1 & H1 & L1) _]. fold s2 in H1. cbn [set_cur l_labels] in H1.
    rewrite <- Cb in Ho. destruct (IH l rest {| l_cur := l_cur s1; l_tokens := []; l_labels := l_labels s2; l_out := l_out s2 |} o Ho) as (a & b & E & La).
    assert (E2 : l_labels (run_event (EEnv d id inner (put p l rest)) s1) = l_labels s ++ (nb ++ n1 ++ a) ++ [(l, Token o)] ++ b).
    { transitivity (l_labels (run_events (put p l rest) {| l_cur := l_cur s1; l_tokens := []; l_labels := l_labels s2; l_out := l_out s2 |})).
      - change (run_event (EEnv d id inner (put p l rest)) s1) with (if d && snd (nested (run_events inner) (set_cur (Some id) s1)) then fst (nested (run_events (put p l rest)) (set_cur (l_cur s1) s2)) else add_tok id (fst (nested (run_events (put p l rest)) (set_cur (l_cur s1) s2)))). destruct (d && _); reflexivity.
      - rewrite E. cbn [l_labels]. rewrite H1, Eb, <- !app_assoc. reflexivity. }
    destruct (Rest here _ s _ o l b E2) as (b' & E'). exists (nb ++ n1 ++ a), b'. split; [exact E'|]. rewrite !app_length. lia.
Qed.
Lemma label_owner : forall p l after o, owner_at None p = Some o ->
  exists a b, labels_of (put p l after) = a ++ [(l, Token o)] ++ b /\ length a = labels_before p.
Proof. intros p l after o H. destruct (put_owner p l after fresh o H) as (a & b & E & L). exists a, b. auto. Qed.

(** ** No label is lost *)
Definition kept (X : nat -> Prop) (s : lstate) : Prop :=
  (forall l t, In (l, Token t) (l_labels s) -> In t (l_out s) \/ X t) /\ (forall t, l_cur s = Some t -> In t (l_out s) \/ X t) /\ (forall t, In t (l_tokens s) -> In t (l_out s)).
Lemma tokens_grow : forall es s, exists new, l_tokens (run_events es s) = l_tokens s ++ new.
Proof.
  assert (G : forall e s, exists new, l_tokens (run_event e s) = l_tokens s ++ new).
  { intros [l|id|id es|id es|id es|d id es ts] s.
    - cbn. unfold handle_label. destruct (l_cur s); [exists []; rewrite app_nil_r; reflexivity|]. destruct (last_token (l_tokens s)); [exists []; rewrite app_nil_r; reflexivity|]. eexists. reflexivity.
    - eexists. reflexivity.
    - eexists. reflexivity.
    - eexists. reflexivity.
    - eexists. reflexivity.
    - cbn [run_event]. destruct (nested _ (set_cur (Some id) s)) as [s1 em] eqn:E. apply (f_equal fst) in E. cbn [fst] in E. subst s1. destruct (d && em); [exists []; rewrite app_nil_r; reflexivity|]. eexists. reflexivity. }
  induction es as [|e es IH]; intros s; [exists []; rewrite app_nil_r; reflexivity|].
  destruct (G e s) as (n1 & E1). destruct (IH (run_event e s)) as (n2 & E2). exists (n1 ++ n2).
  change (run_events (e :: es) s) with (run_events es (run_event e s)). rewrite E2, E1, app_assoc. reflexivity.
Qed.
Definition solid (e : event) : bool := match e with ELabel _ => false | EEnv d _ _ _ => negb d | _ => true end.
Lemma solid_tokens : forall es s, existsb solid es = true -> l_tokens (run_events es s) <> [].
Proof.
  induction es as [|e es IH]; intros s H; [discriminate H|]. cbn [existsb] in H. change (run_events (e :: es) s) with (run_events es (run_event e s)).
  destruct (solid e) eqn:Se; [|apply IH; exact H].
  destruct (tokens_grow es (run_event e s)) as (new & ->). intros C. apply app_eq_nil in C as [C _]. revert C.
  destruct e as [l|id|id es'|id es'|id es'|d id es' ts]; try discriminate Se; cbn [run_event]; try (cbn [add_tok l_tokens]; intros C; apply app_eq_nil in C as [_ C]; discriminate C).
  cbn in Se. apply negb_true_iff in Se. subst d. destruct (nested _ (set_cur (Some id) s)) as [s1 em]. cbn [andb add_tok l_tokens]. intros C; apply app_eq_nil in C as [_ C]; discriminate C.
Qed.
Definition keeps (e : event) : Prop := env_nonempty e = true -> forall X s, kept X s -> kept X (run_event e s).
Definition keeps_all (es : list event) : Prop := all_nonempty es = true -> forall X s, kept X s -> kept X (run_events es s).
Lemma keeps_list : forall es, Forall keeps es -> keeps_all es.
Proof.
  induction 1 as [|e es He _ IH]; intros N X s K; [exact K|]. cbn [all_nonempty] in N. apply andb_prop in N as [N1 N2].
  change (run_events (e :: es) s) with (run_events es (run_event e s)). apply IH; [exact N2|]. apply He; assumption.
Qed.

Lemma out_grows : forall e s t, In t (l_out s) -> In t (l_out (run_event e s)).
Proof.
  intros e. pattern e. apply event_rect'; clear e.
  all: assert (L : forall es, Forall (fun e => forall s t, In t (l_out s) -> In t (l_out (run_event e s))) es -> forall s t, In t (l_out s) -> In t (l_out (run_events es s)))
    by (induction 1 as [|e es He _ IH]; intros s t H; [exact H|]; apply (IH (run_event e s)), He, H).
  - intros l s t H. cbn. unfold handle_label. destruct (l_cur s); [exact H|]. destruct (last_token (l_tokens s)); [exact H|]. apply in_or_app. auto.
  - intros id s t H. apply in_or_app. auto.
  - intros id es F s t H. apply in_or_app. left. apply (L es F), H.
  - intros id es F s t H. apply in_or_app. left. apply (L es F), H.
  - intros id es F s t H. apply in_or_app. left. apply (L es F), H.
  - intros d id es ts F1 F2 s t H.
    assert (A : In t (l_out (fst (nested (run_events ts) (set_cur (l_cur s) (fst (nested (run_events es) (set_cur (Some id) s)))))))) by (apply (L ts F2), (L es F1), H).
    change (run_event (EEnv d id es ts) s) with (if d && snd (nested (run_events es) (set_cur (Some id) s)) then fst (nested (run_events ts) (set_cur (l_cur s) (fst (nested (run_events es) (set_cur (Some id) s))))) else add_tok id (fst (nested (run_events ts) (set_cur (l_cur s) (fst (nested (run_events es) (set_cur (Some id) s))))))).
    destruct (d && _); [exact A|]. apply in_or_app. auto.
Qed.
Lemma outs_grow : forall es s t, In t (l_out s) -> In t (l_out (run_events es s)).
Proof. induction es as [|e es IH]; intros s t H; [exact H|]. apply (IH (run_event e s)), out_grows, H. Qed.
Lemma kept_nested : forall es X s, keeps_all es -> all_nonempty es = true -> kept X s -> kept X (fst (nested (run_events es) s)).
Proof.
  intros es X s K N (A & B & C). unfold nested. cbn [fst].
  destruct (K N X {| l_cur := l_cur s; l_tokens := []; l_labels := l_labels s; l_out := l_out s |}) as (A' & B' & C').
  - split; [exact A|]. split; [exact B|]. intros t [].
  - split; [exact A'|]. split; [exact B'|]. cbn [l_tokens l_out]. intros t H. apply outs_grow. apply C, H.
Qed.
Lemma kept_cur : forall X (s : lstate) id, kept X s -> kept (fun t => X t \/ t = id) (set_cur (Some id) s).
Proof.
  intros X s id (A & B & C). split; [|split; [|exact C]].
  - intros l t H. destruct (A l t H); auto.
  - cbn. intros t H. injection H as <-. auto.
Qed.
Lemma kept_add : forall X (s : lstate) id, kept (fun t => X t \/ t = id) s -> kept X (add_tok id s).
Proof.
  intros X s id (A & B & C). unfold add_tok. split; [|split]; cbn [l_labels l_cur l_tokens l_out].
  - intros l t H. destruct (A l t H) as [I|[I| ->]]; [left; apply in_or_app; auto|auto|left; apply in_or_app; right; left; reflexivity].
  - intros t H. destruct (B t H) as [I|[I| ->]]; [left; apply in_or_app; auto|auto|left; apply in_or_app; right; left; reflexivity].
  - intros t H. apply in_app_iff in H as [H|H]; apply in_or_app; [left; apply C, H|right; exact H].
Qed.
Lemma kept_weak : forall (X Y : nat -> Prop) s, (forall t, X t -> Y t) -> kept X s -> kept Y s.
Proof. intros X Y s H (A & B & C). split; [|split; [|exact C]]; [intros l t I; destruct (A l t I); auto|intros t I; destruct (B t I); auto]. Qed.
Lemma all_keep : forall e, keeps e.
Proof.
  apply event_rect'.
  - intros l _ X s (A & B & C). cbn [run_event]. unfold handle_label. destruct (l_cur s) as [c|] eqn:E.
    + split; [|split]; cbn [l_labels l_cur l_tokens l_out]; [|exact B|exact C].
      intros k t H. apply in_app_iff in H as [H|[H|[]]]; [apply (A k t H)|]. injection H as _ <-. apply B. reflexivity.
    + destruct (last_token (l_tokens s)) as [t0|] eqn:T.
      * split; [|split]; cbn [l_labels l_cur l_tokens l_out]; [|discriminate|exact C].
        intros k t H. apply in_app_iff in H as [H|[H|[]]]; [apply (A k t H)|]. injection H as _ <-. left. apply C.
        unfold last_token in T. destruct (rev (l_tokens s)) as [|x r] eqn:R; [discriminate T|]. injection T as <-. apply in_rev. rewrite R. left. reflexivity.
      * split; [|split]; cbn [l_labels l_cur l_tokens l_out]; [|discriminate|].
        -- intros k t H. apply in_app_iff in H as [H|[H|[]]]; [|discriminate H]. destruct (A k t H); [left; apply in_or_app; auto|auto].
        -- intros t H. apply in_app_iff in H as [H|H]; apply in_or_app; [left; apply C, H|right; exact H].
  - intros id _ X s K. apply kept_add. apply (kept_weak X); [auto|exact K].
  - intros id es F N X s K. apply keeps_list in F. apply kept_add. apply (kept_weak X); [auto|]. apply (kept_nested es X s F N K).
  - intros id es F N X s K. apply keeps_list in F. apply kept_add. apply (kept_nested es _ _ F N). apply kept_cur, K.
  - intros id es F N X s K. apply keeps_list in F. apply kept_add. apply (kept_nested es _ _ F N). apply kept_cur, K.
  - intros d id es ts F1 F2 N X s K. apply keeps_list in F1, F2.
    change (env_nonempty (EEnv d id es ts)) with (all_nonempty es && all_nonempty ts && (negb d || existsb solid es)) in N.
    apply andb_prop in N as [N N3]. apply andb_prop in N as [N1 N2].
    change (run_event (EEnv d id es ts) s) with (if d && snd (nested (run_events es) (set_cur (Some id) s)) then fst (nested (run_events ts) (set_cur (l_cur s) (fst (nested (run_events es) (set_cur (Some id) s))))) else add_tok id (fst (nested (run_events ts) (set_cur (l_cur s) (fst (nested (run_events es) (set_cur (Some id) s))))))).
    replace (d && snd (nested (run_events es) (set_cur (Some id) s))) with false.
    + apply kept_add. apply (kept_nested ts _ _ F2 N2).
      pose proof (kept_nested es _ _ F1 N1 (kept_cur X s id K)) as (A & B & C).
      split; [exact A|]. split; [|exact C]. cbn [set_cur l_cur l_out]. intros t H. destruct K as (_ & B0 & _). destruct (B0 t H) as [I|I]; [left|auto].
      unfold nested. cbn [fst l_out]. apply outs_grow. exact I.
    + symmetry. destruct d; [|reflexivity]. cbn [negb orb] in N3. unfold nested. cbn [snd andb].
      pose proof (solid_tokens es {| l_cur := l_cur (set_cur (Some id) s); l_tokens := []; l_labels := l_labels (set_cur (Some id) s); l_out := l_out (set_cur (Some id) s) |} N3) as Z.
      destruct (l_tokens _); [congruence|reflexivity].
Qed.
Lemma labels_kept : forall doc l t, all_nonempty doc = true -> In (l, Token t) (labels_of doc) -> In t (output_of doc).
Proof.
  intros doc l t N H.
  assert (F : Forall keeps doc) by (apply Forall_forall; intros e _; apply all_keep).
  destruct (keeps_list doc F N (fun _ => False) fresh) as (A & _ & _).
  - split; [|split]; cbn; [intros ? ? []|discriminate|intros ? []].
  - destruct (A l t H) as [I|[]]. exact I.
Qed.
