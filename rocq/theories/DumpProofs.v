(** The JSON of tokens shows all their fields.  Vocabulary: DumpSpec.v. *)
From Coq Require Import List NArith ZArith PeanoNat Lia Bool String.
From Verif Require Import PyStr Json DumpModel DumpSpec JsonTextModel JsonTextSpec JsonTextProofs.
Import ListNotations. Notation length := List.length. Notation concat := List.concat. Open Scope list_scope.

Section Induction.
Context (P : pv -> Prop) (Hn : P PNone) (Hb : forall b, P (PBool b)) (Hi : forall z, P (PInt z)) (Hs : forall s, P (PStr s))
  (Hl : forall l, Forall P l -> P (PList l)) (Hd : forall d, Forall (fun kx => P (snd kx)) d -> P (PDict d))
  (Ht : forall c f, Forall (fun kx => P (snd kx)) f -> P (PTok c f)) (Hc : forall x r s, P x -> P r -> P s -> P (PCell x r s)).
Fixpoint pv_induct (v : pv) : P v :=
  match v with
  | PNone => Hn | PBool b => Hb b | PInt z => Hi z | PStr s => Hs s
  | PList l => Hl l ((fix go l : Forall P l := match l with [] => Forall_nil _ | x :: r => Forall_cons _ (pv_induct x) (go r) end) l)
  | PDict d => Hd d ((fix go (l : list (str * pv)) : Forall (fun kx => P (snd kx)) l := match l with [] => Forall_nil _ | kx :: r => Forall_cons kx (pv_induct (snd kx)) (go r) end) d)
  | PTok c f => Ht c f ((fix go (l : list (str * pv)) : Forall (fun kx => P (snd kx)) l := match l with [] => Forall_nil _ | kx :: r => Forall_cons kx (pv_induct (snd kx)) (go r) end) f)
  | PCell x r s => Hc x r s (pv_induct x) (pv_induct r) (pv_induct s)
  end.
End Induction.

Lemma is_in_iff : forall k l, is_in k l = true <-> In k (map (fun s => lit s) l).
Proof.
  intros k l. unfold is_in. rewrite existsb_exists, in_map_iff. split.
  - intros (s & I & E). apply str_eqb_spec in E. exists s. split; [symmetry; exact E|exact I].
  - intros (s & E & I). exists s. split; [exact I|]. apply str_eqb_spec. symmetry. exact E.
Qed.
Lemma common_iff : forall k, is_in k ["type"; "styles"; "content"; "labels"]%string = true <-> common k.
Proof. intros k. apply is_in_iff. Qed.
(** which mode a field is dumped in *)
Lemma treats_spec : forall cls k,
  (~ holds_tokens cls k /\ treats cls k = Annotated) \/ (holds_tokens cls k /\ cls = lit "tabular" /\ treats cls k = Cell) \/
  (holds_tokens cls k /\ cls <> lit "tabular" /\ treats cls k = Value).
Proof.
  intros cls k. unfold treats, holds_tokens.
  destruct (str_eqb k k_content) eqn:E1.
  { apply str_eqb_spec in E1. subst k. destruct (str_eqb cls (lit "tabular")) eqn:E2; right; [left|right].
    - apply str_eqb_spec in E2. split; [left; reflexivity|]. split; [exact E2|reflexivity].
    - split; [left; reflexivity|]. split; [intros ->; discriminate E2|reflexivity]. }
  assert (N1 : k <> lit "content") by (intros ->; discriminate E1).
  destruct (str_eqb k k_title && is_in cls ["section"; "paragraph"; "math_env"]%string) eqn:E3.
  { apply andb_true_iff in E3 as (E3 & E4). apply str_eqb_spec in E3. subst k. apply is_in_iff in E4. right. right.
    split; [right; left; split; [reflexivity|exact E4]|]. split; [|reflexivity]. intros ->. destruct E4 as [E|[E|[E|[]]]]; discriminate E. }
  destruct (str_eqb k k_proof && str_eqb cls (lit "math_env")) eqn:E5.
  { apply andb_true_iff in E5 as (E5 & E6). apply str_eqb_spec in E5. apply str_eqb_spec in E6. subst k cls. right. right.
    split; [right; right; split; reflexivity|]. split; [discriminate|reflexivity]. }
  left. split; [|reflexivity]. intros [H|[(H1 & H2)|(H1 & H2)]]; [contradiction| |].
  - subst k. apply (is_in_iff cls ["section"; "paragraph"; "math_env"]%string) in H2. rewrite H2 in E3. discriminate E3.
  - subst k cls. discriminate E5.
Qed.
Lemma none_iff : forall v, none v = true <-> v = PNone.
Proof. intros v. destruct v; cbn; split; intros H; try discriminate H; reflexivity. Qed.

Lemma fields_ok : forall (g : str -> pv -> val) (keep : str -> bool) (f : list (str * pv)),
  (forall k x, In (k, x) f -> x <> PNone -> keep k = true) ->
  (forall k x, In (k, x) f -> x <> PNone -> shows x (g k x)) ->
  fields_shown f (concat (map (fun kx => match kx with (k, x) => if none x then [] else if keep k then [(k, g k x)] else [] end) f)).
Proof.
  intros g keep f. induction f as [|(k, x) f IH]; intros H1 H2; [constructor|]. cbn [map List.concat].
  assert (IH' := IH (fun k x I => H1 k x (or_intror I)) (fun k x I => H2 k x (or_intror I))).
  destruct (none x) eqn:E.
  - apply none_iff in E. subst x. cbn [app]. constructor. exact IH'.
  - assert (N : x <> PNone) by (intros ->; discriminate E). rewrite (H1 k x (or_introl eq_refl) N). cbn [app]. constructor; [exact N| |exact IH'].
    apply H2; [left; reflexivity|exact N].
Qed.
Lemma list_ok : forall h l, (forall x, In x l -> shows x (dump h x)) -> all_shown l (map (dump h) l).
Proof. intros h l. induction l as [|x l IH]; intros H; constructor; [apply H; left; reflexivity|apply IH; intros y I; apply H; right; exact I]. Qed.
Lemma dict_ok : forall h (d : list (str * pv)), (forall k x, In (k, x) d -> shows x (dump h x)) -> members_shown d (map (fun kx => match kx with (k, x) => (k, dump h x) end) d).
Proof. intros h d. induction d as [|(k, x) d IH]; intros H; constructor; [apply (H k); left; reflexivity|apply IH; intros k' y I; apply (H k'); right; exact I]. Qed.

Lemma light_shown : forall v, light v -> shows v (dump Annotated v).
Proof.
  apply (pv_induct (fun v => light v -> shows v (dump Annotated v))); try (intros; constructor).
  - apply list_ok. intros x I. rewrite Forall_forall in H. apply H; [exact I|]. inversion H0; auto.
  - apply dict_ok. intros k x I. rewrite Forall_forall in H. pose proof (H (k, x) I) as R. cbn [snd] in R. apply R. inversion H0; subst. eauto.
  - inversion H0 as [| | | | | |c' f' Hc Hf]; subst. cbn [dump].
    apply (fields_ok (fun k x => dump Annotated x) (fun k => is_in k ["type"; "styles"; "content"; "labels"]%string)).
    + intros k x I N. apply common_iff, (Hc k x); assumption.
    + intros k x I N. rewrite Forall_forall in H. pose proof (H (k, x) I) as R. cbn [snd] in R. apply R. eauto.
  - intros x r s _ _ _ N. inversion N.
Qed.

Lemma nested_shown : forall v c, nested c v -> shows v (dump (if c then Cell else Value) v).
Proof.
  apply (pv_induct (fun v => forall c, nested c v -> shows v (dump (if c then Cell else Value) v))); try (intros; constructor).
  - apply list_ok. intros x I. rewrite Forall_forall in H. apply H; [exact I|]. inversion H0; auto.
  - apply dict_ok. intros k x I. rewrite Forall_forall in H. pose proof (H (k, x) I) as R. cbn [snd] in R. apply R. inversion H0; subst. eauto.
  - rename c into cls. rename c0 into c. inversion H0 as [| | | | | | |c' cls' f' Ha Hb Hc]; subst.
    assert (Q : fields_shown f (concat (map (fun kx => match kx with (k, x) => if none x then [] else if true then [(k, dump (treats cls k) x)] else [] end) f))).
    { apply (fields_ok (fun k x => dump (treats cls k) x) (fun _ => true)); [reflexivity|]. intros k x I N.
      destruct (treats_spec cls k) as [(T & ->)|[(T & Ec & ->)|(T & Ec & ->)]].
      - apply light_shown. eauto.
      - rewrite Forall_forall in H. pose proof (H (k, x) I true) as R. cbn [snd] in R. apply R. eauto.
      - rewrite Forall_forall in H. pose proof (H (k, x) I false) as R. cbn [snd] in R. apply R. eauto. }
    destruct c; exact Q.
  - intros x r s H H0 H1 c N. inversion N; subst. cbn [dump]. constructor; [apply (H true)|apply (H0 true)|apply (H1 true)]; assumption.
Qed.
Lemma model_dump_shown : forall t, nested false t -> shows t (model_dump t).
Proof. intros t. apply (nested_shown t false). Qed.

Lemma cut_shown : forall v u, no_cells v -> cut v u -> shows u (dump Annotated v).
Proof.
  apply (pv_induct (fun v => forall u, no_cells v -> cut v u -> shows u (dump Annotated v))).
  - intros u _ C. inversion C. constructor.
  - intros b u _ C. inversion C. constructor.
  - intros b u _ C. inversion C. constructor.
  - intros b u _ C. inversion C. constructor.
  - intros l IH u N C. inversion C as [| | | |l' m F| |]; subst. inversion N as [| | | |l' Nl| |]; subst. cbn [dump]. constructor. clear C N. induction F as [|x y l m Cxy F IHF]; [constructor|]. inversion IH as [|? ? I1 I2]; subst.
    cbn [map]. constructor; [apply I1; [apply Nl; left; reflexivity|exact Cxy]|]. apply IHF; [exact I2|]. intros z Iz. apply Nl. right. exact Iz.
  - intros d IH u N C. inversion C as [| | | | |d' e F|]; subst. inversion N as [| | | | |d' Nl|]; subst. cbn [dump]. constructor. clear C N. induction F as [|(k, x) (k', y) l m (Ek & Cxy) F IHF]; [constructor|]. inversion IH as [|? ? I1 I2]; subst.
    cbn in Ek, Cxy. subst k'. cbn [map]. constructor; [apply I1; [apply (Nl k); left; reflexivity|exact Cxy]|]. apply IHF; [exact I2|]. intros k' z Iz. apply (Nl k'). right. exact Iz.
  - intros cls f IH u N C. inversion C as [| | | | | |cls' f' g F]; subst. inversion N as [| | | | | |cls' f' Nl]; subst. cbn [dump]. constructor. clear C N. induction F as [|k x f g Nk F IHF|k x y f g Ck Cxy F IHF]; [constructor| |]; inversion IH as [|? ? I1 I2]; subst; cbn [map List.concat].
    + destruct (is_in k _) eqn:E; [apply common_iff in E; contradiction|]. replace (if none x then [] else []) with (@nil (str * val)) by (destruct (none x); reflexivity). cbn [app]. apply IHF; [exact I2|]. intros k' z Iz. apply (Nl k'). right. exact Iz.
    + assert (R := IHF I2 (fun k' z Iz => Nl k' z (or_intror Iz))). apply common_iff in Ck. rewrite Ck. destruct (none x) eqn:E.
      * apply none_iff in E. subst x. inversion Cxy. cbn [app]. constructor. exact R.
      * cbn [app]. constructor; [intros ->; inversion Cxy; subst; discriminate E| |exact R]. apply I1; [apply (Nl k); left; reflexivity|exact Cxy].
  - intros x r s _ _ _ u N _. inversion N.
Qed.
Lemma other_field : forall cls f k x u, In (k, x) f -> x <> PNone -> ~ holds_tokens cls k -> no_cells x -> cut x u ->
  exists e w, model_dump (PTok cls f) = VDict e /\ In (k, w) e /\ shows u w.
Proof.
  intros cls f k x u I N T Nc C. unfold model_dump. cbn [dump]. eexists. exists (dump Annotated x). split; [reflexivity|]. split; [|apply cut_shown; assumption].
  apply in_concat. exists [(k, dump Annotated x)]. split; [|left; reflexivity]. apply in_map_iff. exists (k, x). split; [|exact I].
  destruct (none x) eqn:E; [apply none_iff in E; contradiction|]. destruct (treats_spec cls k) as [(_ & ->)|[(T' & _)|(T' & _)]]; [reflexivity|contradiction|contradiction].
Qed.
Lemma to_json_shown : forall tokens cm, (forall t, In t tokens -> nested false t) ->
  exists values, all_shown tokens values /\ denotes (to_json tokens cm) (VDict [(lit "tokens", VList values); (lit "color_map", VDict cm)]).
Proof.
  intros tokens cm H. exists (map model_dump tokens). split; [|apply (write_ok (VDict _))].
  apply (list_ok Value). intros x I. apply model_dump_shown, H, I.
Qed.
