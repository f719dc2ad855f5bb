(** The types with their own process method: equation, math_env and tabular. *)
From Coq Require Import List NArith ZArith PeanoNat Lia Bool String.
From Verif Require Import PyStr Json BuilderModel BuilderSpec BuilderProofs BuilderProofs2 BuilderSample FactoryModel FactoryProofs.
Import ListNotations. Notation length := List.length. Notation concat := List.concat. Open Scope list_scope.

Section S.
Context (validate : str -> dict -> res val) (table_cell : dict -> res val).
Notation factory_create := (factory_create validate table_cell).
(** every value of a list is created *)
Definition each (l o : list val) : Prop := Forall2 (fun x y => factory_create x = Ok y) l o.
(** the lists of tokens of a dictionary of placeholders *)
Definition each_placeholder (ps ps' : dict) : Prop :=
  Forall2 (fun a b => fst a = fst b /\ exists l o, snd a = VList l /\ snd b = VList o /\ each l o) ps ps'.
(** values in a cell: tokens are created, at any depth of lists *)
Inductive in_cell : val -> val -> Prop :=
| ic_token : forall d w, is_token (VDict d) -> factory_create (VDict d) = Ok w -> in_cell (VDict d) w
| ic_dict : forall d, ~ is_token (VDict d) -> in_cell (VDict d) (VDict d)
| ic_list : forall l o, Forall2 in_cell l o -> in_cell (VList l) (VList o)
| ic_other : forall v, (forall d, v <> VDict d) -> (forall l, v <> VList l) -> in_cell v v.
(** one cell of a row, and what it becomes in the row *)
Definition has_span (d : dict) : Prop := lookup k_rowspan d <> None \/ lookup k_colspan d <> None.
Definition or_one (k : str) (d : dict) : val := match lookup k d with Some v => v | None => VInt 1 end.
Inductive cell : val -> list val -> Prop :=
| ce_token : forall d w, is_token (VDict d) -> factory_create (VDict d) = Ok w -> cell (VDict d) [w]
| ce_span : forall d c c' w, ~ is_token (VDict d) -> has_span d -> lookup k_content d = Some c ->
    match c with VList _ => in_cell c c' | _ => c' = c end ->
    table_cell [(k_rowspan, or_one k_rowspan d); (k_colspan, or_one k_colspan d); (k_content, c')] = Ok w -> cell (VDict d) [w]
| ce_lost : forall d, ~ is_token (VDict d) -> ~ has_span d -> cell (VDict d) []
| ce_list : forall l v, in_cell (VList l) v -> cell (VList l) [v]
| ce_other : forall v, (forall d, v <> VDict d) -> (forall l, v <> VList l) -> cell v [v].
Inductive cells : list val -> list val -> Prop :=
| cs_nil : cells [] []
| cs_cons : forall v o l r, cell v o -> cells l r -> cells (v :: l) (o ++ r).
Definition rows (l o : list val) : Prop := Forall2 (fun a b => exists x y, a = VList x /\ b = VList y /\ cells x y) l o.

Lemma create_all_iff : forall f (R : val -> val -> Prop) l, (forall x y, In x l -> (f x = Ok y <-> R x y)) -> forall o, create_all f l = Ok o <-> Forall2 R l o.
Proof.
  intros f R l. induction l as [|x l IH]; intros H o; cbn [create_all].
  - split; [intros E; injection E as <-; constructor|intros F; inversion F; reflexivity].
  - assert (IH' := IH (fun a b I => H a b (or_intror I))). clear IH. split.
    + intros E. destruct (f x) as [y|] eqn:Ex; [|discriminate E]. cbn [bind] in E. destruct (create_all f l) as [ys|] eqn:Ey; [|discriminate E]. cbn in E. injection E as <-.
      constructor; [apply H; [left; reflexivity|exact Ex]|apply IH'; reflexivity].
    + intros F. inversion F as [|? y ? ys Fx Fy]; subst. apply H in Fx; [|left; reflexivity]. rewrite Fx. cbn [bind]. apply IH' in Fy. rewrite Fy. reflexivity.
Qed.
Lemma each_iff : forall n l, (forall x, In x l -> 2 * vsize x < n) -> forall o, create_all (create validate table_cell n) l = Ok o <-> each l o.
Proof. intros n l H o. apply create_all_iff. intros x y I. rewrite create_fuel by (apply H, I). reflexivity. Qed.
Lemma bind_iff : forall A B (x : res A) (f : A -> res B) b, bind x f = Ok b <-> exists a, x = Ok a /\ f a = Ok b.
Proof. intros A B x f b. destruct x as [a|e]; cbn; split; [intros H; eauto|intros (a' & E & H); injection E as ->; exact H|discriminate|intros (a' & E & _); discriminate E]. Qed.
Lemma token_type_of : forall d t, lookup k_type d = Some (VStr t) -> t <> lit "date" -> known t = true -> token_type d = Some t.
Proof. intros d t H N K. unfold token_type, get. rewrite H, K. destruct (str_eqb t (lit "date")) eqn:E; [apply str_eqb_spec in E; contradiction|reflexivity]. Qed.

Definition placeholders_of (d : dict) (p : val) : Prop :=
  match lookup k_placeholders d with
  | None => p = VNone
  | Some (VDict ps) => exists ps', p = VDict ps' /\ each_placeholder ps ps'
  | Some _ => False
  end.
Lemma create_equation : forall d w, lookup k_type d = Some (VStr (lit "equation")) ->
  (factory_create (VDict d) = Ok w <-> exists c p, lookup k_content d = Some c /\ placeholders_of d p /\
   validate (lit "equation") [(k_content, c); (k_display, get k_display d); (k_align, get k_align d); (k_numbering, get k_numbering d);
                              (k_placeholders, p); (k_labels, get k_labels d); (k_styles, get k_styles d)] = Ok w).
Proof.
  intros d w Ht. unfold FactoryModel.factory_create at 1. rewrite create_dict, (token_type_of d (lit "equation")) by (exact Ht || reflexivity || discriminate).
  set (n := 2 * vsize (VDict d)). unfold build_token. change (str_eqb (lit "equation") (lit "tabular")) with false. change (str_eqb (lit "equation") (lit "bibliography")) with false. rewrite str_eqb_refl. cbn iota.
  rewrite bind_iff.
  assert (P : forall p, (if has k_placeholders d then match get k_placeholders d with
       | VDict ps => do ps' <- mmap (fun kv => do l <- as_list (snd kv); do l' <- create_all (create validate table_cell n) l; Ok (fst kv, VList l')) ps; Ok (VDict ps')
       | _ => Raise AttributeError end else Ok VNone) = Ok p <-> placeholders_of d p).
  { intros p. unfold placeholders_of, has, get. destruct (lookup k_placeholders d) as [x|] eqn:E; [|split; [intros H; injection H as <-; reflexivity|intros ->; reflexivity]].
    destruct x as [| | | | |ps]; try (split; [discriminate|intros []]). apply lookup_size in E. rewrite vsize_dict in E. rewrite bind_iff.
    assert (Q : forall ps', mmap (fun kv => do l <- as_list (snd kv); do l' <- create_all (create validate table_cell n) l; Ok (fst kv, VList l')) ps = Ok ps' <-> each_placeholder ps ps').
    { assert (Hs : forall k v, In (k, v) ps -> 2 * vsize v < n).
      { intros k v I. apply in_dsize in I. unfold n. rewrite vsize_dict. lia. }
      clear E. clearbody n. induction ps as [|(k, v) ps IH]; intros ps'; cbn [mmap].
      - split; [intros H; injection H as <-; constructor|intros F; inversion F; reflexivity].
      - assert (IH' := IH (fun a b I => Hs a b (or_intror I))). clear IH. cbn [fst snd]. rewrite bind_iff. split.
        + intros (kv & H1 & H2). apply bind_iff in H1 as (l & Hl & H1). apply bind_iff in H1 as (l' & Hl' & H1). injection H1 as <-. apply bind_iff in H2 as (r & Hr & H2). injection H2 as <-.
          destruct v as [| | | |l0|]; try discriminate Hl. injection Hl as ->. constructor; [|apply IH', Hr]. split; [reflexivity|]. exists l, l'. split; [reflexivity|]. split; [reflexivity|].
          refine (proj1 (each_iff n l _ l') Hl'). intros x I. apply in_lsize in I. specialize (Hs k (VList l) (or_introl eq_refl)). rewrite vsize_list in Hs. lia.
        + intros F. inversion F as [|? kv ? r (F1 & l & o & F2 & F3 & F4) Fr]; subst. cbn [fst snd] in *. subst v. destruct kv as (k' & v'). cbn [fst snd] in *. subst k' v'.
          exists (k, VList o). split; [|rewrite (proj2 (IH' r) Fr); reflexivity]. cbn [as_list bind].
          assert (C : create_all (create validate table_cell n) l = Ok o).
          { refine (proj2 (each_iff n l _ o) F4). intros x I. apply in_lsize in I. specialize (Hs k (VList l) (or_introl eq_refl)). rewrite vsize_list in Hs. lia. }
          rewrite C. reflexivity. }
    split.
    - intros (ps' & H & Hp). injection Hp as <-. exists ps'. split; [reflexivity|]. apply Q, H.
    - intros (ps' & -> & H). exists ps'. split; [apply Q, H|reflexivity]. }
  split.
  - intros (p & Hp & H). apply P in Hp. apply bind_iff in H as (c & Hc & H). exists c, p. unfold getitem in Hc. destruct (lookup k_content d) as [c'|]; [injection Hc as ->|discriminate Hc]. auto.
  - intros (c & p & Hc & Hp & H). exists p. split; [apply P, Hp|]. unfold getitem. rewrite Hc. cbn [bind]. exact H.
Qed.

(** a field with a list of tokens; [none] when it is missing *)
Definition list_field (k : str) (d : dict) (none : val) (v : val) : Prop :=
  match lookup k d with
  | None => v = none
  | Some (VList l) => exists o, v = VList o /\ each l o
  | Some _ => False
  end.
Definition token_field (k : str) (d : dict) (v : val) : Prop :=
  match lookup k d with None => v = VNone | Some x => factory_create x = Ok v end.
Lemma create_math_env : forall d w, lookup k_type d = Some (VStr (lit "math_env")) ->
  (factory_create (VDict d) = Ok w <-> exists c t p, list_field k_content d (VList []) c /\ list_field k_title d VNone t /\ token_field k_proof d p /\
   validate (lit "math_env") [(k_content, c); (k_labels, get k_labels d); (k_styles, get k_styles d); (k_name, get k_name d);
                              (k_numbering, get k_numbering d); (k_title, t); (k_proof, p)] = Ok w).
Proof.
  intros d w Ht. unfold FactoryModel.factory_create at 1. rewrite create_dict, (token_type_of d (lit "math_env")) by (exact Ht || reflexivity || discriminate).
  set (n := 2 * vsize (VDict d)). unfold build_token. change (str_eqb (lit "math_env") (lit "tabular")) with false. change (str_eqb (lit "math_env") (lit "bibliography")) with false. change (str_eqb (lit "math_env") (lit "equation")) with false. rewrite str_eqb_refl. cbn iota.
  assert (L : forall k l, lookup k d = Some (VList l) -> forall o, create_all (create validate table_cell n) l = Ok o <-> each l o).
  { intros k l E. apply each_iff. intros x I. apply in_lsize in I. apply lookup_size in E. rewrite vsize_list in E. unfold n. rewrite vsize_dict. lia. }
  assert (P : forall p, (if has k_proof d then create validate table_cell n (get k_proof d) else Ok VNone) = Ok p <-> token_field k_proof d p).
  { intros p. unfold token_field, has, get. destruct (lookup k_proof d) as [x|] eqn:E; [|split; [intros H; injection H as <-; reflexivity|intros ->; reflexivity]].
    rewrite create_fuel; [reflexivity|]. apply lookup_size in E. unfold n. rewrite vsize_dict. lia. }
  clearbody n.
  assert (C : forall c, (if has k_content d then do l <- as_list (get k_content d); create_all (create validate table_cell n) l else Ok []) = Ok c <-> list_field k_content d (VList []) (VList c)).
  { intros c. unfold list_field, has, get. destruct (lookup k_content d) as [x|] eqn:E; [|split; [intros H; injection H as <-; reflexivity|intros H; injection H as ->; reflexivity]].
    destruct x as [| | | |l|]; try (split; [discriminate|intros []]). cbn [as_list bind]. rewrite (L _ _ E). split; [intros H; exists c; auto|intros (o & Eo & H); injection Eo as ->; exact H]. }
  assert (T : forall t, (if has k_title d then do l <- as_list (get k_title d); do l' <- create_all (create validate table_cell n) l; Ok (VList l') else Ok VNone) = Ok t <-> list_field k_title d VNone t).
  { intros t. unfold list_field, has, get. destruct (lookup k_title d) as [x|] eqn:E; [|split; [intros H; injection H as <-; reflexivity|intros ->; reflexivity]].
    destruct x as [| | | |l|]; try (split; [discriminate|intros []]). cbn [as_list bind]. rewrite bind_iff. split.
    - intros (o & Ho & H). injection H as <-. exists o. split; [reflexivity|]. apply (L _ _ E), Ho.
    - intros (o & -> & H). exists o. split; [apply (L _ _ E), H|reflexivity]. }
  rewrite bind_iff. split.
  - intros (c & Hc & H). apply bind_iff in H as (t & Htt & H). apply bind_iff in H as (p & Hp & H). exists (VList c), t, p. rewrite <- C, <- T, <- P. auto.
  - intros (c & t & p & Hc & Htt & Hp & H).
    assert (Ec : exists l, c = VList l). { unfold list_field in Hc. destruct (lookup k_content d) as [v|]; [|eauto]. destruct v; try contradiction. destruct Hc as (o & -> & _). eauto. }
    destruct Ec as (l & ->). exists l. rewrite C. split; [exact Hc|]. apply bind_iff. exists t. rewrite T. split; [exact Htt|]. apply bind_iff. exists p. rewrite P. auto.
Qed.
Lemma not_token : forall d, has k_type d = false -> ~ is_token (VDict d).
Proof. intros d H T. apply has_token in T. congruence. Qed.
Lemma nested_iff : forall n m l, lsize l < m -> (forall x, vsize x <= lsize l -> 2 * vsize x < n) -> forall o,
  process_nested_list (create validate table_cell n) m l = Ok o <-> Forall2 in_cell l o.
Proof.
  intros n m. induction m as [|m IH]; intros l Hl Hn o; [lia|]. cbn [process_nested_list].
  apply create_all_iff. intros x y I. apply in_lsize in I. destruct x as [|s|b|z|l'|d].
  - split; [intros H; injection H as <-; apply ic_other; discriminate|intros H; inversion H; reflexivity].
  - split; [intros H; injection H as <-; apply ic_other; discriminate|intros H; inversion H; reflexivity].
  - split; [intros H; injection H as <-; apply ic_other; discriminate|intros H; inversion H; reflexivity].
  - split; [intros H; injection H as <-; apply ic_other; discriminate|intros H; inversion H; reflexivity].
  - rewrite vsize_list in I. rewrite bind_iff. assert (IH' := fun o => IH l' ltac:(lia) (fun x Hx => Hn x ltac:(lia)) o). split.
    + intros (o' & H1 & H2). injection H2 as <-. apply ic_list, IH', H1.
    + intros H. inversion H as [| |? o' F|? ? N]; subst; [exists o'; split; [apply IH', F|reflexivity]|exfalso; eapply N; reflexivity].
  - destruct (has k_type d) eqn:E.
    + apply has_token in E. rewrite create_fuel by (apply Hn; lia). split; [intros H; apply ic_token; assumption|].
      intros H. inversion H as [| ? N| |? N]; subst; [assumption|contradiction|exfalso; eapply N; reflexivity].
    + apply not_token in E. split; [intros H; injection H as <-; apply ic_dict, E|].
      intros H. inversion H as [? ? T| | |? N]; subst; [contradiction|reflexivity|reflexivity].
Qed.
Lemma has_span_iff : forall d, has k_rowspan d || has k_colspan d = true <-> has_span d.
Proof.
  intros d. unfold has_span, has. destruct (lookup k_rowspan d), (lookup k_colspan d); cbn; split; intros H; try reflexivity; try discriminate H;
    try (left; discriminate); try (right; discriminate). destruct H as [H|H]; contradiction H; reflexivity.
Qed.
Lemma cell_iff : forall n v, (forall x, vsize x <= vsize v -> 2 * vsize x < n) -> forall o, tabular_cell table_cell (create validate table_cell n) n v = Ok o <-> cell v o.
Proof.
  intros n v Hn o.
  assert (L : forall l, vsize (VList l) <= vsize v -> forall o, process_nested_list (create validate table_cell n) n l = Ok o <-> Forall2 in_cell l o).
  { intros l H. apply nested_iff; [specialize (Hn (VList l) H); rewrite vsize_list in Hn; lia|]. intros x Hx. apply Hn. rewrite vsize_list in H. lia. }
  assert (K : forall v', (forall d, v' <> VDict d) -> (forall l, v' <> VList l) -> forall o, Ok [v'] = Ok o <-> cell v' o).
  { intros v' N1 N2 o'. split; [intros H; injection H as <-; apply ce_other; assumption|].
    intros H. inversion H; subst; try (exfalso; eapply N1; reflexivity); try (exfalso; eapply N2; reflexivity). reflexivity. }
  destruct v as [|s|b|z|l|d]; cbn [tabular_cell]; try (apply K; discriminate).
  - rewrite bind_iff. specialize (L l (le_n _)). split.
    + intros (o' & H1 & H2). injection H2 as <-. apply ce_list, ic_list, L, H1.
    + intros H. inversion H as [| | |? v F|? N1 N2]; subst; [|exfalso; eapply N2; reflexivity].
      inversion F as [| |? o' F'|? ? N]; subst; [exists o'; split; [apply L, F'|reflexivity]|exfalso; eapply N; reflexivity].
  - destruct (has k_type d) eqn:E.
    + apply has_token in E. rewrite bind_iff, create_fuel by (apply Hn; lia). split.
      * intros (w & H1 & H2). injection H2 as <-. apply ce_token; assumption.
      * intros H. inversion H as [? w T Hw|? ? ? ? N|? N| |? N]; subst; try contradiction; [exists w; auto|exfalso; eapply N; reflexivity].
    + apply not_token in E. destruct (has k_rowspan d || has k_colspan d) eqn:Es.
      * apply has_span_iff in Es. rewrite bind_iff. unfold getitem.
        assert (C : forall c, lookup k_content d = Some c -> forall c', match c with VList l => do l' <- process_nested_list (create validate table_cell n) n l; Ok (VList l') | v => Ok v end = Ok c' <->
          match c with VList _ => in_cell c c' | _ => c' = c end).
        { intros c Ec c'. destruct c as [| | | |l|]; try (split; [intros H; injection H as <-; reflexivity|intros ->; reflexivity]).
          apply lookup_size in Ec. assert (L' := L l ltac:(rewrite vsize_dict; lia)). rewrite bind_iff. split.
          - intros (o' & H1 & H2). injection H2 as <-. apply ic_list, L', H1.
          - intros F. inversion F as [| |? o' F'|? ? N]; subst; [exists o'; split; [apply L', F'|reflexivity]|exfalso; eapply N; reflexivity]. }
        split.
        -- intros (c & Hc & H). destruct (lookup k_content d) as [c0|] eqn:Ec; [|discriminate Hc]. injection Hc as ->.
           apply bind_iff in H as (c' & H1 & H). apply bind_iff in H as (w & H2 & H). injection H as <-.
           refine (ce_span d c c' w E Es Ec (proj1 (C c eq_refl c') H1) H2).
        -- intros H. inversion H as [? w T Hw|? c c' w N1 N2 N3 N4 N5|? N1 N2| |? N]; subst; try contradiction; [|exfalso; eapply N; reflexivity].
           exists c. rewrite N3. split; [reflexivity|]. apply bind_iff. exists c'. split; [exact (proj2 (C c N3 c') N4)|]. apply bind_iff. exists w. split; [exact N5|reflexivity].
      * assert (Ns : ~ has_span d) by (intros S; apply has_span_iff in S; congruence). split; [intros H; injection H as <-; apply ce_lost; assumption|].
        intros H. inversion H as [? w T Hw|? c c' w N1 N2 N3 N4 N5|? N1 N2| |? N]; subst; try contradiction; [reflexivity|exfalso; eapply N; reflexivity].
Qed.
Definition flat (l : list val) : list val := concat (map (fun v => match v with VList l => l | _ => [] end) l).
Lemma cells_iff : forall n l, (forall x, vsize x <= lsize l -> 2 * vsize x < n) -> forall o,
  (exists c, create_all (fun c => do l <- tabular_cell table_cell (create validate table_cell n) n c; Ok (VList l)) l = Ok c /\ o = flat c) <-> cells l o.
Proof.
  intros n l. induction l as [|x l IH]; intros Hn o; cbn [create_all].
  - split; [intros (c & H & ->); injection H as <-; constructor|intros H; inversion H; exists []; auto].
  - assert (Hx : vsize x <= lsize (x :: l)) by (apply in_lsize; left; reflexivity).
    assert (Hl : lsize l <= lsize (x :: l)) by (cbn; lia).
    assert (Hc := cell_iff n x (fun y Hy => Hn y (Nat.le_trans _ _ _ Hy Hx))). assert (IH' := IH (fun y Hy => Hn y (Nat.le_trans _ _ _ Hy Hl))). clear IH. split.
    + intros (c & H & ->). apply bind_iff in H as (y & H1 & H). apply bind_iff in H1 as (y' & H1 & H1'). injection H1' as <-. apply bind_iff in H as (r & H2 & H). injection H as <-.
      apply (cs_cons x y' l (flat r)); [apply Hc, H1|]. apply IH'. exists r. auto.
    + intros H. inversion H as [|? y ? r H1 H2]; subst. apply Hc in H1. apply IH' in H2 as (c & H2 & ->). exists (VList y :: c). split; [|reflexivity].
      rewrite H1. cbn [bind]. rewrite H2. reflexivity.
Qed.
Lemma create_tabular : forall d rs w, lookup k_type d = Some (VStr (lit "tabular")) -> lookup k_content d = Some (VList rs) ->
  (factory_create (VDict d) = Ok w <-> exists o, rows rs o /\ validate (lit "tabular") [(k_content, VList o)] = Ok w).
Proof.
  intros d rs w Ht Hc. unfold FactoryModel.factory_create at 1. rewrite create_dict, (token_type_of d (lit "tabular")) by (exact Ht || reflexivity || discriminate).
  assert (Hs := lookup_size _ _ _ Hc). rewrite vsize_list in Hs.
  set (n := 2 * vsize (VDict d)). unfold build_token. rewrite str_eqb_refl. cbn iota. unfold getitem. rewrite Hc. cbn [bind as_list].
  assert (R : forall o, create_all (fun row => do cells <- as_list row;
      do cells' <- create_all (fun c => do l <- tabular_cell table_cell (create validate table_cell n) n c; Ok (VList l)) cells;
      Ok (VList (flat cells'))) rs = Ok o <-> rows rs o).
  { apply create_all_iff. intros x y I. apply in_lsize in I. rewrite bind_iff.
    assert (Q : forall l, x = VList l -> forall o, (exists c, create_all (fun c => do l <- tabular_cell table_cell (create validate table_cell n) n c; Ok (VList l)) l = Ok c /\ o = flat c) <-> cells l o).
    { intros l -> . apply cells_iff. intros z Hz. rewrite vsize_list in I. unfold n. rewrite vsize_dict. lia. }
    split.
    - intros (l & Hl & H). destruct x as [| | | |l0|]; try discriminate Hl. injection Hl as ->. apply bind_iff in H as (c & H1 & H2). injection H2 as <-.
      exists l, (flat c). split; [reflexivity|]. split; [reflexivity|]. apply (Q l eq_refl). exists c. auto.
    - intros (l & o & -> & -> & H). exists l. split; [reflexivity|]. apply (Q l eq_refl) in H as (c & H1 & ->). apply bind_iff. exists c. auto. }
  unfold flat in R. rewrite bind_iff. split; intros (o & H1 & H2); exists o; (split; [apply R, H1|exact H2]).
Qed.
End S.
