From Coq Require Import List NArith ZArith PeanoNat Lia Bool String.
From Verif Require Import PyStr Json BuilderModel BuilderSpec BuilderProofs BuilderProofs2 BuilderSample FactoryModel.
Import ListNotations.
Notation length := List.length.
Notation concat := List.concat.
Open Scope list_scope.

(** * Specification *)
Definition is_token (v : val) : Prop := exists d x, v = VDict d /\ lookup k_type d = Some x.
(** Tokens of no type, type "date" or an unknown type. *)
Definition dropped (v : val) : Prop := exists d, v = VDict d /\
  (match lookup k_type d with
   | None => True
   | Some (VStr s) => s = lit "date" \/ ~ In s (map lit TOKEN_TYPES)
   | Some x => truthy x = false
   end).
Definition special_type (s : str) : Prop := In s (map lit ["tabular"; "bibliography"; "equation"; "math_env"]%string).

Section F.
Variable validate : str -> dict -> res val.
Variable table_cell : dict -> res val.
Hypothesis validate_some : forall t d, validate t d <> Ok VNone.
Notation create := (create validate table_cell).
Notation process_content := (process_content validate table_cell).
Notation factory_create := (factory_create validate table_cell).

(** The content list of an ordinary token: dropped tokens disappear, other
    tokens are created, nested lists are treated alike, all else is kept. *)
Inductive kept : list val -> list val -> Prop :=
| kp_nil : kept [] []
| kp_drop : forall v l o, is_token v -> dropped v -> kept l o -> kept (v :: l) o
| kp_token : forall v w l o, is_token v -> ~ dropped v -> factory_create v = Ok w -> kept l o -> kept (v :: l) (w :: o)
| kp_plain : forall v l o, ~ is_token v -> (forall x, v <> VList x) -> kept l o -> kept (v :: l) (v :: o)
| kp_list : forall x x' l o, kept x x' -> kept l o -> kept (VList x :: l) (VList x' :: o).
(** a content or title field *)
Inductive kept_field : val -> val -> Prop :=
| kf_list : forall l o, kept l o -> kept_field (VList l) (VList o)
| kf_token : forall v w, is_token v -> factory_create v = Ok w -> kept_field v w
| kf_plain : forall v, ~ is_token v -> (forall x, v <> VList x) -> kept_field v v.

(* ------------------------------------------------------------------ *)
Lemma create_all_ext : forall f g l, (forall x, In x l -> f x = g x) -> create_all f l = create_all g l.
Proof.
  intros f g l. induction l as [|x l IH]; intros H; [reflexivity|]. cbn [create_all]. rewrite (H x) by (left; reflexivity).
  destruct (g x); [|reflexivity]. cbn [bind]. rewrite IH; [reflexivity|]. intros y Hy. apply H. right. exact Hy.
Qed.
Lemma nested_ext : forall n m f g l, lsize l < n -> lsize l < m -> (forall x, vsize x <= lsize l -> f x = g x) ->
  process_nested_list f n l = process_nested_list g m l.
Proof.
  induction n as [|n IH]; intros m f g l Hn Hm H; [lia|]. destruct m as [|m]; [lia|]. cbn [process_nested_list]. apply create_all_ext.
  intros x Hx. pose proof (in_lsize x l Hx) as Hs. destruct x as [| | | |y|d]; try reflexivity.
  - rewrite vsize_list in Hs. rewrite (IH m f g y); [reflexivity|lia|lia|]. intros z Hz. apply H. lia.
  - destruct (has k_type d); [apply H; exact Hs|reflexivity].
Qed.
Lemma loop_ext : forall f g p q l, (forall x, In x l -> f x = g x) -> (forall x, In x l -> p x = q x) -> content_loop f p l = content_loop g q l.
Proof.
  intros f g p q l. induction l as [|x l IH]; intros H1 H2; [reflexivity|]. cbn [content_loop].
  rewrite (H1 x), (H2 x) by (left; reflexivity). rewrite IH; [reflexivity| |]; intros; [apply H1|apply H2]; right; assumption.
Qed.
Lemma mmap_ext : forall A B (f g : A -> res B) l, (forall x, In x l -> f x = g x) -> mmap f l = mmap g l.
Proof.
  intros A B f g l. induction l as [|x l IH]; intros H; [reflexivity|]. cbn [mmap]. rewrite (H x) by (left; reflexivity).
  destruct (g x); [|reflexivity]. cbn [bind]. rewrite IH; [reflexivity|]. intros y Hy. apply H. right. exact Hy.
Qed.
Lemma get_size : forall k d, vsize (get k d) <= S (dsize d).
Proof. intros k d. unfold get. destruct (lookup k d) eqn:E; [apply lookup_size in E; lia|cbn; lia]. Qed.
Lemma has_size : forall k d, has k d = true -> vsize (get k d) <= dsize d.
Proof. intros k d H. unfold has, get in *. destruct (lookup k d) eqn:E; [apply lookup_size in E; lia|discriminate]. Qed.
Lemma in_dsize : forall k v (d : dict), In (k, v) d -> vsize v <= dsize d.
Proof. intros k v d. induction d as [|[k' w] d IH]; [intros []|]. intros [E|H]; cbn; [injection E as -> ->; lia|apply IH in H; lia]. Qed.

Lemma create_dict : forall n d, create (S n) (VDict d) =
  match token_type d with None => Ok VNone | Some t => build_token validate table_cell (create n) (process_content n) n t d end.
Proof. reflexivity. Qed.
Lemma process_list : forall n l, process_content (S n) (VList l) = do l' <- content_loop (create n) (process_content n) l; Ok (VList l').
Proof. reflexivity. Qed.
Lemma process_dict : forall n d, process_content (S n) (VDict d) = if has k_type d then create n (VDict d) else Ok (VDict d).
Proof. reflexivity. Qed.

Lemma fuel_ext : forall n,
  (forall m v, 2 * vsize v < n -> 2 * vsize v < m -> create n v = create m v) /\
  (forall m v, 2 * vsize v + 1 < n -> 2 * vsize v + 1 < m -> process_content n v = process_content m v).
Proof.
  induction n as [n IH] using lt_wf_ind. destruct n as [|n]; [split; intros; lia|].
  destruct (IH n (Nat.lt_succ_diag_r n)) as [IHc IHp]. clear IH. split; intros m v Hn Hm; (destruct m as [|m]; [lia|]).
  - destruct v as [| | | |l|d]; try reflexivity. rewrite !create_dict. rewrite vsize_dict in Hn, Hm.
    assert (Cr : forall x, vsize x <= dsize d -> create n x = create m x) by (intros x Hx; apply IHc; lia).
    assert (Pr : forall x, vsize x <= dsize d -> process_content n x = process_content m x) by (intros x Hx; apply IHp; lia).
    assert (All : forall l, S (lsize l) <= dsize d -> create_all (create n) l = create_all (create m) l).
    { intros l Hl. apply create_all_ext. intros x Hx. apply Cr. pose proof (in_lsize _ _ Hx). lia. }
    destruct (token_type d) as [t|]; [|reflexivity]. unfold build_token. clear IHc IHp.
    revert Cr Pr All. generalize (create m) (create n) (process_content m) (process_content n). intros cm cn pm pn Cr Pr All.
    destruct (str_eqb t (lit "tabular")).
    { unfold getitem. destruct (lookup k_content d) as [c|] eqn:E; [|reflexivity]. cbn [bind]. destruct c as [| | | |rows|]; try reflexivity. cbn [as_list bind].
      apply lookup_size in E. rewrite vsize_list in E. f_equal.
      apply create_all_ext. intros row Hr. pose proof (in_lsize _ _ Hr). destruct row as [| | | |cells|]; try reflexivity. cbn [as_list bind].
      rewrite vsize_list in *. rewrite (create_all_ext _ (fun c => do l <- tabular_cell table_cell cm m c; Ok (VList l)) cells); [reflexivity|].
      intros c Hc. pose proof (in_lsize _ _ Hc) as Hcs. unfold tabular_cell. destruct c as [| | | |l|dc]; try reflexivity.
      - rewrite vsize_list in Hcs. rewrite (nested_ext n m cn cm l); [reflexivity|lia|lia|]. intros x Hx. apply Cr. lia.
      - rewrite vsize_dict in Hcs. destruct (has k_type dc); [rewrite Cr by (rewrite vsize_dict; lia); reflexivity|].
        destruct (has k_rowspan dc || has k_colspan dc); [|reflexivity]. unfold getitem. destruct (lookup k_content dc) as [cc|] eqn:Ec; [|reflexivity]. cbn [bind].
        destruct cc as [| | | |l|]; try reflexivity. apply lookup_size in Ec. rewrite vsize_list in Ec.
        rewrite (nested_ext n m cn cm l); [reflexivity|lia|lia|]. intros x Hx. apply Cr. lia. }
    destruct (str_eqb t (lit "bibliography")).
    { unfold get_default. destruct (lookup k_content d) as [c|] eqn:E; [|reflexivity]. destruct c as [| | | |l|]; try reflexivity. cbn [as_list bind].
      apply lookup_size in E. rewrite vsize_list in E. f_equal. apply create_all_ext. intros x Hx. apply filter_In in Hx as [Hx _]. apply Cr. pose proof (in_lsize _ _ Hx). lia. }
    destruct (str_eqb t (lit "equation")).
    { f_equal. destruct (has k_placeholders d) eqn:Eh; [|reflexivity]. pose proof (has_size _ _ Eh) as Hs.
      destruct (get k_placeholders d) as [| | | | |ps]; try reflexivity. rewrite vsize_dict in Hs. f_equal. apply mmap_ext. intros [k w] Hin. cbn [snd fst].
      destruct w as [| | | |l|]; try reflexivity. cbn [as_list bind]. apply in_dsize in Hin. rewrite vsize_list in Hin. rewrite All by lia. reflexivity. }
    destruct (str_eqb t (lit "math_env")).
    { f_equal; [|].
      - destruct (has k_content d) eqn:Eh; [|reflexivity]. pose proof (has_size _ _ Eh) as Hs. destruct (get k_content d) as [| | | |l|]; try reflexivity.
        cbn [as_list bind]. rewrite vsize_list in Hs. apply All. lia.
      - assert (T : (if has k_title d then do l <- as_list (get k_title d); do l' <- create_all cn l; Ok (VList l') else Ok VNone) =
                    (if has k_title d then do l <- as_list (get k_title d); do l' <- create_all cm l; Ok (VList l') else Ok VNone)).
        { destruct (has k_title d) eqn:Eh; [|reflexivity]. pose proof (has_size _ _ Eh) as Hs. destruct (get k_title d) as [| | | |l|]; try reflexivity.
          cbn [as_list bind]. rewrite vsize_list in Hs. rewrite All by lia. reflexivity. }
        rewrite T.
        assert (P : (if has k_proof d then cn (get k_proof d) else Ok VNone) = (if has k_proof d then cm (get k_proof d) else Ok VNone)).
        { destruct (has k_proof d) eqn:Eh; [|reflexivity]. apply Cr. apply has_size. exact Eh. }
        rewrite P. reflexivity. }
    destruct (has k_content d) eqn:Eh.
    + rewrite Pr by (apply has_size; exact Eh). destruct (pm (get k_content d)) as [c|]; [|reflexivity]. cbn [bind].
      assert (Et : has k_title (set k_content c d) = has k_title d) by (unfold has; rewrite lookup_set_other by discriminate; reflexivity).
      rewrite Et, get_set_other by discriminate. destruct (has k_title d) eqn:Eh2; [|reflexivity]. rewrite Pr by (apply has_size; exact Eh2). reflexivity.
    + cbn [bind]. destruct (has k_title d) eqn:Eh2; [|reflexivity]. rewrite Pr by (apply has_size; exact Eh2). reflexivity.
  - destruct v as [| | | |l|d]; try reflexivity.
    + rewrite !process_list, vsize_list in *. f_equal. apply loop_ext; intros x Hx; pose proof (in_lsize _ _ Hx); [apply IHc|apply IHp]; lia.
    + rewrite !process_dict. destruct (has k_type d); [|reflexivity]. apply IHc; lia.
Qed.
Lemma create_fuel : forall n v, 2 * vsize v < n -> create n v = factory_create v.
Proof. intros n v H. unfold FactoryModel.factory_create. apply fuel_ext; [exact H|lia]. Qed.

(* ------------------------------------------------------------------ *)
Lemma known_spec : forall s, known s = true <-> In s (map lit TOKEN_TYPES).
Proof.
  intros s. unfold known. rewrite existsb_exists, in_map_iff. split; intros (t & H1 & H2).
  - exists t. apply str_eqb_spec in H2. auto.
  - exists t. subst. split; [exact H2|apply str_eqb_refl].
Qed.
Lemma token_type_spec : forall d, (token_type d = None <-> dropped (VDict d)).
Proof.
  intros d. unfold token_type, dropped, get. split.
  - intros H. exists d. split; [reflexivity|]. destruct (lookup k_type d) as [v|]; [|exact I].
    destruct v as [|b|z|s|l|d']; [reflexivity|destruct (truthy (VBool b)) eqn:E; [discriminate H|reflexivity]|destruct (truthy (VInt z)) eqn:E; [discriminate H|reflexivity]| |destruct (truthy (VList l)) eqn:E; [discriminate H|reflexivity]|destruct (truthy (VDict d')) eqn:E; [discriminate H|reflexivity]].
    destruct (str_eqb s (lit "date")) eqn:E; [left; apply str_eqb_spec; exact E|]. destruct (known s) eqn:K; [discriminate|].
    right. intros C. apply known_spec in C. congruence.
  - intros (d0 & E & H). injection E as <-. destruct (lookup k_type d) as [v|]; [|reflexivity].
    destruct v as [|b|z|s|l|d']; try (rewrite H; reflexivity); try reflexivity.
    destruct H as [->|H]; [rewrite str_eqb_refl; reflexivity|]. destruct (str_eqb s (lit "date")); [reflexivity|].
    destruct (known s) eqn:K; [|reflexivity]. exfalso. apply H. apply known_spec. exact K.
Qed.
Lemma has_token : forall d, has k_type d = true <-> is_token (VDict d).
Proof.
  intros d. unfold has, is_token. split.
  - destruct (lookup k_type d) as [x|] eqn:E; [|discriminate]. intros _. exists d, x. auto.
  - intros (d0 & x & E & H). injection E as <-. rewrite H. reflexivity.
Qed.
Lemma create_dropped : forall d, dropped (VDict d) -> factory_create (VDict d) = Ok VNone.
Proof. intros d H. unfold FactoryModel.factory_create. cbn [FactoryModel.create]. apply token_type_spec in H. rewrite H. reflexivity. Qed.

Ltac ends := repeat match goal with
  | |- context [bind ?x _] => destruct x; cbn [bind]; [|discriminate]
  end; try apply validate_some.
Lemma create_not_dropped : forall d, ~ dropped (VDict d) -> factory_create (VDict d) <> Ok VNone.
Proof.
  intros d H. unfold FactoryModel.factory_create. cbn [FactoryModel.create]. destruct (token_type d) as [t|] eqn:E; [|exfalso; apply H; apply token_type_spec; exact E]. unfold build_token.
  destruct (str_eqb t (lit "tabular")); [ends|]. destruct (str_eqb t (lit "bibliography")); [ends|].
  destruct (str_eqb t (lit "equation")); [ends|]. destruct (str_eqb t (lit "math_env")); ends.
Qed.

(** strings, lists, other values *)
Lemma create_string : forall s, factory_create (VStr s) = Ok (VStr s).
Proof. reflexivity. Qed.
Lemma create_list : forall l, factory_create (VList l) = Raise ValueError.
Proof. reflexivity. Qed.

Lemma process_list_spec : forall n l o, 2 * vsize (VList l) + 1 < n -> (process_content n (VList l) = Ok (VList o) <-> kept l o).
Proof.
  induction n as [n IHn] using lt_wf_ind. intros l o Hn. destruct n as [|n]; [lia|]. rewrite process_list.
  rewrite vsize_list in Hn.
  assert (L : forall l o, 2 * lsize l + 2 < n -> (content_loop (create n) (process_content n) l = Ok o <-> kept l o)).
  { clear l o Hn. induction l as [|x l IHl]; intros o Hn.
    - cbn. split; [intros H; injection H as <-; constructor|inversion 1; reflexivity].
    - cbn [lsize] in Hn. pose proof (vsize_pos x) as Hx. cbn [content_loop].
      assert (Hl : 2 * lsize l + 2 < n) by lia.
      destruct x as [|b|z|s|y|d].
      1-4: (destruct (content_loop (create n) (process_content n) l) as [o'|e] eqn:El; cbn [bind]; split;
        [ intros H; injection H as <-; apply kp_plain; [intros (? & ? & ? & _); discriminate|intros; discriminate|apply IHl; auto]
        | intros H; inversion H as [|? ? ? T _ _|? ? ? ? T _ _ _|? ? o2 T N K|]; subst;
          [destruct T as (? & ? & ? & _); discriminate|destruct T as (? & ? & ? & _); discriminate|apply IHl in K; [|exact Hl]; congruence]
        | discriminate
        | intros H; inversion H as [|? ? ? T _ _|? ? ? ? T _ _ _|? ? o2 T N K|]; subst;
          [destruct T as (? & ? & ? & _); discriminate|destruct T as (? & ? & ? & _); discriminate|apply IHl in K; [|exact Hl]; congruence] ]).
      + (* list *) rewrite vsize_list in *. split.
        * intros H. destruct (process_content n (VList y)) as [y'|] eqn:Ey; [|discriminate]. cbn [bind] in H.
          destruct (content_loop (create n) (process_content n) l) as [o'|e] eqn:El; [|discriminate]. cbn [bind] in H. injection H as <-.
          assert (exists y2, y' = VList y2) as (y2 & ->).
          { destruct n as [|n']; [lia|]. cbn [FactoryModel.process_content] in Ey. destruct (content_loop _ _ y); [|discriminate]. cbn in Ey. injection Ey as <-. eauto. }
          apply kp_list; [|apply IHl; auto]. eapply IHn; [|rewrite vsize_list|exact Ey]; lia.
        * intros H. inversion H as [|? ? ? T _ _|? ? ? ? T _ _ _|? ? o2 T N K|? x' ? o2 K1 K2]; subst;
            [destruct T as (? & ? & ? & _); discriminate|destruct T as (? & ? & ? & _); discriminate|exfalso; eapply N; reflexivity|].
          apply (IHn n) in K1; [|lia|rewrite vsize_list; lia]. rewrite K1. cbn [bind]. apply IHl in K2; [|exact Hl]. rewrite K2. reflexivity.
      + (* dict *) destruct (has k_type d) eqn:Eh.
        * apply has_token in Eh. rewrite (create_fuel n) by lia. split.
          -- intros H. destruct (factory_create (VDict d)) as [w|] eqn:Ew; [|discriminate]. cbn [bind] in H.
             destruct (content_loop (create n) (process_content n) l) as [o'|e] eqn:El; [|discriminate]. cbn [bind] in H. injection H as <-.
             destruct (token_type d) as [t|] eqn:Et.
             ++ assert (ND : ~ dropped (VDict d)) by (rewrite <- token_type_spec, Et; discriminate).
                pose proof (create_not_dropped d ND) as NN. destruct w; try (exfalso; apply NN; exact Ew); apply kp_token; auto; apply IHl; auto.
             ++ apply token_type_spec in Et. rewrite (create_dropped d Et) in Ew. injection Ew as <-. apply kp_drop; auto. apply IHl; auto.
          -- intros H. inversion H as [|? ? ? T D K|? w ? o2 T D E K|? ? o2 T N K|]; subst.
             ++ rewrite (create_dropped d D). cbn [bind]. apply IHl in K; [|exact Hl]. rewrite K. reflexivity.
             ++ rewrite E. cbn [bind]. apply IHl in K; [|exact Hl]. rewrite K. cbn [bind].
                pose proof (create_not_dropped d D) as NN. destruct w; try reflexivity. exfalso. apply NN. exact E.
             ++ exfalso. exact (T Eh).
        * assert (NT : ~ is_token (VDict d)) by (rewrite <- has_token, Eh; discriminate). split.
          -- intros H. destruct (content_loop (create n) (process_content n) l) as [o'|e] eqn:El; [|discriminate]. cbn [bind] in H. injection H as <-.
             apply kp_plain; [exact NT|intros; discriminate|apply IHl; auto].
          -- intros H. inversion H as [|? ? ? T _ _|? ? ? ? T _ _ _|? ? o2 T N K|]; subst; try contradiction.
             apply IHl in K; [|exact Hl]. rewrite K. reflexivity. }
  destruct (content_loop (create n) (process_content n) l) as [o'|e] eqn:El; cbn [bind].
  - rewrite <- (L l o) by lia. rewrite El. split; congruence.
  - rewrite <- (L l o) by lia. rewrite El. split; discriminate.
Qed.
Lemma process_field_spec : forall n v w, 2 * vsize v + 1 < n -> (process_content n v = Ok w <-> kept_field v w).
Proof.
  intros n v w Hn.
  assert (PL : forall x, ~ is_token x -> (forall y, x <> VList y) -> process_content n x = Ok x).
  { intros x H1 H2. destruct n as [|n]; [lia|]. cbn [FactoryModel.process_content]. destruct x as [| | | |l|d]; try reflexivity; [exfalso; eapply H2; reflexivity|].
    destruct (has k_type d) eqn:E; [|reflexivity]. exfalso. apply H1. apply has_token. exact E. }
  assert (TK : is_token v \/ ~ is_token v).
  { destruct v as [| | | | |d]; try (right; intros (? & ? & ? & _); discriminate). destruct (has k_type d) eqn:E; [left|right]; rewrite <- has_token; congruence. }
  destruct TK as [TK|TK].
  - pose proof TK as (d & x & -> & Hx). assert (E : process_content n (VDict d) = factory_create (VDict d)).
    { destruct n as [|n]; [lia|]. cbn [FactoryModel.process_content]. rewrite (proj2 (has_token d) TK). apply create_fuel. lia. }
    rewrite E. split; [intros H; apply kf_token; assumption|]. intros H. inversion H; subst; [assumption|contradiction].
  - destruct v as [| | | |l|d].
    5:{ split.
        - intros H. assert (exists o, w = VList o) as (o & ->).
          { destruct n as [|n]; [lia|]. cbn [FactoryModel.process_content] in H. destruct (content_loop _ _ l); [|discriminate]. cbn in H. injection H as <-. eauto. }
          apply kf_list. eapply process_list_spec; eauto.
        - intros H. inversion H as [? o K| |? _ N]; subst; [|contradiction|exfalso; eapply N; reflexivity]. apply process_list_spec; assumption. }
    all: rewrite PL by (try exact TK; intros; discriminate); split;
      [intros H; injection H as <-; apply kf_plain; [exact TK|intros; discriminate]|intros H; inversion H; subst; [contradiction|reflexivity]].
Qed.

(** An ordinary token: the content and title fields are processed, then the
    class is built. *)
Lemma create_ordinary : forall d t w, lookup k_type d = Some (VStr t) -> ~ dropped (VDict d) -> ~ special_type t ->
  (factory_create (VDict d) = Ok w <->
   exists d1 d2, (match lookup k_content d with Some c => exists c', kept_field c c' /\ d1 = set k_content c' d | None => d1 = d end) /\
     (match lookup k_title d with Some c => exists c', kept_field c c' /\ d2 = set k_title c' d1 | None => d2 = d1 end) /\
     validate t d2 = Ok w).
Proof.
  intros d t w Ht ND NS. unfold FactoryModel.factory_create. rewrite create_dict.
  assert (Et : token_type d = Some t).
  { destruct (token_type d) as [t'|] eqn:E; [|exfalso; apply ND; apply token_type_spec; exact E].
    unfold token_type, get in E. rewrite Ht in E. destruct (str_eqb t (lit "date")); [discriminate|]. destruct (known t); congruence. }
  rewrite Et. unfold build_token.
  assert (NE : forall s, In s ["tabular"; "bibliography"; "equation"; "math_env"]%string -> str_eqb t (lit s) = false).
  { intros s Hs. apply str_eqb_neq. intros ->. apply NS. unfold special_type. apply in_map. exact Hs. }
  rewrite !NE by (cbn; tauto). set (n := 2 * vsize (VDict d)).
  assert (FS : forall v w, vsize v <= dsize d -> (process_content n v = Ok w <-> kept_field v w)).
  { intros v w' Hv. apply process_field_spec. unfold n. rewrite vsize_dict. lia. }
  unfold has, get. destruct (lookup k_content d) as [c|] eqn:Ec.
  - pose proof (lookup_size _ _ _ Ec) as Sc. split.
    + intros H. destruct (process_content n c) as [c'|] eqn:E1; [|discriminate]. cbn [bind] in H. apply FS in E1; [|exact Sc].
      rewrite lookup_set_other in H by discriminate. destruct (lookup k_title d) as [ti|] eqn:Eti.
      * destruct (process_content n ti) as [t'|] eqn:E2; [|discriminate]. cbn [bind] in H. apply FS in E2; [|exact (lookup_size _ _ _ Eti)].
        do 2 eexists. split; [eauto|]. split; [eauto|exact H].
      * cbn [bind] in H. do 2 eexists. split; [eauto|]. split; [reflexivity|exact H].
    + intros (d1 & d2 & (c' & K & ->) & H2 & H3). apply FS in K; [|exact Sc]. rewrite K. cbn [bind]. rewrite lookup_set_other by discriminate.
      destruct (lookup k_title d) as [ti|] eqn:Eti.
      * destruct H2 as (t' & K2 & ->). apply FS in K2; [|exact (lookup_size _ _ _ Eti)]. rewrite K2. cbn [bind]. exact H3.
      * subst d2. exact H3.
  - cbn [bind]. split.
    + intros H. destruct (lookup k_title d) as [ti|] eqn:Eti.
      * destruct (process_content n ti) as [t'|] eqn:E2; [|discriminate]. cbn [bind] in H. apply FS in E2; [|exact (lookup_size _ _ _ Eti)].
        do 2 eexists. split; [reflexivity|]. split; [eauto|exact H].
      * cbn [bind] in H. do 2 eexists. split; [reflexivity|]. split; [reflexivity|exact H].
    + intros (d1 & d2 & -> & H2 & H3). destruct (lookup k_title d) as [ti|] eqn:Eti.
      * destruct H2 as (t' & K2 & ->). apply FS in K2; [|exact (lookup_size _ _ _ Eti)]. rewrite K2. cbn [bind]. exact H3.
      * subst d2. exact H3.
Qed.
End F.

(** * Where tokens are not dropped cleanly *)
(** a validation that just records the fields *)
Definition record (t : str) (d : dict) : res val := Ok (VDict d).
Definition record' (d : dict) : res val := Ok (VDict d).
Lemma math_env_refuted : exists d o,
  factory_create record (fun d => Ok (VDict d)) (VDict d) = Ok (VDict o) /\
  get k_type d = VStr (lit "math_env") /\ get k_content d = VList [tok "date" []; txt "a"] /\ get k_content o = VList [VNone; txt "a"].
Proof.
  exists [(k_type, VStr (lit "math_env")); (k_content, VList [tok "date" []; txt "a"])]. eexists. split; [vm_compute; reflexivity|]. repeat split.
Qed.
Lemma tabular_cell_refuted : exists d o,
  factory_create record (fun d => Ok (VDict d)) (VDict d) = Ok (VDict o) /\
  get k_content d = VList [VList [VStr (lit "a"); VDict [(k_content, VStr (lit "b"))]; VStr (lit "c")]] /\
  get k_content o = VList [VList [VStr (lit "a"); VStr (lit "c")]].
Proof.
  exists [(k_type, VStr (lit "tabular")); (k_content, VList [VList [VStr (lit "a"); VDict [(k_content, VStr (lit "b"))]; VStr (lit "c")]])].
  eexists. split; [vm_compute; reflexivity|]. repeat split.
Qed.
(** [TabularToken.process] builds the token from its cells only. *)
Lemma tabular_fields_refuted : forall validate table_cell, exists d d', get k_labels d <> get k_labels d' /\ get k_styles d <> get k_styles d' /\
  get k_content d = get k_content d' /\ get k_content d = VList [VList [VStr (lit "a")]] /\ get k_type d = VStr (lit "tabular") /\
  factory_create validate table_cell (VDict d) = factory_create validate table_cell (VDict d').
Proof.
  intros validate table_cell.
  exists [(k_type, VStr (lit "tabular")); (k_content, VList [VList [VStr (lit "a")]]); (k_labels, VList [VStr (lit "tab:1")]); (k_styles, VList [VStr (lit "bold")])],
         [(k_type, VStr (lit "tabular")); (k_content, VList [VList [VStr (lit "a")]])].
  repeat split; discriminate.
Qed.

(** A bibliography keeps its bibitem tokens only, in order. *)
Definition is_bibitem (v : val) : Prop := exists d, v = VDict d /\ lookup k_type d = Some (VStr (lit "bibitem")).
Inductive bibitems (create : val -> res val) : list val -> list val -> Prop :=
| bi_nil : bibitems create [] []
| bi_item : forall v w l o, is_bibitem v -> create v = Ok w -> bibitems create l o -> bibitems create (v :: l) (w :: o)
| bi_other : forall v l o, ~ is_bibitem v -> bibitems create l o -> bibitems create (v :: l) o.
Section B.
Variable validate : str -> dict -> res val.
Variable table_cell : dict -> res val.
Notation factory_create := (factory_create validate table_cell).
Lemma bibitem_test : forall v, (match v with VDict i => is_str (get k_type i) "bibitem" | _ => false end) = true <-> is_bibitem v.
Proof.
  intros v. unfold is_bibitem. split.
  - destruct v as [| | | | |d]; try discriminate. intros H. apply is_str_true in H. exists d. split; [reflexivity|]. unfold get in H. destruct (lookup k_type d); congruence.
  - intros (d & -> & H). unfold get. rewrite H. reflexivity.
Qed.
Lemma create_bibliography : forall d l w, lookup k_type d = Some (VStr (lit "bibliography")) -> lookup k_content d = Some (VList l) ->
  (factory_create (VDict d) = Ok w <-> exists o, bibitems factory_create l o /\ validate (lit "bibliography") [(k_content, VList o)] = Ok w).
Proof.
  intros d l w Ht Hc. unfold FactoryModel.factory_create at 1. rewrite create_dict.
  assert (Et : token_type d = Some (lit "bibliography")) by (unfold token_type, get; rewrite Ht; reflexivity). rewrite Et.
  unfold build_token. change (str_eqb (lit "bibliography") (lit "tabular")) with false. rewrite str_eqb_refl. unfold get_default. rewrite Hc. cbn [as_list bind].
  set (n := 2 * vsize (VDict d)).
  assert (Hs : forall x, In x l -> 2 * vsize x < n).
  { intros x Hx. apply in_lsize in Hx. apply lookup_size in Hc. rewrite vsize_list in Hc. unfold n. rewrite vsize_dict. lia. }
  clearbody n.
  assert (K : forall o, create_all (create validate table_cell n) (filter (fun v => match v with VDict i => is_str (get k_type i) "bibitem" | _ => false end) l) = Ok o
              <-> bibitems factory_create l o).
  { clear Hc. induction l as [|x l IH]; intros o; cbn [filter].
    - cbn. split; [intros H; injection H as <-; constructor|inversion 1; reflexivity].
    - assert (IH' : forall o, create_all (create validate table_cell n) (filter (fun v => match v with VDict i => is_str (get k_type i) "bibitem" | _ => false end) l) = Ok o
              <-> bibitems factory_create l o) by (apply IH; intros y Hy; apply Hs; right; exact Hy). clear IH.
      destruct (match x with VDict i => is_str (get k_type i) "bibitem" | _ => false end) eqn:E.
      + apply bibitem_test in E. cbn [create_all]. rewrite create_fuel by (apply Hs; left; reflexivity). split.
        * intros H. destruct (factory_create x) as [y|] eqn:Ex; [|discriminate]. cbn [bind] in H.
          destruct (create_all _ _) as [ys|] eqn:Ey; [|discriminate]. cbn in H. injection H as <-. apply bi_item; [exact E|exact Ex|apply IH'; reflexivity].
        * intros H. inversion H as [|? y ? ys _ Ex K|? ? ? NE K]; subst; [|contradiction]. rewrite Ex. cbn [bind]. apply IH' in K. rewrite K. reflexivity.
      + assert (NE : ~ is_bibitem x) by (rewrite <- bibitem_test, E; discriminate). rewrite IH'. split; [intros H; apply bi_other; assumption|].
        intros H. inversion H; subst; [contradiction|assumption]. }
  destruct (create_all (create validate table_cell n) _) as [o|e] eqn:E; cbn [bind].
  - split; [intros H; exists o; split; [apply K; reflexivity|exact H]|]. intros (o' & H1 & H2). apply K in H1. congruence.
  - split; [discriminate|]. intros (o' & H1 & _). apply K in H1. discriminate.
Qed.
End B.
