From Coq Require Import List NArith ZArith PeanoNat Lia Bool String.
From Verif Require Import PyStr Json BuilderModel BuilderSpec BuilderProofs BuilderProofs2 BuilderProofs3 TidySpec TidyProofs TidyProofs2 NestSpec.
Import ListNotations.
Notation length := List.length.
Notation concat := List.concat.
Open Scope list_scope.

(** * Lists of kinds *)
Lemma chain_snoc : forall R l k, chain R l -> (forall p a, l = p ++ [a] -> R a k) -> chain R (l ++ [k]).
Proof.
  intros R l k H. induction H as [|a|a b r H1 H2 IH]; intros N; cbn [app].
  - constructor.
  - constructor; [apply (N [] a); reflexivity|constructor].
  - constructor; [exact H1|]. apply IH. intros p x E. apply (N (a :: p) x). cbn. rewrite <- E. reflexivity.
Qed.
Lemma appendix_last_none : forall l, ~ In KAppendix l -> appendix_last l.
Proof. intros l N a b E. exfalso. apply N. rewrite E. apply in_app_iff. right. left. reflexivity. Qed.
Lemma appendix_last_snoc : forall l k, appendix_last l -> closing k -> appendix_last (l ++ [k]).
Proof.
  intros l k H C a b E. destruct (@exists_last _ (KAppendix :: b)) as (b' & x & Eb); [discriminate|].
  rewrite Eb, app_assoc in E. apply app_inj_tail in E as [E <-]. destruct b' as [|y b'].
  - cbn in Eb. injection Eb as <- ->. constructor.
  - cbn in Eb. injection Eb as <- ->. apply Forall_app. split; [|constructor; [exact C|constructor]]. apply (H a). exact E.
Qed.

(** * Items *)
Definition ik (cs : list cell) (it : item) : kind :=
  match it with
  | IVal v => kind_of v
  | IRef j => match nth_error cs j with Some c => kind_of_dict (c_tok c) | None => KPlain end
  end.
Definition item_ok (cs : list cell) (lo : nat) (it : item) : Prop :=
  match it with IVal v => inside v | IRef j => lo <= j < length cs end.
Definition list_ok (cs : list cell) (lo : nat) (b : bool) (items : list item) : Prop :=
  chain (next_ok b) (map (ik cs) items) /\ appendix_last (map (ik cs) items) /\ Forall (item_ok cs lo) items.
Definition cell_ok (cs : list cell) (i : nat) (c : cell) : Prop :=
  list_ok cs (S i) (is_section (kind_of_dict (c_tok c))) (c_items c) /\
  Forall (child_ok (kind_of_dict (c_tok c))) (map (ik cs) (c_items c)).
Definition cells_ok (cs : list cell) : Prop := forall i c, nth_error cs i = Some c -> cell_ok cs i c.

Lemma kind_set : forall k v d, k <> k_type -> k <> k_level -> kind_of_dict (set k v d) = kind_of_dict d.
Proof. intros k v d H1 H2. unfold kind_of_dict, level_of. rewrite !get_set_other by congruence. reflexivity. Qed.

Lemma materialize_nested : forall cs, cells_ok cs -> forall fuel lo b items, list_ok cs lo b items -> length cs - lo < fuel ->
  nested b (materialize fuel cs items) /\ map kind_of (materialize fuel cs items) = map (ik cs) items.
Proof.
  intros cs HC. induction fuel as [|fuel IH]; intros lo b items (H1 & H2 & H3) Hf; [lia|].
  cbn [materialize].
  assert (EK : map kind_of (map (fun it => match it with IVal v => v | IRef id => match nth_error cs id with
       Some c => VDict (set k_content (VList (materialize fuel cs (c_items c))) (c_tok c)) | None => VNone end end) items) = map (ik cs) items).
  { rewrite map_map. apply map_ext. intros [v|j]; [reflexivity|]. cbn [ik]. destruct (nth_error cs j) as [c|]; [|reflexivity].
    cbn [kind_of]. apply kind_set; discriminate. }
  split; [|exact EK]. constructor; [rewrite EK; exact H1|rewrite EK; exact H2|].
  apply Forall_map. apply Forall_forall. intros it Hin. pose proof (proj1 (Forall_forall _ _) H3 it Hin) as Hi.
  destruct it as [v|j]; [exact Hi|]. destruct Hi as [Hlo Hj]. destruct (nth_error cs j) as [c|] eqn:E; [|apply nth_error_None in E; lia].
  destruct (HC j c E) as [HL HF]. destruct (IH (S j) _ _ HL) as [N K]; [lia|].
  constructor; rewrite kind_set, children_set by discriminate; [rewrite K; exact HF|exact N].
Qed.

(** * Open path *)
Definition last_plain (cs : list cell) (items : list item) : Prop :=
  forall p it, items = p ++ [it] -> (forall z, ik cs it <> KSection z) /\ (forall z, ik cs it <> KParagraph z).
Inductive opened (cs : list cell) : list item -> list nat -> Prop :=
| op_end : forall items, last_plain cs items -> opened cs items []
| op_in : forall pre s c sp, nth_error cs s = Some c -> opened cs (c_items c) sp -> opened cs (pre ++ [IRef s]) (s :: sp).

Lemma opened_gt : forall cs, cells_ok cs -> forall items sp, opened cs items sp -> forall lo, Forall (item_ok cs lo) items ->
  Forall (fun s => lo <= s < length cs) sp.
Proof.
  intros cs HC items sp H. induction H as [|pre s c sp E H IH]; intros lo F; constructor.
  - apply Forall_app in F as [_ F]. inversion F; subst. assumption.
  - destruct (HC s c E) as [(_ & _ & HF) _]. apply IH in HF. apply Forall_app in F as [_ F]. inversion F as [|? ? K _]; subst. cbn in K.
    eapply Forall_impl; [|exact HF]. intros a Ha. cbn in *. lia.
Qed.

(** changing the cell at the end of a prefix of the path *)
Lemma opened_change : forall cs cs' s c' tl, (forall j, j <> s -> j < length cs -> nth_error cs' j = nth_error cs j) ->
  nth_error cs' s = Some c' -> opened cs' (c_items c') tl ->
  forall sp items rest lo, cells_ok cs -> Forall (item_ok cs lo) items -> opened cs items (sp ++ s :: rest) -> opened cs' items (sp ++ s :: tl).
Proof.
  intros cs cs' s c' tl Hs Hc Ht. induction sp as [|a sp IH]; intros items rest lo HC F H; cbn [app] in *.
  - inversion H; subst. econstructor; eassumption.
  - inversion H as [|pre a' c sp' E H' Ei Es]; subst.
    destruct (HC a c E) as [(_ & _ & HF) _].
    assert (Ha : a <> s).
    { pose proof (opened_gt cs HC _ _ H' (S a) HF) as G. apply Forall_app in G as [_ G]. inversion G; subst. lia. }
    econstructor; [|apply (IH _ rest (S a) HC HF H')]. rewrite Hs; [exact E|exact Ha|]. apply nth_error_Some. congruence.
Qed.
Lemma opened_at : forall cs sp items s rest, opened cs items (sp ++ s :: rest) -> exists c, nth_error cs s = Some c /\ opened cs (c_items c) rest.
Proof.
  induction sp as [|a sp IH]; intros items s rest H; cbn [app] in H; inversion H; subst; eauto.
Qed.
(** what the last item of an open list can be *)
Definition last_kind (cs : list cell) (rest : list nat) (a : kind) : Prop :=
  match rest with
  | [] => (forall z, a <> KSection z) /\ (forall z, a <> KParagraph z)
  | q :: _ => a = ik cs (IRef q)
  end.
Lemma opened_last : forall cs items rest p a, opened cs items rest -> map (ik cs) items = p ++ [a] -> last_kind cs rest a.
Proof.
  intros cs items rest p a H E. inversion H as [i L|pre s c sp Es H']; subst.
  - destruct (@exists_last _ items) as (q & it & ->); [intros ->; destruct p; discriminate|].
    rewrite map_app in E. cbn in E. apply app_inj_tail in E as [_ <-]. apply (L q it eq_refl).
  - rewrite map_app in E. cbn [map] in E. apply app_inj_tail in E as [_ <-]. reflexivity.
Qed.

(** * Adding an item *)
(** Either a closed value, or a reference to a new cell. *)
Inductive addition (cs : list cell) : item -> list cell -> kind -> Prop :=
| add_val : forall v, inside v -> addition cs (IVal v) [] (kind_of v)
| add_new : forall d, addition cs (IRef (length cs)) [{| c_tok := d; c_items := [] |}] (kind_of_dict d).

Definition push_cells (t : option nat) (x : item) (cs ext : list cell) : list cell :=
  match t with None => cs | Some s => upd_cell s x cs end ++ ext.
Lemma push_kind : forall t x cs ext j, j < length cs -> ik (push_cells t x cs ext) (IRef j) = ik cs (IRef j).
Proof.
  intros [s|] x cs ext j H; unfold push_cells; cbn [ik]; rewrite nth_error_app1 by (rewrite ?upd_length; exact H); [|reflexivity].
  pose proof (cell_tok_upd cs s x j) as E.
  destruct (nth_error (upd_cell s x cs) j) as [c|] eqn:E1; [|apply nth_error_None in E1; rewrite upd_length in E1; lia].
  destruct (nth_error cs j) as [c'|] eqn:E2; [|apply nth_error_None in E2; lia]. rewrite E. reflexivity.
Qed.
Lemma push_kinds : forall t x cs ext lo items, Forall (item_ok cs lo) items -> map (ik (push_cells t x cs ext)) items = map (ik cs) items.
Proof.
  intros t x cs ext lo items F. apply map_ext_in. intros it Hin. pose proof (proj1 (Forall_forall _ _) F it Hin) as K.
  destruct it as [v|j]; [reflexivity|]. apply push_kind. apply K.
Qed.
Lemma push_length : forall t x cs ext, length (push_cells t x cs ext) = length cs + length ext.
Proof. intros [s|] x cs ext; unfold push_cells; rewrite app_length, ?upd_length; reflexivity. Qed.
Lemma push_item_ok : forall t x cs ext lo items, Forall (item_ok cs lo) items -> Forall (item_ok (push_cells t x cs ext) lo) items.
Proof.
  intros t x cs ext lo items F. eapply Forall_impl; [|exact F]. intros [v|j] K; [exact K|]. cbn in *. rewrite push_length. lia.
Qed.
Lemma added_kind : forall cs t x ext k, addition cs x ext k -> ik (push_cells t x cs ext) x = k.
Proof.
  intros cs t x ext k H. inversion H; subst; [reflexivity|]. cbn [ik]. unfold push_cells.
  rewrite nth_error_app2 by (destruct t; rewrite ?upd_length; lia).
  replace (length cs - length (match t with Some s => upd_cell s (IRef (length cs)) cs | None => cs end)) with 0 by (destruct t; rewrite ?upd_length; lia).
  reflexivity.
Qed.
Lemma added_ok : forall cs t x ext k lo, addition cs x ext k -> lo <= length cs -> item_ok (push_cells t x cs ext) lo x.
Proof. intros cs t x ext k lo H L. inversion H; subst; [assumption|]. cbn [item_ok]. rewrite push_length. cbn [length]. lia. Qed.

Lemma list_push : forall t x cs ext lo b items, list_ok cs lo b items -> list_ok (push_cells t x cs ext) lo b items.
Proof.
  intros t x cs ext lo b items (H1 & H2 & H3). unfold list_ok. rewrite (push_kinds t x cs ext lo items H3).
  split; [exact H1|split; [exact H2|apply push_item_ok; exact H3]].
Qed.
Lemma list_add : forall t x cs ext k lo b items, list_ok cs lo b items -> addition cs x ext k -> lo <= length cs ->
  (forall p a, map (ik cs) items = p ++ [a] -> next_ok b a k) ->
  (closing k \/ ~ In KAppendix (k :: map (ik cs) items)) ->
  list_ok (push_cells t x cs ext) lo b (items ++ [x]).
Proof.
  intros t x cs ext k lo b items (H1 & H2 & H3) A L N C. unfold list_ok. rewrite map_app, (push_kinds t x cs ext lo items H3). cbn [map].
  rewrite (added_kind cs t x ext k A). split; [apply chain_snoc; assumption|]. split.
  - destruct C as [C|C]; [apply appendix_last_snoc; assumption|]. apply appendix_last_none. intros K. apply in_app_iff in K as [K|[K|[]]]; apply C; [right|left]; auto.
  - apply Forall_app. split; [apply push_item_ok; exact H3|]. constructor; [|constructor]. apply (added_ok cs t x ext k); assumption.
Qed.
Lemma new_cell_ok : forall cs i d, cell_ok cs i {| c_tok := d; c_items := [] |}.
Proof.
  intros cs i d. split; cbn [c_items c_tok map]; [|constructor]. split; [constructor|]. split; [|constructor]. intros a b E. destruct a; discriminate.
Qed.

Lemma cells_push_none : forall x cs ext k, cells_ok cs -> addition cs x ext k -> cells_ok (push_cells None x cs ext).
Proof.
  intros x cs ext k HC A i c E. unfold push_cells in E.
  destruct (Nat.lt_ge_cases i (length cs)) as [L|L].
  - rewrite nth_error_app1 in E by exact L. destruct (HC i c E) as [HL HF]. split; [apply list_push; exact HL|].
    rewrite (push_kinds None x cs ext (S i)) by apply HL. exact HF.
  - rewrite nth_error_app2 in E by exact L. inversion A; subst; [destruct (i - length cs); discriminate|].
    destruct (i - length cs) as [|m]; [|destruct m; discriminate]. cbn in E. injection E as <-. apply new_cell_ok.
Qed.
Lemma cells_push_some : forall s c0 x cs ext k, cells_ok cs -> addition cs x ext k -> nth_error cs s = Some c0 ->
  (forall p a, map (ik cs) (c_items c0) = p ++ [a] -> next_ok (is_section (kind_of_dict (c_tok c0))) a k) ->
  ~ In KAppendix (k :: map (ik cs) (c_items c0)) -> child_ok (kind_of_dict (c_tok c0)) k ->
  cells_ok (push_cells (Some s) x cs ext).
Proof.
  intros s c0 x cs ext k HC A Es N C Ch i c E. unfold push_cells in E.
  assert (Ls : s < length cs) by (apply nth_error_Some; congruence).
  destruct (Nat.lt_ge_cases i (length cs)) as [L|L].
  - rewrite nth_error_app1 in E by (rewrite upd_length; exact L). destruct (Nat.eq_dec i s) as [->|Ne].
    + rewrite (upd_same _ _ _ _ Es) in E. injection E as <-. destruct (HC s c0 Es) as [HL HF]. split; cbn [c_tok c_items].
      * eapply list_add; eauto; lia.
      * rewrite map_app, (push_kinds (Some s) x cs ext (S s)) by apply HL. apply Forall_app. split; [exact HF|].
        cbn [map]. rewrite (added_kind cs (Some s) x ext k A). constructor; [exact Ch|constructor].
    + rewrite upd_diff in E by congruence. destruct (HC i c E) as [HL HF]. split; [apply list_push; exact HL|].
      rewrite (push_kinds (Some s) x cs ext (S i)) by apply HL. exact HF.
  - rewrite nth_error_app2 in E by (rewrite upd_length; exact L). rewrite upd_length in E. inversion A; subst; [destruct (i - length cs); discriminate|].
    destruct (i - length cs) as [|m]; [|destruct m; discriminate]. cbn in E. injection E as <-. apply new_cell_ok.
Qed.
