From Coq Require Import List NArith ZArith PeanoNat Lia Bool String.
From Verif Require Import PyStr Json BuilderModel BuilderSpec.
Import ListNotations.
Notation length := List.length.
Notation concat := List.concat.
Open Scope list_scope.

(* ------------------------------------------------------------------ *)
(** * preorder *)
Lemma children_size : forall d, lsize (children d) < vsize (VDict d).
Proof.
  intros d. unfold children, get. destruct (lookup k_content d) as [v|] eqn:E; [|cbn; lia].
  apply lookup_size in E. rewrite vsize_dict. destruct v; cbn [lsize]; try lia. rewrite vsize_list in E. lia.
Qed.

Lemma preorder_exists : forall n l, lsize l < n -> exists hs, preorder l hs.
Proof.
  induction n as [|n IHn]; [lia|]. induction l as [|v l IHl]; intros H; [exists []; constructor|].
  cbn in H. pose proof (vsize_pos v) as Hvp. destruct IHl as (h2 & H2); [lia|].
  assert (D : is_dict v \/ ~ is_dict v) by (destruct v; cbn; auto).
  destruct D as [D|D]; [|exists (v :: h2); constructor; assumption].
  destruct v as [| | | | |d]; try contradiction.
  destruct (IHn (children d)) as (h1 & H1); [pose proof (children_size d); lia|].
  eexists. apply po_tok; eauto.
Qed.
Lemma preorder_fun : forall l h, preorder l h -> forall h', preorder l h' -> h = h'.
Proof.
  induction 1 as [|v r hs Hn H IH|d r h1 h2 H1 IH1 H2 IH2]; intros h' H'; inversion H'; subst; auto.
  - f_equal; auto.
  - exfalso. apply Hn. exact I.
  - exfalso. match goal with K : ~ is_dict _ |- _ => apply K; exact I end.
  - f_equal. f_equal; auto.
Qed.
Lemma preorder_app : forall a ha, preorder a ha -> forall b hb, preorder b hb -> preorder (a ++ b) (ha ++ hb).
Proof.
  induction 1 as [|v r hs Hn H IH|d r h1 h2 H1 IH1 H2 IH2]; intros b hb Hb; cbn [app]; auto.
  - constructor; auto.
  - rewrite <- app_assoc. constructor; auto.
Qed.
Lemma preorder_leaf1 : forall v, ~ is_dict v -> preorder [v] [v].
Proof. intros. constructor; [assumption|constructor]. Qed.
Lemma preorder_tok1 : forall d h, preorder (children d) h -> preorder [VDict d] (VDict (head d) :: h).
Proof. intros d h H. rewrite <- (app_nil_r h). constructor; [exact H|constructor]. Qed.

Lemma walk_fun : forall app dep l es, walk app dep l es -> forall es', walk app dep l es' -> es = es'.
Proof.
  induction 1 as [app dep|app dep v r es Hn H IH|app dep d r e1 e2 Ht H1 IH1 H2 IH2|app dep d r e1 e2 Ht H1 IH1 H2 IH2|app dep d r e1 e2 Ht Hl H1 IH1 H2 IH2];
    intros es' H'; inversion H'; subst; try reflexivity;
    try (exfalso; match goal with K : ~ is_dict _ |- _ => apply K; exact I end);
    try (exfalso; unfold of_type in *;
         match goal with K : lookup ?k ?d = Some ?a, K' : lookup ?k ?d = Some ?b |- _ => rewrite K in K'; discriminate K' end);
    try (exfalso; match goal with K : of_type _ ?d, K' : ~ of_type _ ?d |- _ => exact (K' K) end);
    f_equal; auto; f_equal; auto.
Qed.
Lemma of_type_dec : forall s d, of_type s d \/ ~ of_type s d.
Proof.
  intros s d. unfold of_type. destruct (lookup k_type d) as [v|]; [|right; discriminate].
  destruct (is_str v s) eqn:E; [left; apply is_str_true in E; congruence|].
  right. intros K. injection K as ->. rewrite (proj2 (is_str_true _ _)) in E; [discriminate|reflexivity].
Qed.
Lemma walk_exists : forall n l, lsize l < n -> forall app dep, exists es, walk app dep l es.
Proof.
  induction n as [|n IHn]; [lia|]. induction l as [|v l IHl]; intros H app dep; [exists []; constructor|].
  cbn in H. pose proof (vsize_pos v) as Hvp.
  assert (D : is_dict v \/ ~ is_dict v) by (destruct v; cbn; auto).
  destruct D as [D|D].
  2:{ destruct (IHl ltac:(lia) app dep) as (e2 & H2). eexists. apply wk_leaf; eauto. }
  destruct v as [| | | | |d]; try contradiction. pose proof (children_size d) as Hcs.
  destruct (of_type_dec "appendix" d) as [Ha|Ha].
  { destruct (IHl ltac:(lia) true dep) as (e2 & H2). destruct (IHn (children d) ltac:(lia) true dep) as (e1 & H1).
    eexists. apply wk_appendix; eauto. }
  destruct (IHl ltac:(lia) app dep) as (e2 & H2).
  destruct (of_type_dec "list" d) as [Hl|Hl].
  - destruct (IHn (children d) ltac:(lia) app (dep + 1)) as (e1 & H1). eexists. apply wk_list; eauto.
  - destruct (IHn (children d) ltac:(lia) app dep) as (e1 & H1). eexists. apply wk_other; eauto.
Qed.
Lemma walk_preorder : forall app dep l es, walk app dep l es -> preorder l (map e_head es).
Proof.
  induction 1; cbn [map]; rewrite ?map_app; constructor; auto.
Qed.

(* ------------------------------------------------------------------ *)
(** * The heap of open tokens *)
Inductive ihv (cs : list cell) : list item -> list val -> list nat -> Prop :=
| ihv_nil : ihv cs [] [] []
| ihv_val : forall v r h1 h2 vs, preorder [v] h1 -> ihv cs r h2 vs -> ihv cs (IVal v :: r) (h1 ++ h2) vs
| ihv_ref : forall id c r h1 h2 v1 v2, nth_error cs id = Some c ->
    ihv cs (c_items c) h1 v1 -> ihv cs r h2 v2 ->
    ihv cs (IRef id :: r) (VDict (remove k_content (c_tok c)) :: h1 ++ h2) (id :: v1 ++ v2).

Lemma ihv_app : forall cs a h1 v1, ihv cs a h1 v1 -> forall b h2 v2, ihv cs b h2 v2 -> ihv cs (a ++ b) (h1 ++ h2) (v1 ++ v2).
Proof.
  induction 1 as [|v r h1 h2 vs Hp H IH|id c r h1 h2 v1 v2 Hn H1 IH1 H2 IH2]; intros b h' v' Hb; cbn [app]; auto.
  - rewrite <- app_assoc. constructor; auto.
  - rewrite <- !app_assoc. econstructor; eauto.
Qed.
Lemma ihv_app_inv : forall cs a b h v, ihv cs (a ++ b) h v -> exists h1 h2 v1 v2, h = h1 ++ h2 /\ v = v1 ++ v2 /\ ihv cs a h1 v1 /\ ihv cs b h2 v2.
Proof.
  intros cs a. induction a as [|x a IH]; intros b h v H; cbn [app] in H.
  - exists [], h, [], v. repeat split; auto. constructor.
  - inversion H as [|w r h1 h2 vs Hp H'|id c r h1 h2 v1 v2 Hn H1 H2]; subst.
    + apply IH in H'. destruct H' as (h3 & h4 & v3 & v4 & -> & -> & K1 & K2).
      exists (h1 ++ h3), h4, v3, v4. rewrite <- app_assoc. repeat split; auto. constructor; auto.
    + apply IH in H2. destruct H2 as (h3 & h4 & v3 & v4 & -> & -> & K1 & K2).
      exists (VDict (remove k_content (c_tok c)) :: h1 ++ h3), h4, (id :: v1 ++ v3), v4. cbn [app]. rewrite <- !app_assoc.
      repeat split; auto. econstructor; eauto.
Qed.

Lemma upd_length : forall cs s x, length (upd_cell s x cs) = length cs.
Proof. induction cs as [|c cs IH]; intros [|s] x; cbn; auto. Qed.
Lemma upd_same : forall cs s x c, nth_error cs s = Some c -> nth_error (upd_cell s x cs) s = Some {| c_tok := c_tok c; c_items := c_items c ++ [x] |}.
Proof. induction cs as [|c0 cs IH]; intros [|s] x c H; cbn in *; try discriminate; [congruence|auto]. Qed.
Lemma upd_diff : forall cs s s' x, s <> s' -> nth_error (upd_cell s x cs) s' = nth_error cs s'.
Proof. induction cs as [|c0 cs IH]; intros [|s] [|s'] x H; cbn in *; try congruence; auto. Qed.

Lemma ihv_upd_other : forall cs s x items h v, ihv cs items h v -> ~ In s v -> ihv (upd_cell s x cs) items h v.
Proof.
  induction 1 as [|w r h1 h2 vs Hp H IH|id c r h1 h2 v1 v2 Hn H1 IH1 H2 IH2]; intros Hs; [constructor|constructor; auto|].
  cbn in Hs. rewrite in_app_iff in Hs. econstructor; [rewrite upd_diff; [exact Hn|]; intros E; apply Hs; left; congruence|apply IH1; tauto|apply IH2; tauto].
Qed.
(** growing the heap *)
Lemma ihv_ext : forall cs c' items h v, ihv cs items h v -> ihv (cs ++ [c']) items h v.
Proof.
  induction 1 as [|w r h1 h2 vs Hp H IH|id c r h1 h2 v1 v2 Hn H1 IH1 H2 IH2]; [constructor|constructor; auto|].
  econstructor; eauto. rewrite nth_error_app1; [exact Hn|]. apply nth_error_Some. congruence.
Qed.

Inductive spine (cs : list cell) : list item -> list nat -> Prop :=
| sp_nil : forall items, spine cs items []
| sp_cons : forall items s c sp, nth_error cs s = Some c -> spine cs (c_items c) sp -> spine cs (items ++ [IRef s]) (s :: sp).

Lemma spine_prefix : forall cs sp items sp', spine cs items (sp ++ sp') -> spine cs items sp.
Proof.
  intros cs. induction sp as [|s sp IH]; intros items sp' H; [constructor|]. cbn in H. inversion H; subst. econstructor; eauto.
Qed.
Lemma spine_visited : forall cs items sp, spine cs items sp -> forall h v, ihv cs items h v -> forall s, In s sp -> In s v.
Proof.
  induction 1 as [|items s0 c sp Hn H IH]; intros h v Hi s Hs; [destruct Hs|].
  apply ihv_app_inv in Hi. destruct Hi as (h1 & h2 & v1 & v2 & -> & -> & K1 & K2).
  inversion K2 as [|w r h1' h2' vs Hp H'|id c' r h1' h2' v1' v2' Hn' H1 H2]; subst. rewrite Hn in Hn'. injection Hn' as <-.
  rewrite in_app_iff. right. destruct Hs as [<-|Hs]; [left; reflexivity|]. right. rewrite in_app_iff. left. eapply IH; eauto.
Qed.
Lemma spine_ext : forall cs c' items sp, spine cs items sp -> spine (cs ++ [c']) items sp.
Proof.
  induction 1 as [|items s0 c sp Hn H IH]; [constructor|]. econstructor; [|exact IH].
  rewrite nth_error_app1; [exact Hn|]. apply nth_error_Some. congruence.
Qed.

Lemma NoDup_app_inv : forall A (a b : list A), NoDup (a ++ b) -> NoDup a /\ NoDup b /\ forall x, In x a -> ~ In x b.
Proof.
  induction a as [|x a IH]; intros b H; cbn in H; [repeat split; auto; constructor|].
  inversion H as [|? ? Hn Hd]; subst. destruct (IH b Hd) as (H1 & H2 & H3). rewrite in_app_iff in Hn.
  split; [constructor; tauto|]. split; [exact H2|]. intros y [<-|Hy]; [tauto|auto].
Qed.

(** appending at the deepest element of the spine appends to the preorder *)
Lemma upd_at : forall cs x hx vx, forall sp s items h v, ihv cs items h v -> NoDup v -> spine cs items (sp ++ [s]) ->
  ihv (upd_cell s x cs) [x] hx vx ->
  ihv (upd_cell s x cs) items (h ++ hx) (v ++ vx).
Proof.
  intros cs x hx vx. induction sp as [|s0 sp IH]; intros s items h v Hi Hd Hs Hx; cbn in Hs.
  - inversion Hs as [|items' s' c sp' Hn _]; subst.
    apply ihv_app_inv in Hi. destruct Hi as (h1 & h2 & v1 & v2 & -> & -> & K1 & K2).
    inversion K2 as [|w r h1' h2' vs Hp H'|id c' r h1' h2' v1' v2' Hn' H1 H2]; subst. rewrite Hn in Hn'. injection Hn' as <-.
    inversion H2; subst. rewrite !app_nil_r in *.
    apply NoDup_app_inv in Hd as (D1 & D2 & D3). inversion D2 as [|? ? D4 D5]; subst.
    rewrite <- !app_assoc. apply ihv_app; [apply ihv_upd_other; [exact K1|]; intros K; apply (D3 s K); left; reflexivity|].
    cbn [app]. 
    change (VDict (remove k_content (c_tok c)) :: h1' ++ hx) with (VDict (remove k_content (c_tok {| c_tok := c_tok c; c_items := c_items c ++ [x] |})) :: h1' ++ hx).
    rewrite <- (app_nil_r (h1' ++ hx)), <- (app_nil_r (v1' ++ vx)).
    eapply ihv_ref; [apply upd_same; exact Hn| |constructor]. cbn [c_items]. apply ihv_app; [|exact Hx].
    apply ihv_upd_other; assumption.
  - inversion Hs as [|items' s' c sp' Hn Hsp]; subst.
    apply ihv_app_inv in Hi. destruct Hi as (h1 & h2 & v1 & v2 & -> & -> & K1 & K2).
    inversion K2 as [|w r h1' h2' vs Hp H'|id c' r h1' h2' v1' v2' Hn' H1 H2]; subst. rewrite Hn in Hn'. injection Hn' as <-.
    inversion H2; subst. rewrite !app_nil_r in *.
    apply NoDup_app_inv in Hd as (D1 & D2 & D3). inversion D2 as [|? ? D4 D5]; subst.
    assert (Hv : In s v1') by (eapply spine_visited; [exact Hsp|exact H1|rewrite in_app_iff; right; left; reflexivity]).
    rewrite <- !app_assoc. apply ihv_app; [apply ihv_upd_other; [exact K1|]; intros K; apply (D3 s K); right; exact Hv|].
    cbn [app]. rewrite <- (app_nil_r (h1' ++ hx)), <- (app_nil_r (v1' ++ vx)).
    eapply ihv_ref; [rewrite upd_diff; [exact Hn|intros ->; exact (D4 Hv)]| |constructor].
    eapply IH; eauto.
Qed.

Lemma spine_upd : forall cs x sp s items, NoDup (sp ++ [s]) -> spine cs items (sp ++ [s]) -> spine (upd_cell s x cs) items (sp ++ [s]).
Proof.
  intros cs x. induction sp as [|s0 sp IH]; intros s items Hd H; cbn in *.
  - inversion H as [|items' s' c sp' Hn _]; subst. econstructor; [apply upd_same; exact Hn|constructor].
  - inversion H as [|items' s' c sp' Hn Hsp]; subst. inversion Hd as [|? ? D1 D2]; subst. rewrite in_app_iff in D1. cbn in D1.
    econstructor; [rewrite upd_diff; [exact Hn|]; intros E; apply D1; right; left; congruence|]. apply IH; auto.
Qed.
Lemma spine_upd_ref : forall cs cn sp s items, NoDup (sp ++ [s]) -> spine cs items (sp ++ [s]) ->
  spine (upd_cell s (IRef (length cs)) cs ++ [cn]) items ((sp ++ [s]) ++ [length cs]).
Proof.
  intros cs cn. induction sp as [|s0 sp IH]; intros s items Hd H; cbn in *.
  - inversion H as [|items' s' c sp' Hn _]; subst. econstructor.
    + rewrite nth_error_app1; [apply upd_same; exact Hn|]. rewrite upd_length. apply nth_error_Some. congruence.
    + cbn [c_items]. econstructor; [|constructor]. rewrite nth_error_app2 by (rewrite upd_length; lia).
      rewrite upd_length, Nat.sub_diag. reflexivity.
  - inversion H as [|items' s' c sp' Hn Hsp]; subst. inversion Hd as [|? ? D1 D2]; subst. rewrite in_app_iff in D1. cbn in D1.
    econstructor.
    + rewrite nth_error_app1; [rewrite upd_diff; [exact Hn|]; intros E; apply D1; right; left; congruence|]. rewrite upd_length. apply nth_error_Some. congruence.
    + apply IH; auto.
Qed.

Lemma spine_nodup : forall cs items sp, spine cs items sp -> forall h v, ihv cs items h v -> NoDup v -> NoDup sp.
Proof.
  induction 1 as [|items s0 c sp Hn H IH]; intros h v Hi Hd; [constructor|].
  apply ihv_app_inv in Hi. destruct Hi as (h1 & h2 & v1 & v2 & -> & -> & K1 & K2).
  inversion K2 as [|w r h1' h2' vs Hp H'|id c' r h1' h2' v1' v2' Hn' H1 H2]; subst. rewrite Hn in Hn'. injection Hn' as <-.
  inversion H2; subst. rewrite !app_nil_r in *.
  apply NoDup_app_inv in Hd as (D1 & D2 & D3). inversion D2 as [|? ? D4 D5]; subst.
  constructor; [|eapply IH; eauto]. intros K. apply D4. eapply spine_visited; eauto.
Qed.

Lemma head_set : forall l d, head (set k_content (VList l) d) = remove k_content d.
Proof. intros. unfold head. rewrite get_set_same, remove_set_same. reflexivity. Qed.
Lemma children_set : forall l d, children (set k_content (VList l) d) = l.
Proof. intros. unfold children. rewrite get_set_same. reflexivity. Qed.

Lemma materialize_preorder : forall cs fuel items h v, ihv cs items h v -> length v < fuel ->
  preorder (materialize fuel cs items) h.
Proof.
  intros cs. induction fuel as [|fuel IH]; [lia|]. intros items h v H.
  induction H as [|w r h1 h2 vs Hp H IHi|id c r h1 h2 v1 v2 Hn H1 _ H2 IHi]; intros Hl.
  - constructor.
  - cbn [materialize map]. change (w :: ?m) with ([w] ++ m). apply preorder_app; [exact Hp|]. apply IHi. exact Hl.
  - cbn [materialize map]. rewrite Hn. cbn [length] in Hl. rewrite app_length in Hl.
    rewrite <- (head_set (materialize fuel cs (c_items c)) (c_tok c)). constructor.
    + rewrite children_set. eapply IH; [exact H1|lia].
    + apply IHi. lia.
Qed.

Lemma visited_bound : forall n v, NoDup v -> (forall x, In x v -> x < n) -> length v <= n.
Proof.
  intros n v Hd Hb. rewrite <- (seq_length n 0). apply NoDup_incl_length; [exact Hd|]. intros x Hx. apply in_seq. specialize (Hb x Hx). lia.
Qed.

(* ------------------------------------------------------------------ *)
(** * The frame invariant *)
Record heap_ok (f : frame) (hs : list val) (vs : list nat) : Prop := {
  h_ihv : ihv (cells f) (organized f) hs vs;
  h_nodup : NoDup vs;
  h_bound : forall x, In x vs -> x < length (cells f) }.
Definition root_list (f : frame) : list nat := match root f with Some r => [r] | None => [] end.
Definition par_list (f : frame) : list nat :=
  match section_stack f with
  | [] => rev (paragraph_stack f)
  | _ => match paragraph_stack f with [] => [] | p :: _ => [p] end
  end.
Definition open_path (f : frame) : list nat := root_list f ++ rev (section_stack f) ++ par_list f.
Definition frame_ok (f : frame) (hs : list val) : Prop :=
  exists vs, heap_ok f hs vs /\ spine (cells f) (organized f) (open_path f).
Definition closed_ok (f : frame) (hs : list val) : Prop := exists vs, heap_ok f hs vs.

Lemma frame_closed : forall f hs, frame_ok f hs -> closed_ok f hs.
Proof. intros f hs (vs & H & _). exists vs. exact H. Qed.

Lemma finish_ok : forall f hs, closed_ok f hs -> preorder (finish f) hs.
Proof.
  intros f hs (vs & [H1 H2 H3]). unfold finish. eapply materialize_preorder; [exact H1|].
  pose proof (visited_bound _ _ H2 H3). lia.
Qed.

Definition target_is (f : frame) (t : option nat) (path : list nat) : Prop :=
  match t with None => path = [] | Some s => exists p, path = p ++ [s] end.

(** appending a closed value at the end of a spine prefix *)
Lemma append_val : forall f hs vs v hv t path rest,
  heap_ok f hs vs -> spine (cells f) (organized f) (path ++ rest) -> target_is f t path -> preorder [v] hv ->
  heap_ok (append_to f t (IVal v)) (hs ++ hv) vs /\
  spine (cells (append_to f t (IVal v))) (organized (append_to f t (IVal v))) path.
Proof.
  intros f hs vs v hv t path rest [H1 H2 H3] Hs Ht Hp. apply spine_prefix in Hs.
  destruct t as [s|]; cbn [append_to cells organized] in *.
  - destruct Ht as (p & ->). split.
    + constructor; cbn [cells organized]; auto; [|intros x Hx; rewrite upd_length; auto].
      rewrite <- (app_nil_r vs). eapply upd_at; eauto. rewrite <- (app_nil_r hv). constructor; [exact Hp|constructor].
    + apply spine_upd; [|exact Hs]. eapply spine_nodup; eauto.
  - cbn in Ht. subst path. split; [|constructor]. constructor; cbn [cells organized]; auto.
    rewrite <- (app_nil_r vs). apply ihv_app; [exact H1|]. rewrite <- (app_nil_r hv). constructor; [exact Hp|constructor].
Qed.

(** appending a new open token *)
Lemma append_new : forall f hs vs tok t path rest,
  heap_ok f hs vs -> spine (cells f) (organized f) (path ++ rest) -> target_is f t path ->
  let f' := new_cell (append_to f t (IRef (length (cells f)))) tok [] in
  heap_ok f' (hs ++ [VDict (remove k_content tok)]) (vs ++ [length (cells f)]) /\
  spine (cells f') (organized f') (path ++ [length (cells f)]).
Proof.
  intros f hs vs tok t path rest [H1 H2 H3] Hs Ht f'. apply spine_prefix in Hs.
  set (cn := {| c_tok := tok; c_items := [] |}).
  assert (Hd' : NoDup (vs ++ [length (cells f)])).
  { rewrite <- rev_involutive, rev_app_distr. apply NoDup_rev. cbn. constructor.
    - intros K. apply in_rev in K. apply H3 in K. lia.
    - apply NoDup_rev. exact H2. }
  destruct t as [s|]; cbn [new_cell append_to cells organized] in *.
  - destruct Ht as (p & ->). split.
    + constructor; unfold f'; cbn [new_cell append_to cells organized]; [|exact Hd'|].
      * assert (Hsv : In s vs) by (eapply spine_visited; eauto; rewrite in_app_iff; right; left; reflexivity).
        assert (E : upd_cell s (IRef (length (cells f))) (cells f) ++ [cn] = upd_cell s (IRef (length (cells f))) (cells f ++ [cn])).
        { assert (Hlt : s < length (cells f)) by auto. clear - Hlt. revert s Hlt. generalize (length (cells f)) at 2 3 as m. intros m.
          induction (cells f) as [|c cs IH]; intros [|s] Hlt; cbn in *; try lia; [reflexivity|]. rewrite IH by lia. reflexivity. }
        fold cn. rewrite E. eapply upd_at with (sp := p).
        -- apply ihv_ext. exact H1.
        -- exact H2.
        -- apply spine_ext. exact Hs.
        -- rewrite <- E. change (remove k_content tok) with (remove k_content (c_tok cn)).
           change [VDict (remove k_content (c_tok cn))] with (VDict (remove k_content (c_tok cn)) :: [] ++ []).
           change [length (cells f)] with (length (cells f) :: [] ++ []).
           eapply ihv_ref; [|constructor|constructor]. rewrite nth_error_app2 by (rewrite upd_length; lia). rewrite upd_length, Nat.sub_diag. reflexivity.
      * intros x Hx. rewrite app_length, upd_length. cbn. apply in_app_iff in Hx as [Hx|[<-|[]]]; [apply H3 in Hx|]; lia.
    + unfold f'. cbn [new_cell append_to cells organized]. apply spine_upd_ref; [|exact Hs]. eapply spine_nodup; eauto.
  - cbn in Ht. subst path. split.
    + constructor; unfold f'; cbn [new_cell append_to cells organized]; [|exact Hd'|].
      * apply ihv_app; [apply ihv_ext; exact H1|].
        change (remove k_content tok) with (remove k_content (c_tok cn)).
        change [VDict (remove k_content (c_tok cn))] with (VDict (remove k_content (c_tok cn)) :: [] ++ []).
        change [length (cells f)] with (length (cells f) :: [] ++ []).
        eapply ihv_ref; [|constructor|constructor]. rewrite nth_error_app2 by lia. rewrite Nat.sub_diag. reflexivity.
      * intros x Hx. rewrite app_length. cbn. apply in_app_iff in Hx as [Hx|[<-|[]]]; [apply H3 in Hx|]; lia.
    + unfold f'. cbn [new_cell append_to cells organized]. econstructor; [|constructor]. rewrite nth_error_app2 by lia. rewrite Nat.sub_diag. reflexivity.
Qed.
