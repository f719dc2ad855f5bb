From Coq Require Import List NArith ZArith PeanoNat Lia Bool String.
From Verif Require Import PyStr Json BuilderModel BuilderSpec BuilderProofs BuilderProofs2 BuilderProofs3 TidySpec TidyProofs TidyProofs2 NestSpec NestProofs.
Import ListNotations.
Notation length := List.length.
Notation concat := List.concat.
Open Scope list_scope.

Definition base (f : frame) : Prop := cells_ok (cells f) /\ list_ok (cells f) 0 false (organized f).
Definition start (f : frame) : list item := match root f with Some r => [IRef r] | None => organized f end.
Definition is_sec (f : frame) (s : nat) : Prop := exists z, ik (cells f) (IRef s) = KSection z.
Definition is_par (f : frame) (s : nat) : Prop := exists z, ik (cells f) (IRef s) = KParagraph z.
Record path_ok (f : frame) : Prop := {
  p_open : opened (cells f) (start f) (open_path f);
  p_sec : Forall (is_sec f) (section_stack f);
  p_par : Forall (is_par f) (paragraph_stack f);
  p_none : root f = None -> ~ In KAppendix (map (ik (cells f)) (organized f));
  p_root : forall r, root f = Some r -> r < length (cells f) /\ ik (cells f) (IRef r) = KAppendix /\
             forall c, nth_error (cells f) r = Some c -> ~ In KAppendix (map (ik (cells f)) (c_items c)) }.

Lemma base_finish : forall f, base f -> nested false (finish f).
Proof.
  intros f [HC HL]. unfold finish. eapply (materialize_nested (cells f) HC); [exact HL|]. lia.
Qed.

Lemma start_ok : forall f, base f -> path_ok f -> Forall (item_ok (cells f) 0) (start f).
Proof.
  intros f [_ (_ & _ & HL)] P. unfold start. destruct (root f) as [r|] eqn:E; [|exact HL].
  constructor; [|constructor]. cbn. destruct (p_root f P r E). lia.
Qed.

Definition open_ids (f : frame) : list nat := root_list f ++ section_stack f ++ paragraph_stack f.
Lemma no_appendix : forall f s c, base f -> path_ok f -> In s (open_ids f) -> nth_error (cells f) s = Some c ->
  ~ In KAppendix (map (ik (cells f)) (c_items c)).
Proof.
  intros f s c [HC _] P Hin E. unfold open_ids, root_list in Hin. rewrite !in_app_iff in Hin.
  destruct (HC s c E) as [_ HF]. destruct Hin as [Hin|[Hin|Hin]].
  - destruct (root f) as [r|] eqn:Er; [|destruct Hin]. destruct Hin as [<-|[]]. apply (p_root f P r Er). exact E.
  - destruct (proj1 (Forall_forall _ _) (p_sec f P) s Hin) as (z & K). cbn [ik] in K. rewrite E in K. rewrite K in HF.
    intros X. apply (proj1 (Forall_forall _ _) HF) in X. exact X.
  - destruct (proj1 (Forall_forall _ _) (p_par f P) s Hin) as (z & K). cbn [ik] in K. rewrite E in K. rewrite K in HF.
    intros X. apply (proj1 (Forall_forall _ _) HF) in X. exact X.
Qed.

(** where the item goes, and what it becomes in the path *)
Definition target_kind (f : frame) (t : option nat) : kind := match t with None => KPlain | Some s => ik (cells f) (IRef s) end.
Definition new_tail (x : item) : list nat := match x with IVal _ => [] | IRef j => [j] end.
Definition pushed (f : frame) (t : option nat) (x : item) (ext : list cell) (s p : list nat) : frame :=
  {| organized := match t with None => organized f ++ [x] | Some _ => organized f end;
     cells := push_cells t x (cells f) ext; root := root f; section_stack := s; paragraph_stack := p; f_app := f_app f |}.

Lemma push_step : forall f t x ext k path rest, base f -> path_ok f -> open_path f = path ++ rest ->
  match t with None => path = [] /\ root f = None | Some s => (exists p, path = p ++ [s]) /\ In s (open_ids f) end ->
  addition (cells f) x ext k -> k <> KAppendix ->
  (match x with IVal _ => (forall z, k <> KSection z) /\ (forall z, k <> KParagraph z) | IRef _ => True end) ->
  (forall a, last_kind (cells f) rest a -> next_ok (is_section (target_kind f t)) a k) -> child_ok (target_kind f t) k ->
  forall s' p', let g := pushed f t x ext s' p' in
  base g /\ opened (cells g) (start g) (path ++ new_tail x) /\
  (root g = None -> ~ In KAppendix (map (ik (cells g)) (organized g))) /\
  (forall r, root g = Some r -> r < length (cells g) /\ ik (cells g) (IRef r) = KAppendix /\
     forall c, nth_error (cells g) r = Some c -> ~ In KAppendix (map (ik (cells g)) (c_items c))).
Proof.
  intros f t x ext k path rest B P EP Ht A Nk Nx Hn Hch s' p' g.
  pose proof B as [HC HL]. pose proof (p_open f P) as HO. rewrite EP in HO.
  pose proof (start_ok f B P) as HS.
  assert (Hlen : length (cells g) = length (cells f) + length ext) by apply push_length.
  (* the new tail *)
  assert (TAIL : forall items, Forall (item_ok (cells f) 0) items -> opened (cells g) (items ++ [x]) (new_tail x)).
  { intros items Hi. unfold g. cbn [pushed cells]. inversion A; subst; cbn [new_tail].
    - constructor. intros q it E. apply app_inj_tail in E as [_ <-]. cbn [ik]. exact Nx.
    - econstructor; [|constructor]. 
      + unfold push_cells. rewrite nth_error_app2 by (destruct t; rewrite ?upd_length; lia).
        replace (length (cells f) - length (match t with Some s => upd_cell s (IRef (length (cells f))) (cells f) | None => cells f end)) with 0 by (destruct t; rewrite ?upd_length; lia).
        reflexivity.
      + cbn [c_items]. intros q it E. destruct q; discriminate. }
  destruct t as [s|].
  - destruct Ht as ((p & ->) & Hs). rewrite <- app_assoc in HO. cbn [app] in HO.
    destruct (opened_at _ _ _ _ _ HO) as (c0 & E0 & O0).
    assert (Tk : target_kind f (Some s) = kind_of_dict (c_tok c0)) by (cbn [target_kind ik]; rewrite E0; reflexivity).
    rewrite Tk in *. pose proof (no_appendix f s c0 B P Hs E0) as NA.
    assert (HC' : cells_ok (cells g)).
    { unfold g. cbn [pushed cells]. eapply cells_push_some; eauto.
      - intros q a Ea. apply Hn. eapply opened_last; eauto.
      - intros [K|K]; [apply Nk; auto|apply NA; exact K]. }
    assert (Ls : s < length (cells f)) by (apply nth_error_Some; congruence).
    assert (Ec : nth_error (cells g) s = Some {| c_tok := c_tok c0; c_items := c_items c0 ++ [x] |}).
    { unfold g. cbn [pushed cells push_cells]. unfold push_cells. rewrite nth_error_app1 by (rewrite upd_length; exact Ls). apply upd_same. exact E0. }
    split; [|split; [|split]].
    + split; [exact HC'|]. unfold g. cbn [pushed cells organized]. apply list_push. exact HL.
    + replace (start g) with (start f) by reflexivity. rewrite <- app_assoc. cbn [app].
      eapply (opened_change (cells f) (cells g) s _ (new_tail x)) with (rest := rest) (lo := 0); [|exact Ec| |exact HC|exact HS|exact HO].
      * intros j Nj Lj. unfold g. cbn [pushed cells]. unfold push_cells. rewrite nth_error_app1 by (rewrite upd_length; exact Lj). apply upd_diff. congruence.
      * cbn [c_items]. apply TAIL. destruct (HC s c0 E0) as [(_ & _ & HF) _]. eapply Forall_impl; [|exact HF]. intros [v|j] K; [exact K|cbn in *; lia].
    + intros Er. unfold g in *. cbn [pushed cells organized root] in *. rewrite (push_kinds _ _ _ _ 0) by apply HL. apply (p_none f P Er).
    + intros r Er. unfold g in Er. cbn [pushed root] in Er. destruct (p_root f P r Er) as (L & K & NA').
      split; [lia|]. split; [unfold g; cbn [pushed cells]; rewrite push_kind; assumption|].
      intros c Ecr. destruct (Nat.eq_dec r s) as [->|Ne].
      * rewrite Ec in Ecr. injection Ecr as <-. cbn [c_items]. rewrite map_app, in_app_iff.
        unfold g. cbn [pushed cells]. destruct (HC s c0 E0) as [(_ & _ & HF) _]. rewrite (push_kinds _ _ _ _ (S s)) by exact HF.
        intros [X|[X|[]]]; [apply NA; exact X|]. rewrite (added_kind _ _ _ _ _ A) in X. congruence.
      * unfold g in Ecr. cbn [pushed cells] in Ecr. unfold push_cells in Ecr. rewrite nth_error_app1 in Ecr by (rewrite upd_length; exact L).
        rewrite upd_diff in Ecr by congruence. unfold g. cbn [pushed cells]. destruct (HC r c Ecr) as [(_ & _ & HF) _].
        rewrite (push_kinds _ _ _ _ (S r)) by exact HF. apply NA'. exact Ecr.
  - destruct Ht as (-> & Er). cbn [app] in *. cbn [target_kind is_section] in *.
    assert (Es : start f = organized f) by (unfold start; rewrite Er; reflexivity). rewrite Es in *.
    pose proof (p_none f P Er) as NA.
    assert (HC' : cells_ok (cells g)) by (unfold g; cbn [pushed cells]; eapply cells_push_none; eauto).
    split; [|split; [|split]].
    + split; [exact HC'|]. unfold g. cbn [pushed cells organized]. eapply list_add; eauto; [lia| |].
      * intros q a Ea. apply Hn. eapply opened_last; eauto.
      * right. intros [K|K]; [apply Nk; auto|apply NA; exact K].
    + unfold start, g. cbn [pushed root organized]. rewrite Er. apply TAIL. exact HS.
    + intros _. unfold g. cbn [pushed cells organized]. rewrite map_app, in_app_iff, (push_kinds _ _ _ _ 0) by apply HL.
      intros [X|[X|[]]]; [apply NA; exact X|]. rewrite (added_kind _ _ _ _ _ A) in X. congruence.
    + intros r Er'. unfold g in Er'. cbn [pushed root] in Er'. congruence.
Qed.

(** * The steps of the loop *)
Lemma append_is_pushed : forall f t v, append_to f t (IVal v) = pushed f t (IVal v) [] (section_stack f) (paragraph_stack f).
Proof. intros f [s|] v; unfold append_to, pushed, push_cells; rewrite ?app_nil_r; reflexivity. Qed.
Lemma new_is_pushed : forall f t d s p, with_stacks (new_cell (append_to f t (IRef (length (cells f)))) d []) s p =
  pushed f t (IRef (length (cells f))) [{| c_tok := d; c_items := [] |}] s p.
Proof. intros f [t|] d s p; reflexivity. Qed.
Lemma is_sec_push : forall f t x ext s p l, Forall (is_sec f) l -> Forall (fun i => i < length (cells f)) l -> Forall (is_sec (pushed f t x ext s p)) l.
Proof.
  intros f t x ext s p l H L. apply Forall_forall. intros i Hi. destruct (proj1 (Forall_forall _ _) H i Hi) as (z & K). exists z.
  cbn [pushed cells]. rewrite push_kind; [exact K|]. apply (proj1 (Forall_forall _ _) L i Hi).
Qed.
Lemma is_par_push : forall f t x ext s p l, Forall (is_par f) l -> Forall (fun i => i < length (cells f)) l -> Forall (is_par (pushed f t x ext s p)) l.
Proof.
  intros f t x ext s p l H L. apply Forall_forall. intros i Hi. destruct (proj1 (Forall_forall _ _) H i Hi) as (z & K). exists z.
  cbn [pushed cells]. rewrite push_kind; [exact K|]. apply (proj1 (Forall_forall _ _) L i Hi).
Qed.
Lemma is_sec_lt : forall f l, Forall (is_sec f) l -> Forall (fun i => i < length (cells f)) l.
Proof.
  intros f l H. eapply Forall_impl; [|exact H]. intros i (z & K). cbn [ik] in K. apply nth_error_Some. destruct (nth_error (cells f) i); [discriminate|discriminate].
Qed.
Lemma is_par_lt : forall f l, Forall (is_par f) l -> Forall (fun i => i < length (cells f)) l.
Proof.
  intros f l H. eapply Forall_impl; [|exact H]. intros i (z & K). cbn [ik] in K. apply nth_error_Some. destruct (nth_error (cells f) i); [discriminate|discriminate].
Qed.

Lemma target_spec : forall f, path_ok f -> match get_current_target f with
  None => open_path f = [] /\ root f = None
  | Some s => (exists p, open_path f = p ++ [s]) /\ In s (open_ids f) /\ (forall k, k = KPlain -> child_ok (target_kind f (Some s)) k) end.
Proof.
  intros f P. pose proof (current_target f) as T. unfold get_current_target in *. unfold open_ids.
  assert (PL : forall k s, k = KPlain -> child_ok (target_kind f (Some s)) k) by (intros k s ->; destruct (target_kind f (Some s)); exact I).
  destruct (paragraph_stack f) as [|p ps].
  - destruct (section_stack f) as [|s ss].
    + destruct (root f) as [r|] eqn:Er; [|split; [exact T|reflexivity]]. split; [exact T|]. split; [|auto].
      unfold root_list. rewrite Er. left. reflexivity.
    + split; [exact T|]. split; [|auto]. rewrite !in_app_iff. right. left. left. reflexivity.
  - split; [exact T|]. split; [|auto]. rewrite !in_app_iff. right. right. left. reflexivity.
Qed.

Lemma nest_val : forall f v, base f -> path_ok f -> inside v -> kind_of v = KPlain ->
  let g := append_to f (get_current_target f) (IVal v) in base g /\ path_ok g.
Proof.
  intros f v B P Hv Hk g. unfold g. rewrite append_is_pushed. pose proof (target_spec f P) as T.
  destruct (push_step f (get_current_target f) (IVal v) [] (kind_of v) (open_path f) [] B P) with (s' := section_stack f) (p' := paragraph_stack f) as (B' & O' & N' & R').
  - rewrite app_nil_r. reflexivity.
  - destruct (get_current_target f); [tauto|exact T].
  - constructor. exact Hv.
  - rewrite Hk. discriminate.
  - rewrite Hk. split; discriminate.
  - rewrite Hk. intros a [H1 H2]. destruct a; try exact I; [exfalso; eapply H1|exfalso; eapply H2]; reflexivity.
  - destruct (get_current_target f); [apply T; exact Hk|exact I].
  - split; [exact B'|]. constructor; auto.
    + cbn [new_tail] in O'. rewrite app_nil_r in O'. exact O'.
    + apply is_sec_push; [apply P|apply is_sec_lt, P].
    + apply is_par_push; [apply P|apply is_par_lt, P].
Qed.

Lemma pop_spec : forall f tok stack stack', pop_stack f tok stack = Ok stack' -> exists popped, stack = popped ++ stack' /\
  (forall id, In id popped -> not_deeper (level_of tok) (level_of (cell_tok f id))) /\
  (forall id r, stack' = id :: r -> deeper (level_of tok) (level_of (cell_tok f id))).
Proof.
  intros f tok. induction stack as [|id r IH]; intros stack' H; cbn [pop_stack] in H.
  - injection H as <-. exists []. split; [reflexivity|]. split; [intros ? []|discriminate].
  - unfold getitem in H. destruct (lookup k_level (cell_tok f id)) as [l|] eqn:E1; [|discriminate]. cbn [bind] in H.
    destruct l as [| |y| | |]; try discriminate. cbn [bind as_int] in H.
    destruct (lookup k_level tok) as [l|] eqn:E2; [|discriminate]. cbn [bind] in H.
    destruct l as [| |z| | |]; try discriminate. cbn [bind as_int] in H.
    assert (L1 : level_of (cell_tok f id) = Some y) by (unfold level_of, get; rewrite E1; reflexivity).
    assert (L2 : level_of tok = Some z) by (unfold level_of, get; rewrite E2; reflexivity).
    destruct (Z.leb z y) eqn:Ez.
    + destruct (IH stack' H) as (p & -> & H1 & H2). exists (id :: p). split; [reflexivity|]. split; [|exact H2].
      intros i [<-|Hi]; [|apply H1; exact Hi]. rewrite L1, L2. cbn. apply Z.leb_le in Ez. lia.
    + injection H as <-. exists []. split; [reflexivity|]. split; [intros ? []|]. intros i r' E. injection E as -> ->. rewrite L1, L2. cbn. apply Z.leb_gt in Ez. lia.
Qed.

Lemma ik_cell : forall f id, ik (cells f) (IRef id) = kind_of_dict (cell_tok f id).
Proof. intros f id. cbn [ik]. unfold cell_tok. destruct (nth_error (cells f) id); reflexivity. Qed.
Lemma kind_sec_level : forall d z, kind_of_dict d = KSection z -> z = level_of d.
Proof. intros d z H. unfold kind_of_dict in H. repeat (match type of H with context [if ?b then _ else _] => destruct b end; try discriminate H). congruence. Qed.
Lemma kind_par_level : forall d z, kind_of_dict d = KParagraph z -> z = level_of d.
Proof. intros d z H. unfold kind_of_dict in H. repeat (match type of H with context [if ?b then _ else _] => destruct b end; try discriminate H). congruence. Qed.
Lemma sec_kind : forall f id, is_sec f id -> ik (cells f) (IRef id) = KSection (level_of (cell_tok f id)).
Proof. intros f id (z & K). rewrite K, <- (kind_sec_level (cell_tok f id) z); [reflexivity|]. rewrite <- ik_cell. exact K. Qed.
Lemma par_kind : forall f id, is_par f id -> ik (cells f) (IRef id) = KParagraph (level_of (cell_tok f id)).
Proof. intros f id (z & K). rewrite K, <- (kind_par_level (cell_tok f id) z); [reflexivity|]. rewrite <- ik_cell. exact K. Qed.

Lemma nest_section : forall f d g, base f -> path_ok f -> kind_of_dict d = KSection (level_of d) ->
  manage_section (with_stacks f (section_stack f) []) d = Ok g -> base g /\ path_ok g.
Proof.
  intros f d g B P Hk H. unfold manage_section in H. cbn [section_stack with_stacks] in H.
  set (f0 := with_stacks f (section_stack f) []) in *.
  destruct (pop_stack f0 d (section_stack f)) as [stack|] eqn:E; [|discriminate]. cbn [bind] in H.
  change (cells f0) with (cells f) in H. change (root f0) with (root f) in H.
  destruct (pop_spec f0 d _ _ E) as (popped & ES & Hpop & Htop). 
  change (cell_tok f0) with (cell_tok f) in *.
  set (t := match stack with id :: _ => Some id | [] => root f end) in *.
  injection H as <-.
  assert (EP0 : paragraph_stack (append_to f0 t (IRef (length (cells f)))) = []) by (destruct t; reflexivity). rewrite EP0. clear EP0.
  change (length (cells f)) with (length (cells f0)). rewrite new_is_pushed.
  assert (EQ : forall x ext s p, pushed f0 t x ext s p = pushed f t x ext s p) by (intros; destruct t; reflexivity).
  rewrite EQ. change (length (cells f0)) with (length (cells f)).
  assert (Hsecs : Forall (is_sec f) popped /\ Forall (is_sec f) stack) by (apply Forall_app; rewrite <- ES; apply P).
  destruct Hsecs as [Hpopped Hstack].
  destruct (push_step f t (IRef (length (cells f))) [{| c_tok := d; c_items := [] |}] (kind_of_dict d) (root_list f ++ rev stack) (rev popped ++ par_list f) B P)
    with (s' := length (cells f) :: stack) (p' := @nil nat) as (B' & O' & N' & R').
  - unfold open_path. rewrite ES, rev_app_distr, <- !app_assoc. reflexivity.
  - unfold t, root_list, open_ids. destruct stack as [|s ss].
    + cbn. rewrite app_nil_r. destruct (root f) as [r|] eqn:Er; [|auto]. split; [exists []; reflexivity|]. unfold root_list. rewrite Er. left. reflexivity.
    + split; [cbn; eexists; rewrite app_assoc; reflexivity|]. rewrite ES. rewrite !in_app_iff. right. left. right. left. reflexivity.
  - constructor.
  - rewrite Hk. discriminate.
  - exact I.
  - rewrite Hk. intros a La. destruct (rev popped ++ par_list f) as [|q qs] eqn:Eq.
    + cbn in La. destruct La as [L1 _]. destruct a; try exact I. exfalso. eapply L1. reflexivity.
    + cbn in La. subst a. assert (Hq : In q popped \/ (is_par f q)).
      { destruct (rev popped) as [|q' qs'] eqn:Er.
        - right. cbn [app] in Eq. assert (In q (par_list f)) by (rewrite Eq; left; reflexivity).
          assert (In q (paragraph_stack f)).
          { unfold par_list in *. destruct (section_stack f); [apply in_rev; assumption|]. destruct (paragraph_stack f); [assumption|]. destruct H as [<-|[]]. left. reflexivity. }
          apply (proj1 (Forall_forall _ _) (p_par f P)). assumption.
        - left. cbn [app] in Eq. injection Eq as -> _. apply in_rev. rewrite Er. left. reflexivity. }
      change (next_ok (is_section (target_kind f t)) (ik (cells f) (IRef q)) (KSection (level_of d))). destruct Hq as [Hq|Hq].
      * rewrite (sec_kind f q) by (apply (proj1 (Forall_forall _ _) Hpopped); exact Hq). cbn [next_ok]. apply Hpop. exact Hq.
      * rewrite (par_kind f q Hq). exact I.
  - rewrite Hk. unfold t. destruct stack as [|s ss].
    + destruct (root f) as [r|] eqn:Er; [|exact I]. unfold target_kind. destruct (p_root f P r Er) as (_ & K & _). rewrite K. exact I.
    + unfold target_kind. rewrite (sec_kind f s) by (inversion Hstack; assumption). cbn [child_ok]. apply (Htop s ss). reflexivity.
  - split; [exact B'|]. constructor; auto.
    + unfold open_path, root_list, par_list. cbn [pushed root section_stack paragraph_stack rev]. cbv iota. rewrite app_nil_r.
      cbn [new_tail] in O'. rewrite <- app_assoc in O'. exact O'.
    + constructor; [|apply is_sec_push; [exact Hstack|apply is_sec_lt, Hstack]]. exists (level_of d). rewrite <- Hk.
      apply (added_kind (cells f) t (IRef (length (cells f))) [{| c_tok := d; c_items := [] |}]). constructor.
    + constructor.
Qed.

Lemma nest_paragraph : forall f d g, base f -> path_ok f -> kind_of_dict d = KParagraph (level_of d) ->
  manage_paragraph f d = Ok g -> base g /\ path_ok g.
Proof.
  intros f d g B P Hk H. unfold manage_paragraph in H.
  destruct (pop_stack f d (paragraph_stack f)) as [stack|] eqn:E; [|discriminate]. cbn [bind] in H.
  destruct (pop_spec f d _ _ E) as (popped & ES & Hpop & Htop).
  set (t := match section_stack f with id :: _ => Some id | [] => match stack with id :: _ => Some id | [] => root f end end) in *.
  injection H as <-.
  assert (EP0 : section_stack (append_to f t (IRef (length (cells f)))) = section_stack f) by (destruct t; reflexivity). rewrite EP0. clear EP0.
  rewrite new_is_pushed.
  assert (Hpars : Forall (is_par f) popped /\ Forall (is_par f) stack) by (apply Forall_app; rewrite <- ES; apply P).
  destruct Hpars as [Hpopped Hstack].
  set (path := root_list f ++ rev (section_stack f) ++ match section_stack f with [] => rev stack | _ => [] end).
  set (rest := match section_stack f with [] => rev popped | _ => match paragraph_stack f with [] => [] | p :: _ => [p] end end).
  destruct (push_step f t (IRef (length (cells f))) [{| c_tok := d; c_items := [] |}] (kind_of_dict d) path rest B P)
    with (s' := section_stack f) (p' := length (cells f) :: stack) as (B' & O' & N' & R').
  - unfold open_path, path, rest, par_list. destruct (section_stack f); [|rewrite app_nil_r, <- app_assoc; reflexivity].
    rewrite ES, rev_app_distr, <- !app_assoc. reflexivity.
  - unfold t, path, open_ids, root_list. destruct (section_stack f) as [|s ss].
    + destruct stack as [|p ps]; cbn [rev app].
      * rewrite app_nil_r. destruct (root f) as [r|] eqn:Er; [|auto]. split; [exists []; reflexivity|]. left. reflexivity.
      * split; [eexists; rewrite app_assoc; reflexivity|]. rewrite ES, !in_app_iff. right. right. left. reflexivity.
    + split; [cbn; rewrite app_nil_r; eexists; rewrite app_assoc; reflexivity|]. rewrite !in_app_iff. right. left. left. reflexivity.
  - constructor.
  - rewrite Hk. discriminate.
  - exact I.
  - rewrite Hk. intros a La. assert (Ha : (exists q, In q (paragraph_stack f) /\ a = ik (cells f) (IRef q) /\ (section_stack f = [] -> In q popped)) \/
        ((forall z, a <> KSection z) /\ (forall z, a <> KParagraph z))).
    { unfold rest in La. destruct (section_stack f) as [|s ss].
      - destruct (rev popped) as [|q qs] eqn:Er; [right; exact La|]. left. exists q. assert (In q popped) by (apply in_rev; rewrite Er; left; reflexivity).
        split; [rewrite ES; apply in_app_iff; left; assumption|]. split; [exact La|auto].
      - destruct (paragraph_stack f) as [|p ps]; [right; exact La|]. left. exists p. split; [left; reflexivity|]. split; [exact La|discriminate]. }
    destruct Ha as [(q & Hq & -> & Hp)|[L1 L2]].
    + rewrite (par_kind f q) by (apply (proj1 (Forall_forall _ _) (p_par f P)); exact Hq). cbn [next_ok]. intros Hs.
      apply Hpop, Hp. unfold t in Hs. destruct (section_stack f) as [|s ss] eqn:Ess; [reflexivity|]. exfalso.
      unfold target_kind in Hs. rewrite (sec_kind f s) in Hs by (pose proof (p_sec f P) as K; rewrite Ess in K; inversion K; assumption). discriminate.
    + destruct a; try exact I; exfalso; [eapply L1|eapply L2]; reflexivity.
  - rewrite Hk. unfold t. destruct (section_stack f) as [|s ss] eqn:Ess.
    + destruct stack as [|p ps].
      * destruct (root f) as [r|] eqn:Er; [|exact I]. unfold target_kind. destruct (p_root f P r Er) as (_ & K & _). rewrite K. exact I.
      * unfold target_kind. rewrite (par_kind f p) by (inversion Hstack; assumption). cbn [child_ok]. apply (Htop p ps). reflexivity.
    + unfold target_kind. rewrite (sec_kind f s) by (pose proof (p_sec f P) as K; rewrite Ess in K; inversion K; assumption). exact I.
  - split; [exact B'|]. constructor; auto.
    + unfold open_path, root_list, par_list. cbn [pushed root section_stack paragraph_stack rev].
      unfold path, root_list in O'. cbn [new_tail] in O'. destruct (section_stack f) as [|s ss]; rewrite <- ?app_assoc in O'; exact O'.
    + apply is_sec_push; [apply P|apply is_sec_lt, P].
    + constructor; [|apply is_par_push; [exact Hstack|apply is_par_lt, Hstack]]. exists (level_of d). rewrite <- Hk.
      apply (added_kind (cells f) t (IRef (length (cells f))) [{| c_tok := d; c_items := [] |}]). constructor.
Qed.
