From Coq Require Import List NArith ZArith PeanoNat Lia Bool String.
From Verif Require Import PyStr Json BuilderModel BuilderSpec BuilderProofs BuilderProofs2.
Import ListNotations.
Notation length := List.length.
Notation concat := List.concat.
Open Scope list_scope.

Lemma annotate_app : forall es1 before es2, annotate before (es1 ++ es2) = annotate before es1 ++ annotate (before ++ es1) es2.
Proof.
  induction es1 as [|e es1 IH]; intros before es2; cbn [app annotate]; [rewrite app_nil_r; reflexivity|].
  rewrite IH, <- app_assoc. reflexivity.
Qed.

(** every stacked token has an integer level *)
Definition has_level (f : frame) (id : nat) : Prop := exists z, lookup k_level (cell_tok f id) = Some (VInt z).
Definition levels_ok (f : frame) : Prop := forall id, In id (section_stack f ++ paragraph_stack f) -> has_level f id.

Lemma cell_tok_upd : forall cs s x id, match nth_error (upd_cell s x cs) id with Some c => c_tok c | None => [] end = match nth_error cs id with Some c => c_tok c | None => [] end.
Proof.
  induction cs as [|c cs IH]; intros [|s] x [|id]; cbn; try reflexivity. apply IH.
Qed.
Lemma cell_tok_append : forall f t x id, cell_tok (append_to f t x) id = cell_tok f id.
Proof. intros f [s|] x id; unfold cell_tok; cbn [append_to cells]; [apply cell_tok_upd|reflexivity]. Qed.
Lemma cell_tok_ext : forall f id tok (items : list item), id < length (cells f) ->
  match nth_error (cells f ++ [{| c_tok := tok; c_items := items |}]) id with Some c => c_tok c | None => [] end = cell_tok f id.
Proof. intros. rewrite nth_error_app1 by assumption. reflexivity. Qed.
Lemma has_level_lt : forall f id, has_level f id -> id < length (cells f).
Proof.
  intros f id (z & H). unfold cell_tok in H. destruct (nth_error (cells f) id) eqn:E; [|discriminate].
  apply nth_error_Some. congruence.
Qed.

Lemma pop_ok : forall f tok z, lookup k_level tok = Some (VInt z) -> forall stack, (forall id, In id stack -> has_level f id) ->
  exists popped stack', pop_stack f tok stack = Ok stack' /\ stack = popped ++ stack'.
Proof.
  intros f tok z Hz. induction stack as [|id r IH]; intros H; [exists [], []; auto|].
  cbn [pop_stack]. destruct (H id (or_introl eq_refl)) as (y & Hy). unfold getitem. rewrite Hy, Hz. cbn [bind as_int].
  destruct (Z.leb z y).
  - destruct IH as (p & st' & E1 & E2); [intros; apply H; right; assumption|]. exists (id :: p), st'. split; [exact E1|]. cbn. congruence.
  - exists [], (id :: r). auto.
Qed.

Lemma append_stacks : forall f t x, section_stack (append_to f t x) = section_stack f /\ paragraph_stack (append_to f t x) = paragraph_stack f
  /\ root (append_to f t x) = root f /\ f_app (append_to f t x) = f_app f /\ length (cells (append_to f t x)) = length (cells f).
Proof. intros f [s|] x; cbn; rewrite ?upd_length; auto. Qed.

Lemma levels_append : forall f t x, levels_ok f -> levels_ok (append_to f t x).
Proof.
  intros f t x H id Hin. destruct (append_stacks f t x) as (E1 & E2 & _). rewrite E1, E2 in Hin.
  unfold has_level. rewrite cell_tok_append. apply H. exact Hin.
Qed.

(** where get_current_target points *)
Lemma current_target : forall f, target_is f (get_current_target f) (open_path f).
Proof.
  intros f. unfold get_current_target, open_path, par_list, root_list, target_is.
  destruct (paragraph_stack f) as [|p ps].
  - destruct (section_stack f) as [|s ss].
    + cbn. rewrite !app_nil_r. destruct (root f) as [r|]; [exists []|]; reflexivity.
    + cbn. rewrite app_nil_r. eexists. rewrite app_assoc. reflexivity.
  - destruct (section_stack f) as [|s ss]; cbn [rev app].
    + eexists. rewrite app_assoc. reflexivity.
    + eexists. rewrite !app_assoc. reflexivity.
Qed.

Definition inv (f : frame) (hs : list val) : Prop := frame_ok f hs /\ levels_ok f.

Lemma open_path_ext : forall f g, root f = root g -> section_stack f = section_stack g -> paragraph_stack f = paragraph_stack g -> open_path f = open_path g.
Proof. intros f g H1 H2 H3. unfold open_path, par_list, root_list. rewrite H1, H2, H3. reflexivity. Qed.

Lemma step_val : forall f hs v hv, inv f hs -> preorder [v] hv -> inv (append_to f (get_current_target f) (IVal v)) (hs ++ hv).
Proof.
  intros f hs v hv [(vs & H1 & H2) H3] Hp. split; [|apply levels_append; exact H3].
  exists vs. rewrite <- (app_nil_r (open_path f)) in H2.
  destruct (append_val f hs vs v hv _ _ _ H1 H2 (current_target f) Hp) as [K1 K2]. split; [exact K1|].
  destruct (append_stacks f (get_current_target f) (IVal v)) as (E1 & E2 & E3 & _).
  rewrite (open_path_ext _ f E3 E1 E2). exact K2.
Qed.

(** bibliography at the root *)
Lemma step_bib : forall f hs v hv, inv f hs -> preorder [v] hv -> root f = None ->
  inv (append_to (with_stacks f [] []) None (IVal v)) (hs ++ hv).
Proof.
  intros f hs v hv [(vs & H1 & H2) H3] Hp Hr. split; [|intros id []].
  exists vs. destruct (append_val (with_stacks f [] []) hs vs v hv None [] (open_path f)) as [K1 K2]; auto; [destruct H1; constructor; assumption|reflexivity|].
  split; [exact K1|]. unfold open_path, root_list, par_list. cbn. rewrite Hr. constructor.
Qed.
(** bibliography elsewhere, when nothing follows *)
Lemma step_bib_last : forall f hs v hv, inv f hs -> preorder [v] hv ->
  closed_ok (append_to (with_stacks f [] []) None (IVal v)) (hs ++ hv).
Proof.
  intros f hs v hv [(vs & H1 & H2) H3] Hp. exists vs.
  destruct (append_val (with_stacks f [] []) hs vs v hv None [] (open_path f)) as [K1 K2]; auto; [destruct H1; constructor; assumption|reflexivity].
Qed.

Lemma step_appendix : forall f hs d inner hi, inv f hs -> preorder inner hi ->
  inv {| organized := organized f ++ [IRef (length (cells f))];
         cells := cells f ++ [{| c_tok := d; c_items := map IVal inner |}]; root := Some (length (cells f));
         section_stack := []; paragraph_stack := []; f_app := true |} (hs ++ VDict (remove k_content d) :: hi).
Proof.
  intros f hs d inner hi [(vs & [H1 H2 H3] & _) _] Hp. split; [|intros id []].
  assert (Hn : nth_error (cells f ++ [{| c_tok := d; c_items := map IVal inner |}]) (length (cells f)) = Some {| c_tok := d; c_items := map IVal inner |}).
  { rewrite nth_error_app2 by lia. rewrite Nat.sub_diag. reflexivity. }
  exists (vs ++ [length (cells f)]). split.
  - constructor; cbn [cells organized].
    + apply ihv_app; [apply ihv_ext; exact H1|]. rewrite <- (app_nil_r hi).
      change [length (cells f)] with (length (cells f) :: [] ++ []).
      change (remove k_content d) with (remove k_content (c_tok {| c_tok := d; c_items := map IVal inner |})).
      eapply ihv_ref; [exact Hn| |constructor]. cbn [c_items].
      clear - Hp. assert (G : forall cs l h, preorder l h -> ihv cs (map IVal l) h []).
      { intros cs. induction 1 as [|v r hs Hd H IH|d' r h1 h2 K1 _ K2 IH]; cbn [map].
        - constructor.
        - change (v :: hs) with ([v] ++ hs). constructor; [apply preorder_leaf1; exact Hd|exact IH].
        - change (VDict (head d') :: h1 ++ h2) with ((VDict (head d') :: h1) ++ h2). constructor; [apply preorder_tok1; exact K1|exact IH]. }
      apply G. exact Hp.
    + rewrite <- rev_involutive, rev_app_distr. apply NoDup_rev. cbn. constructor; [|apply NoDup_rev; exact H2].
      intros K. apply in_rev in K. apply H3 in K. lia.
    + intros x Hx. rewrite app_length. cbn. apply in_app_iff in Hx as [Hx|[<-|[]]]; [apply H3 in Hx|]; lia.
  - unfold open_path, root_list, par_list. cbn [root section_stack paragraph_stack rev app cells organized].
    econstructor; [exact Hn|constructor].
Qed.

Lemma step_section : forall f hs d z, inv f hs -> lookup k_level d = Some (VInt z) ->
  exists f', manage_section (with_stacks f (section_stack f) []) d = Ok f' /\ inv f' (hs ++ [VDict (remove k_content d)]) /\
    root f' = root f /\ f_app f' = f_app f.
Proof.
  intros f hs d z [(vs & H1 & H2) H3] Hz. unfold manage_section. cbn [section_stack with_stacks].
  destruct (pop_ok (with_stacks f (section_stack f) []) d z Hz (section_stack f)) as (popped & stack & E1 & E2).
  { intros id Hin. apply (H3 id). rewrite in_app_iff. left. exact Hin. }
  rewrite E1. cbn [bind cells with_stacks root paragraph_stack].
  set (t := match stack with id :: _ => Some id | [] => root f end).
  set (g := with_stacks f (section_stack f) []).
  eexists. split; [reflexivity|].
  assert (Hsp : exists rest, spine (cells g) (organized g) ((root_list f ++ rev stack) ++ rest)).
  { exists (rev popped ++ par_list f). unfold open_path in H2. rewrite E2, rev_app_distr in H2. rewrite <- !app_assoc in *. exact H2. }
  destruct Hsp as (rest & Hsp).
  assert (Ht : target_is g t (root_list f ++ rev stack)).
  { unfold t, target_is, root_list. destruct stack as [|s ss].
    - cbn. rewrite app_nil_r. destruct (root f); [exists []|]; reflexivity.
    - cbn. eexists. rewrite app_assoc. reflexivity. }
  assert (H1' : heap_ok g hs vs) by (destruct H1; constructor; assumption).
  destruct (append_new g hs vs d t _ _ H1' Hsp Ht) as [K1 K2]. cbv zeta in K1, K2.
  destruct (append_stacks g t (IRef (length (cells f)))) as (S1 & S2 & S3 & S4 & S5).
  split; [split|].
  - exists (vs ++ [length (cells f)]). split; [destruct K1; constructor; assumption|].
    unfold open_path, root_list, par_list. cbn [with_stacks section_stack paragraph_stack root new_cell].
    replace (root (append_to g t (IRef (length (cells f))))) with (root f) by (rewrite S3; reflexivity).
    replace (paragraph_stack (append_to g t (IRef (length (cells f))))) with (@nil nat) by (rewrite S2; reflexivity).
    rewrite app_nil_r. cbn [rev]. rewrite app_assoc. exact K2.
  - intros id Hin. cbn [with_stacks section_stack paragraph_stack new_cell] in Hin. rewrite S2 in Hin. cbn [g with_stacks paragraph_stack] in Hin.
    rewrite app_nil_r in Hin. unfold has_level, cell_tok. cbn [with_stacks cells new_cell].
    destruct Hin as [<-|Hin].
    + exists z. rewrite nth_error_app2 by (rewrite S5; cbn; lia). rewrite S5. cbn [g with_stacks cells]. rewrite Nat.sub_diag. exact Hz.
    + assert (L : has_level f id). { apply H3. rewrite E2, !in_app_iff. left. right. exact Hin. }
      pose proof (has_level_lt _ _ L) as Hlt. rewrite nth_error_app1 by (rewrite S5; exact Hlt).
      destruct L as (y & L). exists y. rewrite <- L. change (match nth_error (cells (append_to g t (IRef (length (cells f))))) id with Some c => c_tok c | None => [] end) with (cell_tok (append_to g t (IRef (length (cells f)))) id).
      rewrite cell_tok_append. reflexivity.
  - cbn [with_stacks root f_app new_cell]. rewrite S3, S4. auto.
Qed.

Lemma step_paragraph : forall f hs d z, inv f hs -> lookup k_level d = Some (VInt z) ->
  exists f', manage_paragraph f d = Ok f' /\ inv f' (hs ++ [VDict (remove k_content d)]) /\
    root f' = root f /\ f_app f' = f_app f.
Proof.
  intros f hs d z [(vs & H1 & H2) H3] Hz. unfold manage_paragraph.
  destruct (pop_ok f d z Hz (paragraph_stack f)) as (popped & stack & E1 & E2).
  { intros id Hin. apply (H3 id). rewrite in_app_iff. right. exact Hin. }
  rewrite E1. cbn [bind].
  set (t := match section_stack f with id :: _ => Some id | [] => match stack with id :: _ => Some id | [] => root f end end).
  set (path := root_list f ++ rev (section_stack f) ++ match section_stack f with [] => rev stack | _ => [] end).
  eexists. split; [reflexivity|].
  assert (Hsp : exists rest, spine (cells f) (organized f) (path ++ rest)).
  { unfold path. unfold open_path, par_list in H2. destruct (section_stack f) as [|s ss].
    - exists (rev popped). rewrite E2, rev_app_distr in H2. cbn [rev app] in *. rewrite <- !app_assoc in *. exact H2.
    - exists (match paragraph_stack f with [] => [] | p :: _ => [p] end). rewrite app_nil_r, <- !app_assoc in *. exact H2. }
  destruct Hsp as (rest & Hsp).
  assert (Ht : target_is f t path).
  { unfold t, path, target_is, root_list. destruct (section_stack f) as [|s ss].
    - destruct stack as [|p ps]; cbn.
      + rewrite app_nil_r. destruct (root f); [exists []|]; reflexivity.
      + eexists. rewrite app_assoc. reflexivity.
    - cbn. rewrite app_nil_r. eexists. rewrite app_assoc. reflexivity. }
  destruct (append_new f hs vs d t _ _ H1 Hsp Ht) as [K1 K2]. cbv zeta in K1, K2.
  destruct (append_stacks f t (IRef (length (cells f)))) as (S1 & S2 & S3 & S4 & S5).
  split; [split|].
  - exists (vs ++ [length (cells f)]). split; [destruct K1; constructor; assumption|].
    unfold open_path, root_list, par_list. cbn [with_stacks section_stack paragraph_stack root new_cell].
    rewrite S1, S3. unfold path, root_list in K2. destruct (section_stack f) as [|s ss]; cbn [rev app] in *.
    + rewrite <- app_assoc in K2. exact K2.
    + rewrite app_nil_r in K2. rewrite <- app_assoc in K2. exact K2.
  - intros id Hin. cbn [with_stacks section_stack paragraph_stack new_cell] in Hin. rewrite S1 in Hin.
    unfold has_level, cell_tok. cbn [with_stacks cells new_cell].
    assert (Hin' : id = length (cells f) \/ In id (section_stack f ++ paragraph_stack f)).
    { rewrite in_app_iff in *. cbn in Hin. rewrite E2, in_app_iff. intuition auto. }
    destruct Hin' as [->|Hin'].
    + exists z. rewrite nth_error_app2 by (rewrite S5; lia). rewrite S5, Nat.sub_diag. exact Hz.
    + assert (L : has_level f id) by (apply H3; exact Hin').
      pose proof (has_level_lt _ _ L) as Hlt. rewrite nth_error_app1 by (rewrite S5; exact Hlt).
      destruct L as (y & L). exists y. rewrite <- L. change (match nth_error (cells (append_to f t (IRef (length (cells f))))) id with Some c => c_tok c | None => [] end) with (cell_tok (append_to f t (IRef (length (cells f)))) id).
      apply f_equal. apply cell_tok_append.
  - cbn [with_stacks root f_app new_cell]. rewrite S3, S4. auto.
Qed.

(* ------------------------------------------------------------------ *)
(** * The loop *)
Definition organizes (n : nat) : Prop := forall tokens, lsize tokens < n -> document false tokens ->
  forall st before app dep es, walk app dep tokens es -> st_ok before st -> (N.of_nat (length before + length es) < 1000000)%N ->
  exists st' out, recursive_organize n st tokens app dep = (st', Ok out) /\
    preorder out (annotate before es) /\ st_ok (before ++ es) st'.

Lemma getk_num : forall d o, get k_content (match o with Some x => set k_numbering (VStr x) d | None => d end) = get k_content d.
Proof. intros d [x|]; [apply get_set_other; discriminate|reflexivity]. Qed.
Lemma head_num : forall d (o : option str), head (match o with Some x => set k_numbering (VStr x) d | None => d end) =
  match o with Some x => set k_numbering (VStr x) (head d) | None => head d end.
Proof.
  intros d [x|]; [|reflexivity]. unfold head. rewrite get_set_other by discriminate.
  destruct (get k_content d); try reflexivity. apply remove_set_other. discriminate.
Qed.
Lemma head_depth : forall d v, head (set k_depth v d) = set k_depth v (head d).
Proof. intros d v. unfold head. rewrite get_set_other by discriminate. destruct (get k_content d); try reflexivity. apply remove_set_other. discriminate. Qed.

Lemma special_out : forall s, ~ special s -> str_eqb s (lit "appendix") = false /\ str_eqb s (lit "bibliography") = false /\
  str_eqb s (lit "section") = false /\ str_eqb s (lit "paragraph") = false.
Proof. intros s H. unfold special in H. repeat split; apply str_eqb_neq; tauto. Qed.

Lemma no_children_get : forall d, no_children d -> (get k_content d = VNone /\ lookup k_content d = None) \/ get k_content d = VList [].
Proof. intros d [H|H]; unfold get; rewrite H; auto. Qed.

Ltac norm_app K := repeat (rewrite <- ?app_assoc in K; rewrite <- ?app_assoc; progress cbn [app] in K |- * ); rewrite <- ?app_assoc in K; rewrite <- ?app_assoc; cbn [app] in K |- *.

Lemma loop_ok : forall n, organizes n -> forall dep tokens seen, document seen tokens -> lsize tokens < S n ->
  forall st f hs before es, (root f <> None -> seen = true) -> inv f hs -> walk (f_app f) dep tokens es ->
  st_ok before st -> (N.of_nat (length before + length es) < 1000000)%N ->
  exists st' out, org_loop (recursive_organize n) dep st f tokens = (st', Ok out) /\
    preorder out (hs ++ annotate before es) /\ st_ok (before ++ es) st'.
Proof.
  intros n IHn dep tokens. induction tokens as [|v r IHr]; intros seen Hd Hsz st f hs before es Hroot Hinv Hw Hst Hlen.
  { inversion Hw; subst. cbn [org_loop annotate]. rewrite !app_nil_r. do 2 eexists. split; [reflexivity|]. split; [|exact Hst].
    apply finish_ok, frame_closed, Hinv. }
  assert (Hsz' : lsize r < S n) by (cbn in Hsz; lia).
  assert (D : is_dict v \/ ~ is_dict v) by (destruct v; cbn; auto). destruct D as [D|D].
  2:{ (* not a dict *)
      inversion Hw as [|? ? ? ? es' _ Hw'| | |]; subst; try (exfalso; apply D; exact I).
      assert (Hd' : document seen r) by (inversion Hd; subst; try (exfalso; apply D; exact I); assumption).
      assert (E : org_loop (recursive_organize n) dep st f (v :: r) =
                  org_loop (recursive_organize n) dep st (append_to f (get_current_target f) (IVal v)) r).
      { destruct v; try reflexivity. exfalso. apply D. exact I. }
      rewrite E. destruct (append_stacks f (get_current_target f) (IVal v)) as (S1 & S2 & S3 & S4 & S5).
      set (e := {| e_app := f_app f; e_depth := dep; e_head := v |}) in *.
      assert (Hst' : st_ok (before ++ [e]) st).
      { destruct Hst. 
        assert (X : forall t, has_type t e = false) by (intros t; unfold has_type; cbn; destruct v; try reflexivity; exfalso; apply D; exact I).
        assert (Y : numbered_section e = None) by (unfold numbered_section; cbn; destruct v; try reflexivity; exfalso; apply D; exact I).
        assert (Z : level_one_section e = false) by (unfold level_one_section; cbn; destruct v; try reflexivity; exfalso; apply D; exact I).
        assert (W : forall t, numbered_as t e = false) by (intros t; unfold numbered_as; rewrite X; reflexivity).
        assert (SC : forall z, section_count z (before ++ [e]) = section_count z before).
        { intros z. rewrite section_count_snoc. unfold restarts, at_level. rewrite X, Y. cbn. lia. }
        constructor; rewrite ?SC, ?since_snoc, ?Z; cbv iota; rewrite ?count_snoc, ?W, ?Nat.add_0_r; assumption. }
      destruct (IHr seen Hd' Hsz' st (append_to f (get_current_target f) (IVal v)) (hs ++ [v]) (before ++ [e]) es') as (st' & out & K1 & K2 & K3); auto.
      - rewrite S3. exact Hroot.
      - apply step_val; [exact Hinv|apply preorder_leaf1; exact D].
      - rewrite S4. exact Hw'.
      - rewrite app_length. cbn [length] in *. lia.
      - exists st', out. split; [exact K1|]. cbn [annotate].
        assert (Edec : decorate before e = v) by (unfold decorate, e; cbn [e_head]; destruct v; try reflexivity; exfalso; apply D; exact I).
        rewrite Edec. norm_app K2. norm_app K3. split; assumption. }
  destruct v as [| | | | |d]; try contradiction. clear D.
  (* appendix *)
  assert (Hty : exists s, lookup k_type d = Some (VStr s)).
  { inversion Hd; subst; unfold of_type in *; eauto. exfalso. match goal with K : ~ is_dict _ |- _ => apply K; exact I end. }
  destruct Hty as (s & Hty).
  assert (Hcs : lsize (children d) < n) by (pose proof (children_size d); cbn [lsize] in Hsz; lia).
  destruct (str_eqb s (lit "appendix")) eqn:Eapp.
  { apply str_eqb_spec in Eapp. subst s.
    inversion Hd as [|? ? ? Hn ?|? ? ? _ Hc Hd1 Hd2|? ? ? Hx ?|? ? ? ? Hx ?|? ? ? ? Hx ?|? ? ? s' Hx Hns ?]; subst;
      try (exfalso; apply Hn; exact I); try (exfalso; unfold of_type in Hx; rewrite Hty in Hx; discriminate Hx).
    2:{ exfalso. rewrite Hty in Hx. injection Hx as <-. apply Hns. left. reflexivity. }
    inversion Hw as [|? ? ? ? ? Hn ?|? ? ? ? e1 e2 _ Hw1 Hw2|? ? ? ? ? ? Hx ? ?|? ? ? ? ? ? Hx ? ? ?]; subst;
      try (exfalso; apply Hn; exact I); try (exfalso; unfold of_type in Hx; rewrite Hty in Hx; discriminate Hx);
      try (exfalso; apply Hx; exact Hty).
    fold (ev (f_app f) dep d) in *. set (e := ev (f_app f) dep d) in *.
    destruct (st_ok_appendix before st (f_app f) dep d Hty Hst) as [Hst1 Hnum]. fold e in Hst1, Hnum.
    cbn [length] in Hlen. rewrite app_length in Hlen.
    cbn [org_loop]. unfold getitem. rewrite Hty. change (is_str (VStr (lit "appendix")) "appendix") with true. cbv iota.
    assert (R : exists st1 inner, (if negb (truthy (get k_content d)) then (with_sections st (section_numbers cleared), Ok [])
        else match get k_content d with VList c => recursive_organize n (with_sections st (section_numbers cleared)) c true dep
             | _ => (with_sections st (section_numbers cleared), Raise TypeError) end) = (st1, Ok inner) /\
        preorder inner (annotate (before ++ [e]) e1) /\ st_ok ((before ++ [e]) ++ e1) st1).
    { destruct Hc as [Hc|(c & Hc)].
      - assert (Ech : children d = []) by (unfold children, get; rewrite Hc; reflexivity). rewrite Ech in Hw1. inversion Hw1; subst.
        unfold get. rewrite Hc. cbn [truthy negb]. do 2 eexists. split; [reflexivity|]. cbn [annotate]. rewrite app_nil_r. split; [constructor|exact Hst1].
      - assert (Ech : children d = c) by (unfold children, get; rewrite Hc; reflexivity). rewrite Ech in *.
        unfold get. rewrite Hc. destruct c as [|x c].
        + inversion Hw1; subst. cbn [truthy negb]. do 2 eexists. split; [reflexivity|]. cbn [annotate]. rewrite app_nil_r. split; [constructor|exact Hst1].
        + cbn [truthy negb]. apply IHn; auto. rewrite app_length. cbn [length]. lia. }
    destruct R as (st1 & inner & ER & Hpre & Hst2). rewrite ER.
    destruct (IHr true Hd2 Hsz' st1 {| organized := organized f ++ [IRef (length (cells f))];
         cells := cells f ++ [{| c_tok := d; c_items := map IVal inner |}]; root := Some (length (cells f));
         section_stack := []; paragraph_stack := []; f_app := true |} (hs ++ VDict (remove k_content d) :: annotate (before ++ [e]) e1) ((before ++ [e]) ++ e1) e2) as (st' & out & K1 & K2 & K3); auto.
    - apply step_appendix; assumption.
    - rewrite !app_length. cbn [length]. lia.
    - exists st', out. split; [exact K1|]. cbn [annotate]. rewrite annotate_app.
      assert (Edec : decorate before e = VDict (remove k_content d)).
      { unfold decorate. rewrite Hnum. unfold e at 1. cbn [e_head ev]. unfold e. rewrite (has_type_ev _ _ _ _ Hty). lits.
        f_equal. destruct Hc as [Hc|(c & Hc)]; unfold head, get; rewrite Hc; [symmetry; apply remove_absent; exact Hc|reflexivity]. }
      rewrite Edec. norm_app K2. norm_app K3. split; assumption. }
  assert (Hna : ~ of_type "appendix" d).
  { unfold of_type. rewrite Hty. intros K. injection K as ->. rewrite str_eqb_refl in Eapp. discriminate. }
  assert (Hnap : s <> lit "appendix") by (intros ->; rewrite str_eqb_refl in Eapp; discriminate).
  (* children events *)
  assert (HW : exists e1 e2, es = ev (f_app f) dep d :: e1 ++ e2 /\ walk (f_app f) (if str_eqb s (lit "list") then dep + 1 else dep) (children d) e1 /\ walk (f_app f) dep r e2).
  { inversion Hw as [|? ? ? ? ? Hn ?|? ? ? ? e1 e2 Hx Hw1 Hw2|? ? ? ? e1 e2 Hx Hw1 Hw2|? ? ? ? e1 e2 Hx Hy Hw1 Hw2]; subst;
      try (exfalso; apply Hn; exact I); try (exfalso; apply Hna; exact Hx); exists e1, e2; split; try reflexivity; split; auto.
    - unfold of_type in Hx. rewrite Hty in Hx. injection Hx as ->. rewrite str_eqb_refl. exact Hw1.
    - rewrite str_eqb_neq; [exact Hw1|]. intros ->. apply Hy. exact Hty. }
  destruct HW as (e1 & e2 & -> & Hw1 & Hw2). set (e := ev (f_app f) dep d) in *.
  cbn [length] in Hlen. rewrite app_length in Hlen.
  cbn [org_loop]. unfold getitem. rewrite Hty. cbn [is_str]. rewrite Eapp.
  destruct (str_eqb s (lit "section")) eqn:Esec.
  { (* section *)
    apply str_eqb_spec in Esec. subst s.
    inversion Hd as [|? ? ? Hn ?|? ? ? Hx|? ? ? Hx ?|? ? ? z Hx Hlv Hnc Hz Hd2|? ? ? ? Hx ?|? ? ? s' Hx Hns ?]; subst;
      try (exfalso; apply Hn; exact I); try (exfalso; unfold of_type in Hx; rewrite Hty in Hx; discriminate Hx).
    2:{ exfalso. rewrite Hty in Hx. injection Hx as <-. apply Hns. right. right. left. reflexivity. }
    rewrite (cun_section st d Hty). lits.
    assert (Ech : children d = []) by (unfold children; destruct (no_children_get d Hnc) as [[-> _]| ->]; reflexivity).
    rewrite Ech in Hw1. inversion Hw1; subst. cbn [app] in *.
    destruct (usn_ok before st (f_app f) dep d z Hty Hlv Hz Hst) as (st1 & EU & Hst1); [lia|]. fold e in EU, Hst1.
    set (d1 := match number_of before e with Some x => set k_numbering (VStr x) d | None => d end) in *.
    assert (Hlv1 : lookup k_level d1 = Some (VInt z)).
    { unfold d1. destruct (number_of before e); [rewrite lookup_set_other by discriminate|]; exact Hlv. }
    (* content: absent, or the empty list organised to the empty list *)
    assert (Hcase : exists d0 d0n, match get k_content d with
        | VList c => let '(st2, r0) := recursive_organize n st c (f_app f) dep in
            (st2, match r0 with Ok c' => Ok (set k_content (VList c') d) | Raise e0 => Raise e0 end)
        | _ => (st, Ok d) end = (st, Ok d0) /\
        update_section_numbering st d0 true (f_app f) = Ok (st1, d0n) /\ lookup k_level d0n = Some (VInt z) /\ remove k_content d0n = remove k_content d1).
    { destruct (no_children_get d Hnc) as [[Hg _]|Hg].
      - rewrite Hg. exists d, d1. auto.
      - rewrite Hg. exists (set k_content (VList []) d), (set k_content (VList []) d1).
        destruct n as [|m]; [lia|]. split; [reflexivity|].
        assert (Eset : forall k v, k <> k_content -> set k v (set k_content (VList []) d) = set k_content (VList []) (set k v d)).
        { assert (Q : lookup k_content d = Some (VList [])) by (unfold get in Hg; destruct (lookup k_content d); congruence).
          intros k v Hk. clear - Q Hk. revert Q. generalize (VList []) as w0. revert Hk. generalize k_content as kc. intros kc Hk w0 Q.
          induction d as [|[k0 w] d IH]; [discriminate|]. cbn [lookup set] in Q |- *.
          destruct (str_eqb kc k0) eqn:E0.
          - apply str_eqb_spec in E0. subst k0. cbn [set]. rewrite (str_eqb_neq k) by exact Hk. cbn [set]. rewrite (str_eqb_refl kc). reflexivity.
          - cbn [set]. destruct (str_eqb k k0) eqn:E1; cbn [set]; rewrite E0; [reflexivity|]. rewrite IH by exact Q. reflexivity. }
        split.
        + revert EU. unfold update_section_numbering, get_default. rewrite !lookup_set_other by discriminate.
          destruct (negb (truthy match lookup k_numbered d with Some v => v | None => VBool true end)).
          * intros EU. injection EU as <- <-. reflexivity.
          * destruct (as_int match lookup k_level d with Some v => v | None => VInt 1 end) as [lv|]; [|discriminate]. cbn [bind].
            destruct (zget lv _) as [q|]; [|discriminate]. cbn [bind].
            destruct (zget 1 _) as [q1|]; [|discriminate]. cbn [bind].
            destruct (if f_app f then chr (64 + q1) else Ok (str_of_nat q1)) as [q2|]; [|discriminate]. cbn [bind].
            destruct (mmap _ _) as [q3|]; [|discriminate]. cbn [bind]. intros EU. injection EU as <- <-. f_equal. f_equal.
            apply Eset. discriminate.
        + split; [rewrite lookup_set_other by discriminate; exact Hlv1|]. apply remove_set_same. }
    destruct Hcase as (d0 & d0n & EC & EU' & Hlv0 & Hrm). match goal with |- ex (fun st1 => ex (fun o1 => match ?X with pair _ _ => _ end = _ /\ _)) => replace X with (st, @Ok dict d0) by (symmetry; exact EC) end. rewrite EU'.
    assert (Eg : get k_level d0n = VInt z) by (unfold get; rewrite Hlv0; reflexivity). rewrite Eg.
    destruct (step_section f hs d0n z Hinv Hlv0) as (f' & EM & Hinv' & Hr' & Ha').
    rewrite EM.
    destruct (IHr seen Hd2 Hsz' (match VInt z with VInt 1 => with_math st1 0 | _ => st1 end) f' (hs ++ [VDict (remove k_content d0n)]) (before ++ [e]) e2) as (st' & out & K1 & K2 & K3); auto.
    - rewrite Hr'. exact Hroot.
    - rewrite Ha'. exact Hw2.
    - rewrite app_length. cbn [length] in *. lia.
    - exists st', out. split; [exact K1|]. cbn [annotate].
      assert (Edec : decorate before e = VDict (remove k_content d0n)).
      { unfold decorate. rewrite (has_type_ev (f_app f) dep d _ Hty "list" : has_type "list" e = _). change (e_head e) with (VDict (head d)). cbv iota zeta. lits. rewrite Hrm. unfold d1.
        assert (Eh : head d = remove k_content d).
        { unfold head. destruct (no_children_get d Hnc) as [[Hg Hl]|Hg]; rewrite Hg; [symmetry; apply remove_absent; exact Hl|reflexivity]. }
        rewrite Eh. f_equal. destruct (number_of before e); [|reflexivity]. symmetry. apply remove_set_other. discriminate. }
      rewrite Edec. norm_app K2. norm_app K3. split; assumption. }
  (* everything else *)
  assert (Hns : s <> lit "section") by (intros ->; rewrite str_eqb_refl in Esec; discriminate).
  destruct (cun_ok before st (f_app f) dep d s Hty Hnap Hns Hst) as (st1 & EC & Hst1). fold e in EC, Hst1. rewrite EC.
  set (d1 := match number_of before e with Some x => set k_numbering (VStr x) d | None => d end) in *.
  set (dep1 := if str_eqb s (lit "list") then dep + 1 else dep) in *.
  set (d2 := if str_eqb s (lit "list") then set k_depth (VInt (Z.of_nat dep1)) d1 else d1).
  assert (Hg2 : get k_content d2 = get k_content d).
  { unfold d2, d1. destruct (str_eqb s (lit "list")); [rewrite get_set_other by discriminate|]; apply getk_num. }
  assert (Hh2 : VDict (head d2) = decorate before e).
  { unfold decorate. rewrite (has_type_ev (f_app f) dep d _ Hty "list" : has_type "list" e = _). change (e_head e) with (VDict (head d)). cbv iota zeta. f_equal. unfold d2, dep1, d1.
    change (e_depth e) with dep. destruct (str_eqb s (lit "list")); rewrite ?head_depth, head_num; reflexivity. }
  assert (Hd1 : (children d = []) \/ document false (children d)).
  { inversion Hd as [|? ? ? Hn ?|? ? ? Hx|? ? ? Hx ?|? ? ? z Hx Hlv Hnc Hz Hd2|? ? ? ? Hx Hlv Hnc ?|? ? ? s' Hx ? ?]; subst; auto.
    - exfalso. apply Hn. exact I.
    - left. unfold children; destruct (no_children_get d Hnc) as [[-> _]| ->]; reflexivity.
    - left. unfold children; destruct (no_children_get d Hnc) as [[-> _]| ->]; reflexivity. }
  assert (Hd1' : document false (children d)) by (destruct Hd1 as [->|Hd1]; [constructor|exact Hd1]).
  assert (R : exists st2 d3, match get k_content d2 with
        | VList c => let '(st0, r0) := recursive_organize n st1 c (f_app f) dep1 in
            (st0, match r0 with Ok c' => Ok (set k_content (VList c') d2) | Raise e0 => Raise e0 end)
        | _ => (st1, Ok d2) end = (st2, Ok d3) /\
      preorder [VDict d3] (decorate before e :: annotate (before ++ [e]) e1) /\ st_ok ((before ++ [e]) ++ e1) st2 /\
      remove k_content d3 = remove k_content d2).
  { rewrite Hg2.
    assert (NL : (forall c, get k_content d <> VList c) -> exists st2 d3, (st1, Ok d2) = (st2, Ok d3) /\
      preorder [VDict d3] (decorate before e :: annotate (before ++ [e]) e1) /\ st_ok ((before ++ [e]) ++ e1) st2 /\ remove k_content d3 = remove k_content d2).
    { intros Hnl. assert (Ech : children d = []) by (unfold children; destruct (get k_content d); try reflexivity; exfalso; eapply Hnl; reflexivity).
      rewrite Ech in Hw1. inversion Hw1; subst. exists st1, d2. split; [reflexivity|]. cbn [annotate]. rewrite <- Hh2. split; [|rewrite app_nil_r; auto].
      apply preorder_tok1. unfold children. rewrite Hg2. fold (children d). rewrite Ech. constructor. }
    destruct (get k_content d) as [| | | |c|] eqn:Eg; try (apply NL; intros; discriminate).
    assert (Ech : children d = c) by (unfold children; rewrite Eg; reflexivity). rewrite Ech in *.
    destruct (IHn c Hcs Hd1' st1 (before ++ [e]) (f_app f) dep1 e1 Hw1 Hst1) as (st2 & out & K1 & K2 & K3).
    { rewrite app_length. cbn [length]. lia. }
    rewrite K1. exists st2, (set k_content (VList out) d2). split; [reflexivity|]. split.
    - rewrite <- Hh2. assert (Eh : head d2 = head (set k_content (VList out) d2)) by (rewrite head_set; unfold head; rewrite Hg2; reflexivity).
      rewrite Eh. apply preorder_tok1. rewrite children_set. exact K2.
    - split; [exact K3|]. apply remove_set_same. }
  destruct R as (st2 & d3 & ER & Hpre & Hst2 & Hrm3).
  cbv zeta. fold dep1. change (if str_eqb s (lit "list") then set k_depth (VInt (Z.of_nat dep1)) d1 else d1) with d2. rewrite ER.
  assert (FIN : forall st' out, preorder out ((hs ++ decorate before e :: annotate (before ++ [e]) e1) ++ annotate ((before ++ [e]) ++ e1) e2) ->
     st_ok (((before ++ [e]) ++ e1) ++ e2) st' ->
     preorder out (hs ++ annotate before (e :: e1 ++ e2)) /\ st_ok (before ++ e :: e1 ++ e2) st').
  { intros st' out K2 K3. cbn [annotate]. rewrite annotate_app. norm_app K2. norm_app K3. auto. }
  assert (Hlen2 : (N.of_nat (length ((before ++ [e]) ++ e1) + length e2) < 1000000)%N) by (rewrite !app_length; cbn [length] in *; lia).
  destruct (str_eqb s (lit "bibliography")) eqn:Ebib.
  { apply str_eqb_spec in Ebib. subst s.
    inversion Hd as [|? ? ? Hn ?|? ? ? Hx|? ? ? _ Hlast _ Hd2|? ? ? z Hx|? ? ? ? Hx ?|? ? ? s' Hx Hns' ?]; subst;
      try (exfalso; apply Hn; exact I); try (exfalso; unfold of_type in Hx; rewrite Hty in Hx; discriminate Hx).
    2:{ exfalso. rewrite Hty in Hx. injection Hx as <-. apply Hns'. right. left. reflexivity. }
    destruct (root f) as [rid|] eqn:Er.
    - (* inside an appendix: nothing follows *)
      assert (Hsn : seen = true) by (apply Hroot; discriminate). rewrite (Hlast Hsn) in *. inversion Hw2; subst. cbn [org_loop].
      do 2 eexists. split; [reflexivity|]. apply FIN; cbn [annotate]; rewrite ?app_nil_r; [|exact Hst2].
      apply finish_ok. apply step_bib_last; assumption.
    - destruct (IHr seen Hd2 Hsz' st2 (append_to (with_stacks f [] []) None (IVal (VDict d3))) (hs ++ decorate before e :: annotate (before ++ [e]) e1) ((before ++ [e]) ++ e1) e2) as (st' & out & K1 & K2 & K3); auto.
      + apply step_bib; assumption.
      + exists st', out. split; [exact K1|]. apply FIN; assumption. }
  destruct (str_eqb s (lit "paragraph")) eqn:Epar.
  { apply str_eqb_spec in Epar. subst s.
    inversion Hd as [|? ? ? Hn ?|? ? ? Hx|? ? ? Hx|? ? ? z Hx|? ? ? z _ Hlv Hnc Hd2|? ? ? s' Hx Hns' ?]; subst;
      try (exfalso; apply Hn; exact I); try (exfalso; unfold of_type in Hx; rewrite Hty in Hx; discriminate Hx).
    2:{ exfalso. rewrite Hty in Hx. injection Hx as <-. apply Hns'. right. right. right. reflexivity. }
    assert (Ech : children d = []) by (unfold children; destruct (no_children_get d Hnc) as [[-> _]| ->]; reflexivity).
    rewrite Ech in Hw1. inversion Hw1; subst.
    assert (Hlv3 : lookup k_level d3 = Some (VInt z)).
    { rewrite <- (lookup_remove_other k_level k_content) by discriminate. rewrite Hrm3. rewrite lookup_remove_other by discriminate.
      unfold d2, d1. lits. destruct (number_of before e); [rewrite lookup_set_other by discriminate|]; exact Hlv. }
    destruct (step_paragraph f hs d3 z Hinv Hlv3) as (f' & EM & Hinv' & Hr' & Ha'). rewrite EM.
    assert (Hhd : VDict (remove k_content d3) = decorate before e).
    { rewrite <- Hh2, Hrm3. unfold head. rewrite Hg2. destruct (no_children_get d Hnc) as [[Hg Hl]|Hg]; rewrite Hg; [|reflexivity].
      f_equal. apply remove_absent. unfold d2, d1. lits. destruct (number_of before e); [rewrite lookup_set_other by discriminate|]; exact Hl. }
    rewrite Hhd in Hinv'.
    destruct (IHr seen Hd2 Hsz' st2 f' (hs ++ [decorate before e]) ((before ++ [e]) ++ []) e2) as (st' & out & K1 & K2 & K3); auto.
    - rewrite Hr'. exact Hroot.
    - rewrite Ha'. exact Hw2.
    - exists st', out. split; [exact K1|]. apply FIN; assumption. }
  (* ordinary token *)
  assert (Hd2 : document seen r).
  { inversion Hd; subst; try assumption.
    match goal with K : of_type "appendix" d |- _ => exfalso; apply Hna; exact K end. }
  destruct (append_stacks f (get_current_target f) (IVal (VDict d3))) as (S1 & S2 & S3 & S4 & S5).
  destruct (IHr seen Hd2 Hsz' st2 (append_to f (get_current_target f) (IVal (VDict d3))) (hs ++ decorate before e :: annotate (before ++ [e]) e1) ((before ++ [e]) ++ e1) e2) as (st' & out & K1 & K2 & K3); auto.
  - rewrite S3. exact Hroot.
  - apply step_val; assumption.
  - rewrite S4. exact Hw2.
  - exists st', out. split; [exact K1|]. apply FIN; assumption.
Qed.

Lemma organize_ok : forall n, organizes n.
Proof.
  induction n as [|n IHn]; intros tokens Hsz Hd st before app dep es Hw Hst Hlen; [lia|].
  cbn [recursive_organize].
  apply (loop_ok n IHn dep tokens false Hd Hsz st (init_frame app) [] before es); auto.
  - split; [|intros id []]. exists []. split; [constructor; cbn; [constructor|constructor|intros x []]|constructor].
Qed.
