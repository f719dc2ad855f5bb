(** C102: an exception needs a parameter sign; only texts that begin with a backslash are read. *)
From Coq Require Import List NArith ZArith PeanoNat Lia Bool String.
From Verif Require CommandModel CommandProofs2.
From Verif Require Import PyStr Regex RegexLemmas RegexHead RegexLocal DelimSpec DelimProofs DelimFinal TexUtilsModel EnvModel EnvSpec EnvProofs StyleModel DefModel DefProofs.
Import ListNotations. Notation length := List.length. Notation concat := List.concat. Open Scope list_scope.

Lemma skipn_incl : forall n (t : str), incl (skipn n t) t.
Proof. intros n t x I. rewrite <- (firstn_skipn n t). apply in_or_app. right. exact I. Qed.
Lemma firstn_incl : forall n (t : str), incl (firstn n t) t.
Proof. intros n t x I. rewrite <- (firstn_skipn n t). apply in_or_app. left. exact I. Qed.
Lemma strip_incl : forall t, incl (strip t) t.
Proof. intros t x I. unfold strip, rstrip in I. apply in_rev in I. assert (L : forall s y, In y (lstrip s) -> In y s) by (intros s y; induction s as [|z s IH]; [auto|]; cbn [lstrip]; destruct (isspace z); [intros J; right; auto|auto]). apply L in I. apply in_rev in I. apply L in I. exact I. Qed.
Lemma grp_incl : forall t n m, incl (grp t n m) t.
Proof. intros t n m x I. unfold grp, m_group in I. destruct (cap_get n (m_caps m)) as [[i j]|]; [|destruct I]. cbn in I. exact (slice_incl _ _ _ _ I). Qed.
Lemma grp_or_incl : forall t a b m, incl (grp_or t a b m) t.
Proof. intros t a b m x I. unfold grp_or in I. destruct (grp t a m) eqn:E; [exact (grp_incl _ _ _ _ I)|]. rewrite <- E in I. exact (grp_incl _ _ _ _ I). Qed.
Lemma unslash_incl : forall s, incl (unslash s) s.
Proof. intros [|y s] x I; [exact I|]. cbn [unslash] in I. destruct (N.eqb y c_bs); [right; exact I|exact I]. Qed.
Lemma group0_incl : forall t m, incl (m_group0 t m) t.
Proof. intros t m. apply slice_incl. Qed.
Lemma removelast_incl : forall (s : str), incl (removelast s) s.
Proof. intros s x I. destruct s as [|y s]; [exact I|]. destruct (@exists_last _ (y :: s) ltac:(discriminate)) as (a & z & E). rewrite E in *. rewrite removelast_last in I. apply in_or_app. left. exact I. Qed.
Lemma no_blanks_incl : forall s, incl (no_blanks s) s.
Proof. intros s x I. apply filter_In in I as (I & _). exact I. Qed.
Section Any.
Variables u ualpha ualnum : ch -> bool.
Lemma def_parts_raise : forall p, def_parts ualpha p = Raise -> In c_hash p.
Proof.
  intros p H. unfold def_parts in H. destruct (re_search CommandModel.P_hash p) as [m|] eqn:M; [|discriminate]. apply re_search_some in M as (_ & _ & R & _). unfold CommandModel.P_hash in R. apply rel_rseq2 in R as (k & R & _). apply rel_is_ch in R as (_ & r & E).
  apply (skipn_incl (m_start m)). rewrite E. left. reflexivity.
Qed.
Lemma handle_def_raise : forall t m, handle_def ualpha t m = Raise -> In c_hash t.
Proof.
  intros t m H. unfold handle_def in H. destruct (extract_nested_content _ _ _) as [[d|] e]; [|discriminate]. destruct (def_parts ualpha (unslash (grp_or t 1 2 m) ++ strip (grp t 3 m))) as [[parts n]| |] eqn:E; try discriminate.
  apply def_parts_raise in E. apply in_app_or in E as [E|E]; [apply unslash_incl in E; exact (grp_or_incl _ _ _ _ _ E)|apply strip_incl in E; exact (grp_incl _ _ _ _ E)].
Qed.
Lemma handle_let_raise : forall t m, handle_let t m <> Raise.
Proof. intros t m. unfold handle_let. destruct (match strip (grp t 2 m) with [] => _ | _ => _ end) as [n b]. discriminate. Qed.
Lemma concat_cmd_hash : forall l, In c_hash (concat (map (fun i => c_bs :: no_blanks i) l)) -> exists i, In i l /\ In c_hash i.
Proof. intros l I. apply in_concat in I as (x & I1 & I2). apply in_map_iff in I1 as (i & <- & I1). destruct I2 as [E|I2]; [discriminate E|]. exists i. split; [exact I1|]. exact (no_blanks_incl _ _ I2). Qed.
Lemma loop_raise : forall content prefix P handler add max, (forall t m, handler t m = Raise -> In c_hash t) -> forall fuel start inners,
  def_prefix_loop u fuel content prefix P handler add max start inners = Raise -> (In c_hash prefix -> In c_hash content) -> (forall i, In i inners -> In c_hash i -> In c_hash content) -> In c_hash content.
Proof.
  intros content prefix P handler add max Hh. induction fuel as [|fu IH]; intros start inners H Hp Hi; [discriminate|]. cbn [def_prefix_loop] in H. destruct (Nat.ltb start (length content)); [|discriminate].
  assert (Final : (
            let cmd := match inners with [] => [c_bs] | _ => concat (map (fun i => c_bs :: no_blanks i) inners) end in
            let search_prefix := prefix ++ cmd in
            let start := match skipn start content with x :: _ => if N.eqb x c_bs then S start else start | [] => start end in
            let search_text := search_prefix ++ skipn start content in
            match re_match_at P search_text 0 with
            | None => Ok (None, 0%Z)
            | Some fm =>
                match handler search_text fm with
                | Ok (t, e) => Ok (option_map (with_csname add inners) t, (Z.of_nat start + e - Z.of_nat (length search_prefix))%Z)
                | Raise => Raise
                | Spin => Spin
                end
            end) = @Raise result -> In c_hash content).
  { cbv zeta. intros E. destruct (re_match_at P _ 0) as [fm|]; [|discriminate]. destruct (handler _ fm) as [[tk en]| |] eqn:Eh; try discriminate. apply Hh in Eh. apply in_app_or in Eh as [Eh|Eh]; [|exact (skipn_incl _ _ _ Eh)].
    apply in_app_or in Eh as [Eh|Eh]; [exact (Hp Eh)|]. destruct inners as [|i0 l0]; [destruct Eh as [Eh|[]]; discriminate Eh|]. apply concat_cmd_hash in Eh as (i & I1 & I2). exact (Hi _ I1 I2). }
  destruct (Nat.ltb (length inners) max); [|exact (Final H)].
  destruct (re_match_at (RSeq sp (EXPAND_PATTERN u)) (skipn start content) 0) as [m|]; [exact (IH _ _ H Hp Hi)|].
  destruct (concat_csname u (skipn start content)) as [(inner, e)|] eqn:C; [|exact (Final H)]. apply (IH _ _ H Hp). intros i I1 I2. apply in_app_or in I1 as [I1|[<-|[]]]; [exact (Hi _ I1 I2)|]. apply csname_ok in C as (_ & C). apply C in I2. exact (skipn_incl _ _ _ I2).
Qed.
Lemma def_prefix_raise : forall t m P handler add max, (forall t m, handler t m = Raise -> In c_hash t) -> def_prefix u t m P handler add max = Raise -> In c_hash t.
Proof. intros t m P handler add max Hh H. unfold def_prefix in H. apply (loop_raise _ _ _ _ _ _ Hh _ _ _ H); [|intros i []]. intros I. apply removelast_incl in I. exact (group0_incl _ _ _ I). Qed.
Lemma namedef_raise : forall t m, handle_namedef u ualpha t m = Raise -> In c_hash t.
Proof.
  intros t m H. unfold handle_namedef in H. destruct (re_match_at DEF_PREFIX _ 0) as [m'|]; [|discriminate].
  destruct (def_prefix u _ m' CommandModel.P_def (handle_def ualpha) true 1) as [[tk total]| |] eqn:E; try discriminate. apply def_prefix_raise in E; [|exact handle_def_raise].
  apply in_app_or in E as [E|E]; [|exact (skipn_incl _ _ _ E)]. apply in_app_or in E as [E|E]; [vm_compute in E; exfalso; repeat (destruct E as [E|E]; [discriminate E|]); destruct E|].
  apply in_app_or in E as [E|E]; [exact (grp_incl _ _ _ _ E)|]. vm_compute in E. exfalso. repeat (destruct E as [E|E]; [discriminate E|]). destruct E.
Qed.
Lemma handle_go_raise : forall fuel t, handle_go u ualpha ualnum fuel t = Raise -> In c_hash t.
Proof.
  induction fuel as [|fu IH]; intros t H; [discriminate|]. cbn [handle_go] in H. destruct (first_match (PATTERNS u) t) as [(k, m)|]; [|discriminate].
  destruct k; try discriminate.
  - apply def_prefix_raise in H; [exact H|]. intros t' m' E. destruct (handle_let_raise t' m' E).
  - apply def_prefix_raise in H; [exact H|exact handle_def_raise].
  - exact (namedef_raise _ _ H).
  - destruct (handle_go u ualpha ualnum fu (skipn (m_end m) t)) as [[tk en]| |] eqn:E; try discriminate. apply IH in E. exact (skipn_incl _ _ _ E).
  - destruct (handle_go u ualpha ualnum fu (skipn (m_end m) t)) as [[tk en]| |] eqn:E; try discriminate. apply IH in E. exact (skipn_incl _ _ _ E).
Qed.
Lemma handle_raise : forall t, handle u ualpha ualnum t = Raise -> In c_hash t.
Proof. intros t. apply handle_go_raise. Qed.

(** * Texts that do not begin with a backslash *)
Lemma patterns_bs : forall k r x t, In (k, r) (PATTERNS u) -> x <> c_bs -> re_match_at r (x :: t) 0 = None.
Proof.
  intros k r x t I N. assert (Nx : N.eqb c_bs x = false) by (apply N.eqb_neq; congruence). unfold PATTERNS in I. cbn [In] in I.
  assert (Hd : forall r', (forall c, rm (is_ch c_bs) (x :: t) 0 c = []) -> re_match_at (RSeq (is_ch c_bs) r') (x :: t) 0 = None) by (intros r' Z0; unfold re_match_at; rewrite (rm_seq_none _ _ _ _ _ (Z0 [])); reflexivity).
  assert (Z0 : forall c, rm (is_ch c_bs) (x :: t) 0 c = []) by (intros c; unfold is_ch; cbn [rm]; unfold next_is; cbn [nth_error]; rewrite Nx; reflexivity).
  assert (Zs : forall a r' c, rm (RSeq (RSeq (is_ch c_bs) a) r') (x :: t) 0 c = []) by (intros a r' c; apply rm_seq_none, rm_seq_none, Z0).
  assert (Hd2 : forall a r', re_match_at (RSeq (RSeq (is_ch c_bs) a) r') (x :: t) 0 = None) by (intros a r'; unfold re_match_at; rewrite Zs; reflexivity).
  repeat (destruct I as [I|I]; [injection I as <- <-; first [solve [apply Hd; exact Z0]|solve [apply Hd2]|idtac]|]); [| destruct I].
  unfold DEF_PREFIX. cbn [rseq]. unfold re_match_at. apply (f_equal (fun l : list (nat * caps) => match l with [] => None | (j, c) :: _ => Some {| m_start := 0; m_end := j; m_caps := c |} end) (y := [])). apply CommandProofs2.list_none. intros j c' I. apply rm_sound in I; [|lia]. apply rel_rseq2 in I as (k & I1 & I2).
  assert (k = 0 \/ False) as [->|[]]. { unfold ropt in I1. apply rel_alt2 in I1 as [I1|I1]; [|left; inversion I1; reflexivity]. apply rel_rstr in I1 as (_ & q & E). cbn in E. injection E as Ex _. destruct (N Ex). }
  apply rel_rseq2 in I2 as (k & I2 & _). apply rel_rstr in I2 as (_ & q & E). cbn in E. injection E as Ex _. destruct (N Ex).
Qed.
Lemma first_bs : forall x t, x <> c_bs -> first_match (PATTERNS u) (x :: t) = None.
Proof.
  intros x t N. assert (H : forall l, incl l (PATTERNS u) -> first_match l (x :: t) = None); [|apply H; intros y I; exact I].
  induction l as [|(k, r) l IH]; intros I; [reflexivity|]. cbn [first_match]. rewrite (patterns_bs k r x t (I _ (or_introl eq_refl)) N). apply IH. intros y J. apply I. right. exact J.
Qed.
Lemma first_nil : first_match (PATTERNS u) [] = None. Proof. vm_compute. reflexivity. Qed.
Lemma can_first : forall t, can_handle u t = match first_match (PATTERNS u) t with Some _ => true | None => false end.
Proof. intros t. unfold can_handle. induction (PATTERNS u) as [|(k, r) l IH]; [reflexivity|]. cbn [existsb first_match snd]. destruct (re_match_at r t 0); [reflexivity|exact IH]. Qed.
Lemma no_command : forall t, (forall r, t <> c_bs :: r) -> can_handle u t = false /\ handle u ualpha ualnum t = Ok (None, 0%Z).
Proof.
  intros t H. assert (F : first_match (PATTERNS u) t = None) by (destruct t as [|x t]; [apply first_nil|apply first_bs; intros ->; exact (H t eq_refl)]).
  split; [rewrite can_first, F; reflexivity|]. unfold handle. cbn [handle_go]. rewrite F. reflexivity.
Qed.
Lemma not_can : forall t, can_handle u t = false -> handle u ualpha ualnum t = Ok (None, 0%Z).
Proof. intros t H. rewrite can_first in H. unfold handle. cbn [handle_go]. destruct (first_match (PATTERNS u) t); [discriminate|reflexivity]. Qed.
End Any.
