(** C103: declarations are recorded as they are written. *)
From Coq Require Import List NArith ZArith PeanoNat Lia Bool String.
From Verif Require CommandModel FormatProofs3 FormatProofs5 CommandProofs CommandProofs2 CommandProofs4 CommandProofs6.
From Verif Require Import PyStr Regex RegexLemmas RegexHead RegexAbs DelimSpec DelimProofs DelimFinal TexUtilsModel StyleModel CommandSpec DefModel DefSpec DefProofs.
Import ListNotations. Notation length := List.length. Notation concat := List.concat. Open Scope list_scope.
Notation fm := RegexHead.first_match.
Notation first_match := DefModel.first_match.

(** * Which pattern it is *)
Scheme Equality for kind.
Fixpoint clear_to (p : str) (k : kind) (l : list (kind * re)) : option re :=
  match l with
  | [] => None
  | (k', r) :: l' => if kind_beq k k' then Some r else if dead p r then clear_to p k l' else None
  end.
Lemma kind_ok : forall a b, kind_beq a b = true -> a = b. Proof. exact internal_kind_dec_bl. Qed.
Lemma clear_first : forall p k l r rest m, clear_to p k l = Some r -> re_match_at r (p ++ rest) 0 = Some m -> first_match l (p ++ rest) = Some (k, m).
Proof.
  intros p k l r rest m. induction l as [|(k', r') l IH]; intros H M; [discriminate|]. cbn [clear_to] in H. cbn [DefModel.first_match]. destruct (kind_beq k k') eqn:E; [injection H as ->; apply kind_ok in E; subst k'; rewrite M; reflexivity|].
  destruct (dead p r') eqn:D; [|discriminate]. rewrite (dead_none p r' rest D). apply IH; assumption.
Qed.

(** * Pieces of patterns *)
Lemma no_rk_all : forall n, ~ In c_rk n -> forallb (fun x => negb (in_str [c_rk] x)) n = true.
Proof. intros n H. apply forallb_forall. intros x I. unfold in_str. cbn. rewrite orb_false_r. destruct (N.eqb_spec x c_rk) as [->|_]; [contradiction|reflexivity]. Qed.
Lemma sk1 : forall (t : str) i x r, skipn i t = x :: r -> skipn (i + 1) t = r.
Proof. intros t i x r E. exact (skipn_more t i [x] r E). Qed.
Section Pieces.
Variables (t : str) (i : nat) (c : caps) (K : re) (j : nat) (c' : caps).
Lemma fm_lit : forall s r, skipn i t = lit s ++ r -> fm K t (i + length (lit s)) c j c' -> fm (RSeq (rstr (lit s)) K) t i c j c'.
Proof. intros s r E H. eapply fm_seq; [apply (fm_rstr _ _ _ _ _ E)|exact H]. Qed.
Lemma fm_blanks : forall ws x r, skipn i t = ws ++ x :: r -> blank ws -> isspace x = false -> fm K t (i + length ws) c j c' -> fm (RSeq sp K) t i c j c'.
Proof. intros ws x r E B N H. eapply fm_seq; [apply (fm_star isspace _ _ _ ws _ E B); exact N|exact H]. Qed.
Lemma fm_star_arg : forall g n r, skipn i t = [c_lb] ++ n ++ [c_rb] ++ r -> ~ In c_rb n -> fm K t (i + 1 + length n + 1) ((g, (i + 1, i + 1 + length n)) :: c) j c' ->
  fm (RSeq (rstr (lit "{")) (RSeq (RGrp g (rstar no_rb)) (RSeq (rstr (lit "}")) K))) t i c j c'.
Proof.
  intros g n r E N H. pose proof (skipn_more _ _ _ _ E) as E1. pose proof (skipn_more _ _ _ _ E1) as E2. change (length [c_lb]) with 1 in *.
  eapply fm_seq; [apply (fm_rstr (lit "{") _ _ _ _ E)|]. change (length (lit "{")) with 1. eapply fm_seq; [apply fm_grp; apply (fm_star _ _ _ _ n _ E1 (no_rb_all _ N)); reflexivity|]. eapply fm_seq; [apply (fm_rstr (lit "}") _ _ _ _ E2)|exact H].
Qed.
Lemma fm_plus_arg : forall g n r, skipn i t = [c_lb] ++ n ++ [c_rb] ++ r -> ~ In c_rb n -> n <> [] -> fm K t (i + 1 + length n + 1) ((g, (i + 1, i + 1 + length n)) :: c) j c' ->
  fm (RSeq (BRACE g) K) t i c j c'.
Proof.
  intros g n r E N Nn H. pose proof (skipn_more _ _ _ _ E) as E1. pose proof (skipn_more _ _ _ _ E1) as E2. change (length [c_lb]) with 1 in *. unfold BRACE. cbn [rseq].
  eapply fm_seq; [|exact H]. eapply fm_seq; [apply (fm_rstr (lit "{") _ _ _ _ E)|]. change (length (lit "{")) with 1. eapply fm_seq; [apply fm_grp; apply (fm_plus _ _ _ _ n _ E1 Nn (no_rb_all _ N)); reflexivity|]. apply (fm_rstr (lit "}") _ _ _ _ E2).
Qed.
Lemma fm_opt_some : forall g n r, skipn i t = [c_lk] ++ n ++ [c_rk] ++ r -> ~ In c_rk n -> fm K t (i + 1 + length n + 1) ((g, (i + 1, i + 1 + length n)) :: c) j c' ->
  fm (RSeq (ropt (rseq [rstr (lit "["); RGrp g (rstar no_rk); rstr (lit "]")])) K) t i c j c'.
Proof.
  intros g n r E N H. pose proof (skipn_more _ _ _ _ E) as E1. pose proof (skipn_more _ _ _ _ E1) as E2. change (length [c_lk]) with 1 in *. unfold ropt. cbn [rseq].
  eapply fm_seq; [|exact H]. apply fm_alt_left. eapply fm_seq; [apply (fm_rstr (lit "[") _ _ _ _ E)|]. change (length (lit "[")) with 1. eapply fm_seq; [apply fm_grp; apply (fm_star _ _ _ _ n _ E1 (no_rk_all _ N)); reflexivity|]. apply (fm_rstr (lit "]") _ _ _ _ E2).
Qed.
Lemma fm_opt_none : forall x s a, not_next x (skipn i t) -> fm K t i c j c' -> s = String (Ascii.ascii_of_N x) "" -> lit s = [x] -> fm (RSeq (ropt (RSeq (rstr (lit s)) a)) K) t i c j c'.
Proof.
  intros x s a N H _ Es. eapply fm_seq; [|exact H]. unfold ropt. apply fm_alt_right; [|apply fm_eps]. apply rm_seq_none. rewrite rm_rstr, Es. destruct (startswith (skipn i t) [x]) eqn:E; [|reflexivity]. apply startswith_spec in E as (q & E). destruct (N q E).
Qed.
End Pieces.
(** the same with the text already read on the left *)
Definition sees (r : re) (pre rest : str) (c : caps) (j : nat) (c' : caps) : Prop := fm r (pre ++ rest) (length pre) c j c'.
Lemma sk_pre : forall pre (s : str), skipn (length pre) (pre ++ s) = s. Proof. intros. apply skipn_app_exact. reflexivity. Qed.
Lemma sees_done : forall pre rest c, sees REps pre rest c (length pre) c. Proof. intros. apply fm_eps. Qed.
Ltac grow H := unfold sees in *; rewrite !app_length in H; cbn [List.length] in H; rewrite <- !app_assoc in H; replace (1 + 0) with 1 in * by lia; rewrite ?Nat.add_0_r in *; exact H.
Section Sees.
Variables (pre rest : str) (c : caps) (K : re) (j : nat) (c' : caps).
Lemma sees_lit : forall s, sees K (pre ++ lit s) rest c j c' -> sees (RSeq (rstr (lit s)) K) pre (lit s ++ rest) c j c'.
Proof. intros s H. unfold sees in *. rewrite app_length, <- app_assoc in H. apply (fm_lit _ _ _ _ _ _ _ rest); [apply sk_pre|exact H]. Qed.
Lemma sees_blanks : forall ws, blank ws -> (forall x r, rest = x :: r -> isspace x = false) -> sees K (pre ++ ws) rest c j c' -> sees (RSeq sp K) pre (ws ++ rest) c j c'.
Proof.
  intros ws B N H. unfold sees in *. rewrite app_length, <- app_assoc in H. eapply fm_seq; [|exact H]. apply (fm_star isspace _ _ _ ws rest); [apply sk_pre|exact B|]. destruct rest as [|x r]; [reflexivity|exact (N x r eq_refl)].
Qed.
Lemma sees_star_arg : forall g n, ~ In c_rb n -> sees K (pre ++ braced n) rest ((g, (length (pre ++ [c_lb]), length (pre ++ [c_lb]) + length n)) :: c) j c' ->
  sees (RSeq (rstr (lit "{")) (RSeq (RGrp g (rstar no_rb)) (RSeq (rstr (lit "}")) K))) pre (braced n ++ rest) c j c'.
Proof.
  intros g n N H. unfold sees, braced in *. rewrite !app_length, <- !app_assoc in H. cbn [List.length] in H. rewrite <- !app_assoc.
  eapply fm_star_arg; [rewrite sk_pre; reflexivity|exact N|]. rewrite !Nat.add_assoc in H. exact H.
Qed.
Lemma sees_plus_arg : forall g n, ~ In c_rb n -> n <> [] -> sees K (pre ++ braced n) rest ((g, (length (pre ++ [c_lb]), length (pre ++ [c_lb]) + length n)) :: c) j c' ->
  sees (RSeq (BRACE g) K) pre (braced n ++ rest) c j c'.
Proof.
  intros g n N Nn H. unfold sees, braced in *. rewrite !app_length, <- !app_assoc in H. cbn [List.length] in H. rewrite <- !app_assoc.
  eapply fm_plus_arg; [rewrite sk_pre; reflexivity|exact N|exact Nn|]. rewrite !Nat.add_assoc in H. exact H.
Qed.
Lemma sees_opt_some : forall g n, ~ In c_rk n -> sees K (pre ++ bracketed n) rest ((g, (length (pre ++ [c_lk]), length (pre ++ [c_lk]) + length n)) :: c) j c' ->
  sees (RSeq (ropt (rseq [rstr (lit "["); RGrp g (rstar no_rk); rstr (lit "]")])) K) pre (bracketed n ++ rest) c j c'.
Proof.
  intros g n N H. unfold sees, bracketed in *. rewrite !app_length, <- !app_assoc in H. cbn [List.length] in H. rewrite <- !app_assoc.
  eapply fm_opt_some; [rewrite sk_pre; reflexivity|exact N|]. rewrite !Nat.add_assoc in H. exact H.
Qed.
Lemma sees_opt_none : forall x s a, not_next x rest -> lit s = [x] -> sees K pre rest c j c' -> sees (RSeq (ropt (RSeq (rstr (lit s)) a)) K) pre rest c j c'.
Proof.
  intros x s a N Es H. eapply fm_seq; [|exact H]. unfold ropt. apply fm_alt_right; [|apply fm_eps]. apply rm_seq_none. rewrite rm_rstr, Es, sk_pre. destruct (startswith rest [x]) eqn:E; [|reflexivity]. apply startswith_spec in E as (q & E). destruct (N q E).
Qed.
(** [(s)?] and text that begins with [s], or does not *)
Lemma sees_may_some : forall s, sees K (pre ++ lit s) rest c j c' -> sees (RSeq (ropt (rstr (lit s))) K) pre (lit s ++ rest) c j c'.
Proof. intros s H. unfold sees in *. rewrite app_length, <- app_assoc in H. eapply fm_seq; [unfold ropt; apply fm_alt_left; apply (fm_rstr _ _ _ _ rest); apply sk_pre|exact H]. Qed.
Lemma sees_may_none : forall s, startswith rest (lit s) = false -> sees K pre rest c j c' -> sees (RSeq (ropt (rstr (lit s))) K) pre rest c j c'.
Proof. intros s N H. eapply fm_seq; [|exact H]. unfold ropt. apply fm_alt_right; [|apply fm_eps]. rewrite rm_rstr, sk_pre, N. reflexivity. Qed.
(** a run of characters, captured *)
Lemma sees_run : forall g p n, n <> [] -> forallb p n = true -> (match rest with x :: _ => p x | [] => false end) = false ->
  sees K (pre ++ n) rest ((g, (length pre, length pre + length n)) :: c) j c' -> sees (RSeq (RGrp g (rplus (RChr p))) K) pre (n ++ rest) c j c'.
Proof. intros g p n N A S H. unfold sees in *. rewrite app_length, <- app_assoc in H. eapply fm_seq; [apply fm_grp; apply (fm_plus p _ _ _ n rest); [apply sk_pre|exact N|exact A|exact S]|exact H]. Qed.
(** one alternative of several words *)
Lemma sees_word : forall l s, In s l -> (forall s', In s' l -> s' = s \/ startswith (lit s ++ rest) (lit s') = false) -> sees K (pre ++ lit s) rest c j c' -> sees (RSeq (words l) K) pre (lit s ++ rest) c j c'.
Proof.
  intros l s I A H. unfold sees in *. rewrite app_length, <- app_assoc in H. eapply fm_seq; [|exact H]. clear H. unfold words. induction l as [|s0 l IH]; [destruct I|].
  assert (E0 : s0 = s \/ startswith (lit s ++ rest) (lit s0) = false) by (apply A; left; reflexivity).
  destruct l as [|s1 l].
  - destruct I as [<-|[]]. apply (fm_rstr _ _ _ _ rest). apply sk_pre.
  - change (ralt (map (fun s => rstr (lit s)) (s0 :: s1 :: l))) with (RAlt (rstr (lit s0)) (ralt (map (fun s => rstr (lit s)) (s1 :: l)))). destruct E0 as [->|E0].
    + apply fm_alt_left. apply (fm_rstr _ _ _ _ rest). apply sk_pre.
    + destruct (string_dec s0 s) as [->|N]; [apply fm_alt_left; apply (fm_rstr _ _ _ _ rest); apply sk_pre|]. apply fm_alt_right; [rewrite rm_rstr, sk_pre, E0; reflexivity|]. apply IH; [destruct I as [E|I]; [congruence|exact I]|]. intros s' I'. apply A. right. exact I'.
Qed.
End Sees.
Lemma fm_end : forall r t i c j c', fm (RSeq r REps) t i c j c' -> fm r t i c j c'.
Proof.
  intros r t i c j c' (l & H). unfold RegexHead.first_match. cbn [rm] in H. destruct (rm r t i c) as [|(k, c1) l'] eqn:E; [discriminate|]. cbn [flat_map fst snd rm List.app] in H. injection H as -> -> _. exists l'. reflexivity.
Qed.
Lemma grp_at : forall (t a b c : str) g i j m, t = a ++ b ++ c -> cap_get g (m_caps m) = Some (i, j) -> i = length a -> j = length a + length b -> grp t g m = b.
Proof. intros t a b c g i j m -> C -> ->. unfold grp, m_group. rewrite C. cbn [option_map]. unfold slice. rewrite skipn_app_exact by reflexivity. apply firstn_app_exact. lia. Qed.
Lemma grp_none : forall t g m, cap_get g (m_caps m) = None -> grp t g m = [].
Proof. intros t g m C. unfold grp, m_group. rewrite C. reflexivity. Qed.
Fixpoint rseqe (l : list re) : re := match l with [] => REps | a :: r => RSeq a (rseqe r) end.
Lemma rseqe_ok : forall l t i c j c', fm (rseqe l) t i c j c' -> fm (rseq l) t i c j c'.
Proof.
  assert (A : forall l t i c, rm (rseqe l) t i c = rm (rseq l) t i c).
  { induction l as [|a l IH]; intros t i c; [reflexivity|]. destruct l as [|b l].
    - cbn [rseqe rseq rm]. induction (rm a t i c) as [|(k, d) q IHq]; [reflexivity|]. cbn [flat_map fst snd List.app] in *. rewrite IHq. reflexivity.
    - change (rm (RSeq a (rseqe (b :: l))) t i c = rm (RSeq a (rseq (b :: l))) t i c). cbn [rm]. apply flat_map_ext. intros x. apply IH. }
  intros l t i c j c' H. unfold RegexHead.first_match in *. rewrite <- A. exact H.
Qed.
Lemma read_by : forall u k p l rest j c, clear_to p k (PATTERNS u) = Some (rseq l) -> sees (rseqe l) [] (p ++ rest) [] j c ->
  first_match (PATTERNS u) (p ++ rest) = Some (k, {| m_start := 0; m_end := j; m_caps := c |}).
Proof. intros u k p l rest j c H S. apply (clear_first p k _ (rseq l)); [exact H|]. apply fm_match. apply rseqe_ok. exact S. Qed.
(** the whole of [handle] when a pattern has been found *)
Definition finish u ualpha ualnum (t : str) (k : kind) (m : mobj) : outcome result :=
  match k with
          | KPaired => Ok (handle_paired t m)
          | KAlphabets => Ok (handle_alphabets t m)
          | KOperator => Ok (handle_newcommand ualnum true t m)
          | KNewcommand | KRobust => Ok (handle_newcommand ualnum false t m)
          | KLet => def_prefix u t m CommandModel.P_let handle_let false 2
          | KDef => def_prefix u t m CommandModel.P_def (handle_def ualpha) true 1
          | KNamedef => handle_namedef u ualpha t m
          | KColor => Ok (handle_color t m)
          | KFont => Ok (handle_font t m)
          | KToks => Ok (handle_toks t m)
          | KTheorem => Ok (Some (DTheorem (grp t 1 m) (grp t 3 m) (some_group t 2 m) (some_group t 4 m)), Z.of_nat (m_end m))
          | KTheoremstyle =>
              Ok (None, Z.of_nat (snd (extract_nested_content_sequence_blocks (skipn (m_end m - 1) t) c_lb c_rb (Some 9)) + (m_end m - 1)))
          | KCref => Ok (Some (DCref (grp t 1 m) (grp t 2 m) (grp t 3 m)), Z.of_nat (m_end m))
          | KIf => Ok (Some (DIf (grp t 1 m)), Z.of_nat (m_end m))
          | KLength => Ok (handle_length t m)
          | KSetlength => Ok (handle_setlength t m)
          | KFam => Ok (Some (DFam (strip (grp t 1 m))), Z.of_nat (m_end m))
          | KCounter | KSetcounter => Ok (Some (DCounter (strip (grp t 1 m))), Z.of_nat (m_end m))
          | KOther => Ok (Some (DOther (strip (grp t 1 m))), Z.of_nat (m_end m))
          | KFloat => Ok (Some (DFloat (grp t 1 m) (grp t 2 m)), Z.of_nat (m_end m))
          | KExpand | KEndcsname =>
              match handle_go u ualpha ualnum (length t) (skipn (m_end m) t) with
              | Ok (tk, e) => Ok (tk, (Z.of_nat (m_end m) + e)%Z)
              | Raise => Raise
              | Spin => Spin
              end
          | KColumntype => Ok (None, Z.of_nat (snd (extract_nested_content (skipn (m_end m - 1) t) c_lb c_rb) + (m_end m - 1)))
          | KBoolean => Ok (None, Z.of_nat (m_end m))
  end.
Lemma handle_finish : forall u ualpha ualnum t k m, first_match (PATTERNS u) t = Some (k, m) -> handle u ualpha ualnum t = finish u ualpha ualnum t k m.
Proof. intros u ualpha ualnum t k m H. unfold handle. cbn [handle_go]. rewrite H. destruct k; reflexivity. Qed.
