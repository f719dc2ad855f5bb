(** C104: definitions behind \expandafter and names written with \csname. *)
From Coq Require Import List NArith ZArith PeanoNat Lia Bool String.
From Verif Require CommandModel FormatProofs3 FormatProofs5 CommandProofs CommandProofs2 CommandProofs3 CommandProofs4 CommandProofs6 CommandProofs7 CommandProofs8.
From Verif Require Import PyStr Regex RegexLemmas RegexHead RegexAbs DelimSpec DelimProofs DelimFinal TexUtilsModel EnvModel EnvSpec EnvProofs StyleModel CommandSpec DefModel DefSpec DefProofs DefProofs3 DefProofs4.
Import ListNotations. Notation length := List.length. Notation concat := List.concat. Open Scope list_scope.
Notation fm := RegexHead.first_match.
Notation first_match := DefModel.first_match.

Definition later (n : nat) (o : outcome result) : outcome result :=
  match o with Ok (t, e) => Ok (t, (Z.of_nat n + e)%Z) | Raise => Raise | Spin => Spin end.
Section Any.
Variables u ualpha ualnum : ch -> bool.
Local Notation handle := (handle u ualpha ualnum).
Local Notation handle_go := (handle_go u ualpha ualnum).
Lemma go_step : forall fuel t, handle_go (S fuel) t = match first_match (PATTERNS u) t with
  | None => Ok (None, 0%Z)
  | Some (k, m) => match k with KExpand | KEndcsname => later (m_end m) (handle_go fuel (skipn (m_end m) t)) | _ => finish u ualpha ualnum t k m end end.
Proof. intros fuel t. cbn [DefModel.handle_go]. destruct (first_match (PATTERNS u) t) as [(k, m)|]; [|reflexivity]. destruct k; reflexivity. Qed.
Lemma go_fuel : forall f1 f2 t, length t < f1 -> length t < f2 -> handle_go f1 t = handle_go f2 t.
Proof.
  induction f1 as [|f1 IH]; intros f2 t L1 L2; [lia|]. destruct f2 as [|f2]; [lia|]. rewrite !go_step. destruct (first_match (PATTERNS u) t) as [(k, m)|] eqn:F; [|reflexivity].
  assert (L : length (skipn (m_end m) t) < f1 /\ length (skipn (m_end m) t) < f2).
  { apply first_inv in F as (r & I & M). pose proof (kinds_long _ _ _ I). pose proof (match_bounds _ _ _ M). rewrite skipn_length. lia. }
  destruct k; try reflexivity; rewrite (IH f2 _ (proj1 L) (proj2 L)); reflexivity.
Qed.
Lemma none_word : forall p t i c, (match skipn i t with x :: _ => p x | [] => false end) = false -> rm (rplus (RChr p)) t i c = [].
Proof. intros p t i c H. unfold rplus. apply rm_seq_none, rm_chr_none. exact H. Qed.
Lemma fm_nahead : forall p t i c, (match skipn i t with x :: _ => p x | [] => false end) = false -> fm (RAhead true (RChr p)) t i c i c.
Proof. intros p t i c H. exists []. change (rm (RAhead true (RChr p)) t i c) with (if xorb true (negb (nilb (rm (RChr p) t i c))) then [(i, c)] else []). rewrite (rm_chr_none p t i c H). reflexivity. Qed.
Lemma w_letter : forall s : str, (match s with x :: _ => w u x | [] => false end) = false -> (match s with x :: _ => StyleModel.is_letter x | [] => false end) = false.
Proof. intros [|x s] H; [reflexivity|]. unfold w in H. destruct (StyleModel.is_letter x); [discriminate H|reflexivity]. Qed.
Lemma fm_expand : forall word pre rest c, In word ["\expandafter"; "\noexpand"]%string -> (match rest with x :: _ => w u x | [] => false end) = false ->
  sees (EXPAND_PATTERN u) pre (lit word ++ rest) c (length (pre ++ lit word)) c.
Proof.
  intros word pre rest c I H. unfold sees. rewrite app_length. unfold EXPAND_PATTERN. cbn [rseq]. set (t := pre ++ lit word ++ rest). assert (E : skipn (length pre) t = lit word ++ rest) by apply sk_pre.
  assert (T : forall i, skipn i t = rest -> fm (RSeq (ropt (rplus (RChr (w u)))) no_letter) t i c i c).
  { intros i Ei. eapply fm_seq; [unfold ropt; apply fm_alt_right; [|apply fm_eps]; apply none_word; rewrite Ei; exact H|]. apply fm_nahead. rewrite Ei. apply w_letter. exact H. }
  destruct I as [<-|[<-|[]]].
  - eapply fm_seq; [apply (fm_rstr (lit "\") _ _ _ _ E)|]. apply (skipn_more _ _ (lit "\")) in E. change (length (lit "\")) with 1 in *. eapply fm_seq; [apply fm_alt_left; apply (fm_rstr (lit "expandafter") _ _ _ _ E)|]. apply (skipn_more _ _ (lit "expandafter")) in E. change (length (lit "expandafter")) with 11 in *. change (length (lit "\expandafter")) with 12. replace (length pre + 12) with (length pre + 1 + 11) by lia. apply T. exact E.
  - eapply fm_seq; [apply (fm_rstr (lit "\") _ _ _ _ E)|]. apply (skipn_more _ _ (lit "\")) in E. change (length (lit "\")) with 1 in *. eapply fm_seq; [apply fm_alt_right; [rewrite rm_rstr, E; reflexivity|apply (fm_rstr (lit "noexpand") _ _ _ _ E)]|]. apply (skipn_more _ _ (lit "noexpand")) in E. change (length (lit "noexpand")) with 8 in *. change (length (lit "\noexpand")) with 9. replace (length pre + 9) with (length pre + 1 + 8) by lia. apply T. exact E.
Qed.
Lemma expand_ok : forall word rest, In word ["\expandafter"; "\noexpand"]%string -> (match rest with x :: _ => w u x | [] => false end) = false ->
  handle (lit word ++ rest) = later (length (lit word)) (handle rest).
Proof.
  intros word rest I H. assert (F : first_match (PATTERNS u) (lit word ++ rest) = Some (KExpand, {| m_start := 0; m_end := length (lit word); m_caps := [] |})).
  { pose proof (fm_match _ _ _ _ _ (fm_expand word [] rest [] I H)) as M. destruct I as [<-|[<-|[]]]; (eapply clear_first; [vm_compute; reflexivity|]); exact M. }
  unfold DefModel.handle. rewrite go_step, F. cbn [m_end].
  rewrite (skipn_app_exact (lit word) rest) by reflexivity. f_equal. apply go_fuel; [|lia]. rewrite app_length. destruct I as [<-|[<-|[]]]; cbn; lia.
Qed.

(** * \csname ... \endcsname *)
Lemma erase_none : forall r t, (forall i, i <= length t -> re_match_at r t i = None) -> re_sub r (fun _ => []) t = t.
Proof.
  intros r t H. unfold re_sub. cbn [re_sub_go]. replace (re_search_from r t 0) with (@None mobj); [reflexivity|]. symmetry. apply re_search_none. intros i j B. apply (proj1 (re_match_at_none r t i (proj2 B))). apply H. lia.
Qed.
(** a pattern that begins with a backslash does not match in a text without one *)
Lemma no_bs_none : forall s r (t : str) i, ~ In c_bs t -> re_match_at (RSeq (rstr (c_bs :: s)) r) t i = None.
Proof.
  intros s r t i N. unfold re_match_at. rewrite rm_seq_none; [reflexivity|]. rewrite rm_rstr. destruct (startswith (skipn i t) (c_bs :: s)) eqn:E; [|reflexivity]. exfalso. apply startswith_spec in E as (q & E). apply N. rewrite <- (firstn_skipn i t). apply in_or_app. right. rewrite E. left. reflexivity.
Qed.
Lemma no_letter_end : forall s : str, (match s with x :: _ => StyleModel.is_letter x | [] => false end) = false -> forall (t : str) i c, skipn i t = s -> fm no_letter t i c i c.
Proof. intros s H t i c E. unfold no_letter. apply fm_nahead. rewrite E. exact H. Qed.
Lemma csname_read : forall raw rest, ~ In c_bs raw -> (match raw with x :: _ => StyleModel.is_letter x | [] => false end) = false -> (match rest with x :: _ => StyleModel.is_letter x | [] => false end) = false ->
  concat_csname u (lit "\csname" ++ raw ++ lit "\endcsname" ++ rest) = Some (raw, 17 + length raw).
Proof.
  intros raw rest N H1 H2. set (t := lit "\csname" ++ raw ++ lit "\endcsname" ++ rest).
  assert (S0 : re_match_at START_CSNAME t 0 = Some {| m_start := 0; m_end := 7; m_caps := [] |}).
  { apply fm_match. unfold START_CSNAME. eapply fm_seq; [apply (fm_rstr (lit "\csname") t 0 [] (raw ++ lit "\endcsname" ++ rest)); reflexivity|]. change (0 + length (lit "\csname")) with 7. apply (no_letter_end (raw ++ lit "\endcsname" ++ rest)); [|reflexivity]. destruct raw; [reflexivity|exact H1]. }
  set (n := 7 + length raw). assert (Lt : length t = n + 10 + length rest) by (unfold t, n; rewrite !app_length; change (length (lit "\csname")) with 7; change (length (lit "\endcsname")) with 10; lia).
  assert (Sn : skipn n t = lit "\endcsname" ++ rest).
  { unfold n, t. rewrite app_assoc. apply skipn_app_exact. rewrite app_length. reflexivity. }
  assert (Sr : forall i, 7 <= i -> i < n -> exists x q, skipn i t = x :: q /\ x <> c_bs).
  { intros i A B. assert (Ei : skipn i t = skipn (i - 7) raw ++ lit "\endcsname" ++ rest).
    { unfold t. rewrite skipn_app. change (length (lit "\csname")) with 7. rewrite skipn_all2 by (change (length (lit "\csname")) with 7; lia). cbn [List.app]. rewrite skipn_app. replace (i - 7 - length raw) with 0 by (unfold n in B; lia). reflexivity. }
    destruct (skipn (i - 7) raw) as [|x q] eqn:Es; [apply (f_equal (@length ch)) in Es; rewrite skipn_length in Es; cbn in Es; unfold n in B; lia|]. exists x, (q ++ lit "\endcsname" ++ rest). split; [exact Ei|]. intros ->. apply N. rewrite <- (firstn_skipn (i - 7) raw), Es. apply in_or_app. right. left. reflexivity. }
  assert (Nb : forall s K i, 7 <= i -> i < n -> re_match_at (RSeq (rstr (c_bs :: s)) K) t i = None).
  { intros s K i A B. destruct (Sr i A B) as (x & q & E & Nx). unfold re_match_at. rewrite rm_seq_none; [reflexivity|]. rewrite rm_rstr, E. destruct (startswith (x :: q) (c_bs :: s)) eqn:Q; [|reflexivity]. apply startswith_spec in Q as (q' & Q). injection Q as Q _. congruence. }
  assert (Me : re_match_at END_CSNAME t n = Some {| m_start := n; m_end := n + 10; m_caps := [] |}).
  { apply fm_match. unfold END_CSNAME. eapply fm_seq; [apply (fm_rstr (lit "\endcsname") t n [] rest); exact Sn|]. change (length (lit "\endcsname")) with 10. apply (no_letter_end rest); [exact H2|]. apply (skipn_more t n (lit "\endcsname")). exact Sn. }
  assert (Sb : re_search_from START_CSNAME t 0 = Some {| m_start := 0; m_end := 7; m_caps := [] |}).
  { apply (search_first START_CSNAME t 0 0); [lia|lia|intros; lia|exact S0]. }
  assert (Se : re_search_from END_CSNAME t 7 = Some {| m_start := n; m_end := n + 10; m_caps := [] |}).
  { apply (search_first END_CSNAME t 7 n); [unfold n; lia|lia|intros i A B; apply Nb; lia|exact Me]. }
  assert (C : pclosed_at START_CSNAME END_CSNAME t 7 n (n + 10)).
  { apply (pca_end _ _ _ 7 {| m_start := n; m_end := n + 10; m_caps := [] |} Se). intros bm E. cbn [m_start]. apply re_search_some in E as (Bp & B & R & _).
    destruct (Compare_dec.le_lt_dec (m_start bm) n) as [L|L]; [|exact L]. exfalso. assert (Hn : re_match_at START_CSNAME t (m_start bm) = None).
    { destruct (Nat.eq_dec (m_start bm) n) as [->|Ne]; [|apply Nb; lia]. unfold re_match_at, START_CSNAME. rewrite rm_seq_none; [reflexivity|]. rewrite rm_rstr, Sn. reflexivity. }
    exact (proj1 (re_match_at_none START_CSNAME t (m_start bm) ltac:(lia)) Hn _ R). }
  unfold concat_csname. rewrite S0. assert (Hs : 0 < minlen START_CSNAME) by (cbn; lia). assert (He : 0 < minlen END_CSNAME) by (cbn; lia).
  destruct (encp_spec START_CSNAME END_CSNAME t Hs He) as [(bm & s & e & Sb' & C' & X)|[X _]]; [|exfalso; exact (X _ _ _ Sb C)].
  rewrite Sb in Sb'. injection Sb' as <-. cbn [m_start m_end] in *. destruct (pclosed_fun _ _ _ _ _ _ _ _ C' C) as (-> & ->). rewrite X.
  assert (Er : slice 7 n t = raw) by (unfold n; apply (CommandProofs3.slice_of t (lit "\csname") raw (lit "\endcsname" ++ rest)); reflexivity). rewrite Er.
  assert (Q1 : re_sub START_CSNAME (fun _ => []) raw = raw) by (apply erase_none; intros i _; apply no_bs_none; exact N).
  assert (Q2 : re_sub END_CSNAME (fun _ => []) raw = raw) by (apply erase_none; intros i _; apply no_bs_none; exact N).
  assert (Q3 : re_sub (EXPAND_PATTERN u) (fun _ => []) raw = raw) by (apply erase_none; intros i _; apply no_bs_none; exact N).
  cbv zeta. rewrite Q1, Q2, Q3. f_equal. f_equal. unfold n. lia.
Qed.
End Any.
