(** C102: every text has an outcome, and what it reads lies inside the text. *)
From Coq Require Import List NArith ZArith PeanoNat Lia Bool String.
From Verif Require CommandModel EnvHandlerCases.
From Verif Require Import PyStr Regex RegexLemmas RegexHead RegexLocal DelimSpec DelimProofs DelimFinal TexUtilsModel EnvModel EnvSpec EnvProofs StyleModel DefModel.
Import ListNotations. Notation length := List.length. Notation concat := List.concat. Open Scope list_scope.

Lemma match_bounds : forall r t m, re_match_at r t 0 = Some m -> minlen r <= m_end m <= length t.
Proof. intros r t m M. destruct (re_match_at_some _ _ _ _ (Nat.le_0_l _) M) as (_ & R & B). apply minlen_ok in R. lia. Qed.
Lemma nested_bounds : forall t b e, extract_nested_content t c_lb c_rb = (Some b, e) -> 2 <= e <= length t /\ incl b t.
Proof.
  intros t b e H. apply (proj1 (extract_nested_content_iff _ _ _ _ _ delims_curly)) in H as (ws & r & -> & _ & _ & _ & ->). repeat rewrite ?app_length, ?skipn_length. split; [cbn; rewrite ?app_length; cbn; lia|].
  intros x I. apply in_or_app. right. right. apply in_or_app. left. exact I.
Qed.
Lemma nested_end_le : forall t, snd (extract_nested_content t c_lb c_rb) <= length t.
Proof. intros t. destruct (c02_outcomes c_lb c_rb t delims_curly) as [E|(ct & n & E & L)]; rewrite E; cbn; lia. Qed.
Lemma blocks_end_le : forall t k, snd (extract_nested_content_sequence_blocks t c_lb c_rb (Some k)) <= length t.
Proof. intros t k. destruct (c03_blocks c_lb c_rb t (Some k) delims_curly) as (bs & p & E & G & _). rewrite E. cbn. destruct (c03_render _ _ _ _ _ G) as (_ & _ & _ & _ & L & _). exact L. Qed.

(** * Removing matches *)
Lemma slice_incl : forall i j (t : str), incl (slice i j t) t.
Proof. intros i j t x I. unfold slice in I. assert (I2 : In x (skipn i t)) by (rewrite <- (firstn_skipn (j - i) (skipn i t)); apply in_or_app; left; exact I). rewrite <- (firstn_skipn i t). apply in_or_app. right. exact I2. Qed.
Lemma sub_erase : forall r fuel t pos, pos <= length t -> incl (re_sub_go fuel r (fun _ => []) t pos) t /\ length (re_sub_go fuel r (fun _ => []) t pos) <= length t - pos.
Proof.
  intros r fuel t. induction fuel as [|fu IH]; intros pos L; cbn [re_sub_go]; [split; [intros x []|cbn; lia]|].
  destruct (re_search_from r t pos) as [m|] eqn:M.
  - apply re_search_some in M as (B1 & B2 & _). destruct (Nat.eqb (m_end m) (m_start m)) eqn:E.
    + apply Nat.eqb_eq in E. destruct (Compare_dec.le_lt_dec (S (m_end m)) (length t)) as [Ls|Ls].
      * destruct (IH _ Ls) as (I & Le). split; [|rewrite !app_length; unfold slice; rewrite !firstn_length, !skipn_length; cbn [List.length]; lia].
        apply incl_app; [apply slice_incl|]. apply incl_app; [intros x []|]. apply incl_app; [apply slice_incl|exact I].
      * assert (Z0 : re_sub_go fu r (fun _ : mobj => []) t (S (m_end m)) = []). { destruct fu; [reflexivity|]. cbn [re_sub_go]. unfold re_search_from. replace (Nat.leb (S (m_end m)) (length t)) with false by (symmetry; apply Nat.leb_gt; lia). apply skipn_all2. lia. }
        rewrite Z0. split; [|rewrite !app_length; unfold slice; rewrite !firstn_length, !skipn_length; cbn [List.length]; lia].
        apply incl_app; [apply slice_incl|]. apply incl_app; [intros x []|]. apply incl_app; [apply slice_incl|intros x []].
    + destruct (IH (m_end m) ltac:(lia)) as (I & Le). split; [apply incl_app; [apply slice_incl|]; apply incl_app; [intros x []|exact I]|]. rewrite !app_length. unfold slice. rewrite firstn_length, skipn_length. cbn [List.length]. lia.
  - split; [|rewrite skipn_length; lia]. intros x I. rewrite <- (firstn_skipn pos t). apply in_or_app. right. exact I.
Qed.
Lemma erase_ok : forall r t, incl (re_sub r (fun _ => []) t) t /\ length (re_sub r (fun _ => []) t) <= length t.
Proof. intros r t. unfold re_sub. destruct (sub_erase r (S (S (length t))) t 0 (Nat.le_0_l _)) as (I & L). split; [exact I|lia]. Qed.

Lemma closed_long : forall b e text pos s t, pclosed_at b e text pos s t -> s + minlen e <= t.
Proof.
  intros b e text pos s t H. induction H as [? ? Hs|]; [|assumption].
  apply re_search_some in Hs as (_ & _ & R & _). apply minlen_ok in R. exact R.
Qed.
Lemma first_inv : forall l t k m, first_match l t = Some (k, m) -> exists r, In (k, r) l /\ re_match_at r t 0 = Some m.
Proof.
  induction l as [|(k', r) l IH]; intros t k m H; [discriminate|]. cbn [first_match] in H. destruct (re_match_at r t 0) as [m'|] eqn:M; [injection H as <- <-; exists r; split; [left; reflexivity|exact M]|].
  destruct (IH _ _ _ H) as (r' & I & M'). exists r'. split; [right; exact I|exact M'].
Qed.
Section Any.
Variables u ualpha ualnum : ch -> bool.
Lemma csname_ok : forall t inner e, concat_csname u t = Some (inner, e) -> 17 + length inner <= e <= length t /\ incl inner t.
Proof.
  intros t inner e H. unfold concat_csname in H. destruct (re_match_at START_CSNAME t 0); [|discriminate]. destruct (extract_nested_content_pattern t START_CSNAME END_CSNAME) as [[[[s0 e0] i0]|]|] eqn:E; try discriminate.
  injection H as <- <-. assert (Hs : 0 < minlen START_CSNAME) by (cbn; lia). assert (He : 0 < minlen END_CSNAME) by (cbn; lia).
  destruct (encp_spec START_CSNAME END_CSNAME t Hs He) as [(bm & s & t' & Sb & C & X)|[_ X]]; rewrite X in E; [|discriminate]. injection E as <- <- <-.
  pose proof (closed_bounds _ _ _ Hs He _ _ _ C) as B. pose proof (closed_long _ _ _ _ _ _ C) as L. apply re_search_some in Sb as (_ & _ & R & _). apply minlen_ok in R. change (minlen START_CSNAME) with 7 in R. change (minlen END_CSNAME) with 10 in L.
  set (raw := slice (m_end bm) s t) in *. destruct (erase_ok START_CSNAME raw) as (I1 & L1). destruct (erase_ok END_CSNAME (re_sub START_CSNAME (fun _ => []) raw)) as (I2 & L2). destruct (erase_ok (EXPAND_PATTERN u) (re_sub END_CSNAME (fun _ => []) (re_sub START_CSNAME (fun _ => []) raw))) as (I3 & L3).
  assert (Lr : length raw <= s - m_end bm) by (unfold raw, slice; rewrite firstn_length; lia). split; [lia|]. intros x I. apply I3, I2, I1 in I. exact (slice_incl _ _ _ _ I).
Qed.
Lemma expand_min : 0 < minlen (RSeq sp (EXPAND_PATTERN u)). Proof. cbn. lia. Qed.

(** * The handlers of \let and \def *)
Definition tame (P : re) (handler : str -> mobj -> outcome result) : Prop :=
  forall t m, re_match_at P t 0 = Some m -> handler t m <> Spin /\ forall tok e, handler t m = Ok (tok, e) -> (Z.of_nat (m_end m) <= e <= Z.of_nat (length t))%Z.
Lemma let_tame : tame CommandModel.P_let handle_let.
Proof. intros t m M. apply match_bounds in M. unfold handle_let. destruct (match strip (grp t 2 m) with [] => _ | _ => _ end) as [n b]. split; [discriminate|]. intros tok e H. injection H as _ <-. lia. Qed.
Lemma def_parts_total : forall p, def_parts ualpha p <> Spin.
Proof. intros p. unfold def_parts. destruct (re_search CommandModel.P_hash p); [|discriminate]. destruct (last_ch _); discriminate. Qed.
Lemma def_tame : tame CommandModel.P_def (handle_def ualpha).
Proof.
  intros t m M. apply match_bounds in M. change (minlen CommandModel.P_def) with 7 in M. unfold handle_def. destruct (extract_nested_content (skipn (m_end m - 1) t) c_lb c_rb) as [[d|] e] eqn:E.
  - apply nested_bounds in E as (E & _). rewrite skipn_length in E. pose proof (def_parts_total (unslash (grp_or t 1 2 m) ++ strip (grp t 3 m))) as N. destruct (def_parts ualpha _) as [[parts n]| |]; [|split; [discriminate|intros; discriminate]|congruence].
    split; [discriminate|]. intros tok e' H. injection H as _ <-. lia.
  - split; [discriminate|]. intros tok e' H. injection H as _ <-. lia.
Qed.
Lemma def_some : forall t m tok e, re_match_at CommandModel.P_def t 0 = Some m -> handle_def ualpha t m = Ok (Some tok, e) -> (Z.of_nat (m_end m) < e)%Z.
Proof.
  intros t m tok e M H. apply match_bounds in M. change (minlen CommandModel.P_def) with 7 in M. unfold handle_def in H. destruct (extract_nested_content (skipn (m_end m - 1) t) c_lb c_rb) as [[d|] e0] eqn:E; [|discriminate].
  apply nested_bounds in E as (E & _). destruct (def_parts ualpha _) as [[parts n]| |]; try discriminate. injection H as _ <-. lia.
Qed.
Lemma no_blanks_len : forall s, length (no_blanks s) <= length s.
Proof. induction s as [|x s IH]; [reflexivity|]. unfold no_blanks in *. cbn [filter]. destruct (negb _); cbn [List.length]; lia. Qed.
(** the room that the csnames read so far take in the text *)
Fixpoint room (l : list str) : nat := match l with [] => 0 | i :: r => 17 + length i + room r end.
Lemma room_app : forall a b, room (a ++ b) = room a + room b.
Proof. induction a as [|i a IH]; intros b; [reflexivity|]. cbn [List.app room]. rewrite IH. lia. Qed.
Lemma cmd_room : forall l, length (concat (map (fun i => c_bs :: no_blanks i) l)) <= room l.
Proof. induction l as [|i l IH]; [reflexivity|]. cbn [map List.concat room]. rewrite app_length. cbn [List.length]. pose proof (no_blanks_len i). lia. Qed.
Lemma cmd_room16 : forall i l, length (concat (map (fun i => c_bs :: no_blanks i) (i :: l))) + 16 <= room (i :: l).
Proof. intros i l. cbn [map List.concat room]. rewrite app_length. cbn [List.length]. pose proof (no_blanks_len i). pose proof (cmd_room l). lia. Qed.
Section Loop.
Variables (content prefix : str) (P : re) (handler : str -> mobj -> outcome result) (add : bool) (max : nat).
Hypothesis T : tame P handler.
Lemma loop_ok : forall fuel start inners, length content - start < fuel -> length prefix + room inners <= start -> start <= length content ->
  (inners = [] -> length prefix < start \/ nth_error content start = Some c_bs) ->
  def_prefix_loop u fuel content prefix P handler add max start inners <> Spin /\
  forall tok e, def_prefix_loop u fuel content prefix P handler add max start inners = Ok (tok, e) ->
    (e <= Z.of_nat (length content))%Z /\ ((e = 0%Z /\ tok = None) \/ (Z.of_nat (minlen P) + (if inners then 0 else 16) <= e)%Z).
Proof.
  induction fuel as [|fu IH]; intros start inners F Rm Ls Hb; [lia|]. cbn [def_prefix_loop].
  destruct (Nat.ltb start (length content)) eqn:El; [|split; [discriminate|]; intros tok e H; injection H as <- <-; split; [lia|left; auto]]. apply Nat.ltb_lt in El.
  assert (Final : forall r, (
            let cmd := match inners with [] => [c_bs] | _ => concat (map (fun i => c_bs :: no_blanks i) inners) end in
            let search_prefix := prefix ++ cmd in
            let start := match skipn start content with x :: _ => if N.eqb x c_bs then S start else start | [] => start end in
            let search_text := search_prefix ++ skipn start content in
            match re_match_at P search_text 0 with
            | None => Ok (None, 0%Z)
            | Some fm =>
                match handler search_text fm with
                | Ok (t, e) => Ok (option_map (with_csname add inners) t, (Z.of_nat start + e - Z.of_nat (length search_prefix))%Z)
                | Raise => Raise
                | Spin => Spin
                end
            end) = r -> r <> Spin /\ forall tok e, r = Ok (tok, e) -> (e <= Z.of_nat (length content))%Z /\ ((e = 0%Z /\ tok = None) \/ (Z.of_nat (minlen P) + (if inners then 0 else 16) <= e)%Z)).
  { intros r <-. cbv zeta. set (st := match skipn start content with x :: _ => if N.eqb x c_bs then S start else start | [] => start end).
    set (cmd := match inners with [] => [c_bs] | _ => concat (map (fun i => c_bs :: no_blanks i) inners) end).
    assert (Lst : start <= st <= length content). { unfold st. destruct (skipn start content) as [|x q]; [lia|]. destruct (N.eqb x c_bs); lia. }
    assert (Lc : length prefix + length cmd + (if inners then 0 else 16) <= st).
    { unfold cmd. destruct inners as [|i l].
      - cbn [List.length]. destruct (Hb eq_refl) as [B|B]; [lia|]. unfold st. rewrite nth_error_skipn in B. destruct (skipn start content) as [|x q]; [discriminate|]. injection B as ->. cbn [room] in Rm. rewrite N.eqb_refl. lia.
      - pose proof (cmd_room16 i l). lia. }
    destruct (re_match_at P ((prefix ++ cmd) ++ skipn st content) 0) as [fm|] eqn:M; [|split; [discriminate|]; intros tok e H; injection H as <- <-; split; [lia|left; auto]].
    pose proof (T _ _ M) as (N & E). pose proof (match_bounds _ _ _ M) as B. destruct (handler ((prefix ++ cmd) ++ skipn st content) fm) as [[tk en]| |]; [|split; [discriminate|intros; discriminate]|congruence].
    split; [discriminate|]. intros tok e H. injection H as <- <-. specialize (E _ _ eq_refl). rewrite !app_length in *. rewrite skipn_length in *. split; [lia|]. right. destruct inners; lia. }
  destruct (Nat.ltb (length inners) max) eqn:Em; [|apply Final; reflexivity].
  destruct (re_match_at (RSeq sp (EXPAND_PATTERN u)) (skipn start content) 0) as [m|] eqn:M.
  - apply match_bounds in M. pose proof expand_min. rewrite skipn_length in M. apply IH; [lia|lia|lia|]. intros ->. left. lia.
  - destruct (concat_csname u (skipn start content)) as [(inner, e)|] eqn:C; [|apply Final; reflexivity]. apply csname_ok in C as (B & _). rewrite skipn_length in B.
    assert (IH' := IH (start + e) (inners ++ [inner])). destruct IH' as (N & E); [lia|rewrite room_app; cbn [room]; lia|lia|intros A; destruct inners; discriminate A|]. split; [exact N|]. intros tok e' H. destruct (E _ _ H) as (E1 & [E2|E2]); (split; [exact E1|]); [left; exact E2|right]. destruct inners; cbn [List.app] in E2; lia.
Qed.
End Loop.
(** the backslash at the end of the prefix *)
Definition ends_bs (P : re) : Prop := forall t m, re_match_at P t 0 = Some m -> 1 <= m_end m <= length t /\ nth_error t (m_end m - 1) = Some c_bs /\ length (removelast (m_group0 t m)) = m_end m - 1.
Lemma removelast_len : forall (s : str), length (removelast s) = length s - 1.
Proof. intros s. destruct s as [|x s]; [reflexivity|]. destruct (@exists_last _ (x :: s) ltac:(discriminate)) as (a & y & E). rewrite E, removelast_last, app_length. cbn. lia. Qed.
Lemma group0_len : forall r t m, re_match_at r t 0 = Some m -> length (m_group0 t m) = m_end m.
Proof. intros r t m M. destruct (re_match_at_some _ _ _ _ (Nat.le_0_l _) M) as (E & _ & B). unfold m_group0, slice. rewrite E. cbn [skipn]. rewrite firstn_length. lia. Qed.

Lemma last_char : forall x t i j, rel (rstr [x]) t i j -> i <= length t -> j = S i /\ nth_error t (j - 1) = Some x.
Proof. intros x t i j R _. apply rel_rstr in R as (-> & r & E). cbn [List.length]. split; [lia|]. replace (i + 1 - 1) with i by lia. rewrite nth_error_skipn, E. reflexivity. Qed.
Lemma def_ends_bs : ends_bs DEF_PREFIX.
Proof.
  intros t m M. pose proof (match_bounds _ _ _ M) as B. pose proof (group0_len _ _ _ M) as G. destruct (re_match_at_some _ _ _ _ (Nat.le_0_l _) M) as (_ & R & _). split; [change (minlen DEF_PREFIX) with 5 in B; lia|]. split; [|rewrite removelast_len, G; reflexivity].
  unfold DEF_PREFIX in R. cbn [rseq] in R. do 5 (apply rel_rseq2 in R as (? & _ & R)). apply rel_rstr in R as (Ej & r & E). rewrite Ej. change (length (lit "\")) with 1. rewrite Nat.add_sub, nth_error_skipn, E. reflexivity.
Qed.
Lemma let_ends_bs : ends_bs LET_PREFIX.
Proof.
  intros t m M. pose proof (match_bounds _ _ _ M) as B. pose proof (group0_len _ _ _ M) as G. destruct (re_match_at_some _ _ _ _ (Nat.le_0_l _) M) as (_ & R & _). split; [change (minlen LET_PREFIX) with 5 in B; lia|]. split; [|rewrite removelast_len, G; reflexivity].
  unfold LET_PREFIX in R. cbn [rseq] in R. do 4 (apply rel_rseq2 in R as (? & _ & R)). apply rel_rstr in R as (Ej & r & E). rewrite Ej. change (length (lit "\")) with 1. rewrite Nat.add_sub, nth_error_skipn, E. reflexivity.
Qed.
Lemma def_match_brace : forall t m, re_match_at CommandModel.P_def t 0 = Some m -> nth_error t (m_end m - 1) = Some c_lb.
Proof.
  intros t m M. destruct (re_match_at_some _ _ _ _ (Nat.le_0_l _) M) as (_ & R & _). unfold CommandModel.P_def in R. cbn [rseq] in R. do 7 (apply rel_rseq2 in R as (? & _ & R)). apply rel_grp1 in R. do 2 (apply rel_rseq2 in R as (? & _ & R)). apply rel_is_ch in R as (-> & r & E).
  cbn [Nat.sub]. rewrite Nat.sub_0_r, nth_error_skipn, E. reflexivity.
Qed.
Lemma def_prefix_ok : forall P Q handler t m add max, ends_bs P -> tame Q handler -> re_match_at P t 0 = Some m ->
  def_prefix u t m Q handler add max <> Spin /\ forall tok e, def_prefix u t m Q handler add max = Ok (tok, e) -> (e <= Z.of_nat (length t))%Z /\ ((e = 0%Z /\ tok = None) \/ (Z.of_nat (minlen Q) <= e)%Z).
Proof.
  intros P Q handler t m add max E T M. destruct (E _ _ M) as (B & Nb & L). unfold def_prefix. destruct (loop_ok t (removelast (m_group0 t m)) Q handler add max T (S (length t)) (m_end m - 1) []) as (N & H); [lia|rewrite L; cbn [room]; lia|lia|intros _; right; exact Nb|].
  split; [exact N|]. intros tok e He. destruct (H _ _ He) as (H1 & [H2|H2]); split; auto. right. lia.
Qed.
(** \@namedef: the text that is looked at begins with \def\csname and a blank *)
Lemma named_def_ok : forall (rest : str) m, let t := lit "\def\csname " ++ rest in re_match_at DEF_PREFIX t 0 = Some m ->
  def_prefix u t m CommandModel.P_def (handle_def ualpha) true 1 <> Spin /\
  forall tok e, def_prefix u t m CommandModel.P_def (handle_def ualpha) true 1 = Ok (tok, e) -> (e <= Z.of_nat (length t))%Z /\ ((e = 0%Z /\ tok = None) \/ ((13 <= e)%Z /\ (tok <> None -> (14 <= e)%Z))).
Proof.
  intros rest m t M. assert (Em : m_end m = 5 /\ m_group0 t m = lit "\def\").
  { assert (M2 : re_match_at DEF_PREFIX t 0 = Some {| m_start := 0; m_end := 5; m_caps := [] |}) by (unfold t; vm_compute; reflexivity). rewrite M2 in M. injection M as <-. split; reflexivity. }
  destruct Em as (Em & Eg). unfold def_prefix. rewrite Em, Eg. change (removelast (lit "\def\")) with (lit "\def"). cbn [Nat.sub].
  cbn [def_prefix_loop]. assert (Lt : 12 <= length t) by (unfold t; rewrite app_length; cbn; lia). replace (Nat.ltb 4 (length t)) with true by (symmetry; apply Nat.ltb_lt; lia). cbn [Nat.ltb Nat.leb List.length].
  assert (Sk : skipn 4 t = lit "\csname " ++ rest) by reflexivity. rewrite Sk.
  assert (Ne : re_match_at (RSeq sp (EXPAND_PATTERN u)) (lit "\csname " ++ rest) 0 = None) by (vm_compute; reflexivity). rewrite Ne.
  destruct (concat_csname u (lit "\csname " ++ rest)) as [(inner, e)|] eqn:C.
  - apply csname_ok in C as (B & _). assert (Lr : length (lit "\csname " ++ rest) = length t - 4) by (rewrite <- Sk, skipn_length; reflexivity). rewrite Lr in B.
    destruct (loop_ok t (lit "\def") CommandModel.P_def (handle_def ualpha) true 1 def_tame (length t) (4 + e) [inner]) as (N & H); [lia|cbn [room]; change (length (lit "\def")) with 4; lia|lia|intros A; discriminate A|].
    split; [exact N|]. intros tok e' He. destruct (H _ _ He) as (H1 & [H2|H2]); split; auto. right. lia.
  - change (lit "\csname " ++ rest) with (c_bs :: (lit "csname " ++ rest)). cbv zeta beta iota. change (N.eqb c_bs c_bs) with true. cbv iota.
    assert (Et : (lit "\def" ++ [c_bs]) ++ skipn 5 t = t) by reflexivity. rewrite Et. change (length (lit "\def" ++ [c_bs])) with 5.
    destruct (re_match_at CommandModel.P_def t 0) as [fm|] eqn:Mf; [|split; [discriminate|]; intros tok e H; injection H as <- <-; split; [lia|left; auto]].
    pose proof (def_tame _ _ Mf) as (N & E). pose proof (match_bounds _ _ _ Mf) as B. change (minlen CommandModel.P_def) with 7 in B. pose proof (def_match_brace _ _ Mf) as Nb.
    assert (L13 : 13 <= m_end fm).
    { destruct (Compare_dec.le_lt_dec 13 (m_end fm)) as [L|L]; [exact L|]. exfalso. remember (m_end fm - 1) as k eqn:Ek. assert (Lk : k < 12) by lia. clear - Nb Lk. unfold t in Nb. rewrite nth_error_app1 in Nb by (cbn; lia).
      do 12 (destruct k as [|k]; [vm_compute in Nb; discriminate Nb|]). lia. }
    destruct (handle_def ualpha t fm) as [[tk en]| |] eqn:Eh; [|split; [discriminate|intros; discriminate]|congruence].
    split; [discriminate|]. intros tok e H. assert (He : e = (Z.of_nat 5 + en - Z.of_nat 5)%Z) by congruence. specialize (E _ _ eq_refl). split; [lia|]. right. split; [lia|]. intros Nt. destruct tk as [tk|]; [|exfalso; apply Nt; injection H as <- _; reflexivity]. pose proof (def_some _ _ _ _ Mf Eh). lia.
Qed.

Lemma no_rb_all : forall n, ~ In c_rb n -> forallb (fun x => negb (in_str [c_rb] x)) n = true.
Proof. intros n H. apply forallb_forall. intros x I. unfold in_str. cbn. rewrite orb_false_r. destruct (N.eqb_spec x c_rb) as [->|_]; [contradiction|reflexivity]. Qed.
Lemma all_no_rb : forall n, forallb (fun x => negb (in_str [c_rb] x)) n = true -> ~ In c_rb n.
Proof. intros n H I. rewrite forallb_forall in H. specialize (H _ I). vm_compute in H. discriminate. Qed.
Lemma namedef_match : forall ws name r, blank ws -> ~ In c_rb name ->
  re_match_at P_namedef (lit "\@namedef" ++ ws ++ [c_lb] ++ name ++ [c_rb] ++ r) 0 =
  Some {| m_start := 0; m_end := 9 + length ws + 1 + length name + 1; m_caps := [(1, (9 + length ws + 1, 9 + length ws + 1 + length name))] |}.
Proof.
  intros ws name r B N. apply fm_match. set (t := lit "\@namedef" ++ ws ++ [c_lb] ++ name ++ [c_rb] ++ r). unfold P_namedef. cbn [rseq].
  assert (E0 : skipn 0 t = lit "\@namedef" ++ ws ++ [c_lb] ++ name ++ [c_rb] ++ r) by reflexivity. pose proof (skipn_more _ _ _ _ E0) as E1. change (0 + length (lit "\@namedef")) with 9 in E1. pose proof (skipn_more _ _ _ _ E1) as E2. pose proof (skipn_more _ _ _ _ E2) as E3. change (length [c_lb]) with 1 in E3. pose proof (skipn_more _ _ _ _ E3) as E4.
  eapply fm_seq; [apply (fm_rstr _ _ _ _ _ E0)|]. change (0 + length (lit "\@namedef")) with 9.
  eapply fm_seq; [apply (fm_star isspace _ _ _ ws _ E1 B); reflexivity|].
  eapply fm_seq; [apply (fm_rstr (lit "{") _ _ _ _ E2)|]. change (length (lit "{")) with 1.
  eapply fm_seq; [apply fm_grp; apply (fm_star _ _ _ _ name _ E3 (no_rb_all _ N)); reflexivity|].
  pose proof (fm_rstr (lit "}") t (9 + length ws + 1 + length name) [(1, (9 + length ws + 1, 9 + length ws + 1 + length name))] r E4) as F. exact F.
Qed.
Lemma namedef_shape : forall t m, re_match_at P_namedef t 0 = Some m -> exists ws name r, t = lit "\@namedef" ++ ws ++ [c_lb] ++ name ++ [c_rb] ++ r /\ blank ws /\ ~ In c_rb name.
Proof.
  intros t m M. destruct (re_match_at_some _ _ _ _ (Nat.le_0_l _) M) as (_ & R & B). unfold P_namedef in R. cbn [rseq] in R. apply rel_rseq2 in R as (k & R1 & R). apply rel_rstr in R1 as (-> & r1 & E1). cbn [skipn] in E1. change (0 + length (lit "\@namedef")) with 9 in R.
  apply rel_rseq2 in R as (k & R2 & R). apply rel_star_chr in R2 as (ws & r2 & E2 & Bw & ->). apply rel_rseq2 in R as (k & R3 & R). apply rel_rstr in R3 as (-> & r3 & E3). change (length (lit "{")) with 1 in R.
  apply rel_rseq2 in R as (k & R4 & R). apply rel_grp1 in R4. apply rel_star_chr in R4 as (name & r4 & E4 & Bn & ->). apply rel_rstr in R as (_ & r5 & E5).
  pose proof (skipn_more _ _ _ _ E2) as F2. rewrite E3 in F2. pose proof (skipn_more _ _ _ _ E3) as F3. change (length (lit "{")) with 1 in F3. rewrite E4 in F3. pose proof (skipn_more _ _ _ _ E4) as F4. rewrite E5 in F4.
  exists ws, name, r5. split; [|split; [exact Bw|apply all_no_rb; exact Bn]]. rewrite E1. f_equal. assert (Er : r1 = ws ++ r2) by (rewrite <- E2, E1; reflexivity). rewrite Er, <- F2, <- F3, <- F4. reflexivity.
Qed.
Lemma namedef_ok : forall t m, re_match_at P_namedef t 0 = Some m ->
  handle_namedef u ualpha t m <> Spin /\ forall tok e, handle_namedef u ualpha t m = Ok (tok, e) -> (e <= Z.of_nat (length t))%Z /\ (tok <> None -> (0 < e)%Z).
Proof.
  intros t m M. destruct (namedef_shape _ _ M) as (ws & name & r & -> & B & N). rewrite (namedef_match _ _ _ B N) in M.
  assert (Em : m = {| m_start := 0; m_end := 9 + length ws + 1 + length name + 1; m_caps := [(1, (9 + length ws + 1, 9 + length ws + 1 + length name))] |}) by congruence. clear M. subst m. unfold handle_namedef. cbn [m_end].
  set (t := lit "\@namedef" ++ ws ++ [c_lb] ++ name ++ [c_rb] ++ r).
  assert (Eg : grp t 1 {| m_start := 0; m_end := 9 + length ws + 1 + length name + 1; m_caps := [(1, (9 + length ws + 1, 9 + length ws + 1 + length name))] |} = name).
  { unfold grp, m_group. cbn [m_caps cap_get Nat.eqb option_map]. unfold t, slice. replace (lit "\@namedef" ++ ws ++ [c_lb] ++ name ++ [c_rb] ++ r) with ((lit "\@namedef" ++ ws ++ [c_lb]) ++ name ++ [c_rb] ++ r) by (rewrite <- !app_assoc; reflexivity).
    rewrite skipn_app_exact by (rewrite !app_length; cbn; lia). apply firstn_app_exact. lia. }
  rewrite Eg. assert (Lt : length t = 9 + length ws + 1 + length name + 1 + length r) by (unfold t; rewrite !app_length; cbn; lia).
  set (rest := skipn (9 + length ws + 1 + length name + 1) t). assert (Lr : length rest = length r) by (unfold rest; rewrite skipn_length; lia).
  cbv zeta. rewrite <- (app_assoc (lit "\def\csname ")). destruct (re_match_at DEF_PREFIX (lit "\def\csname " ++ (name ++ lit " \endcsname ") ++ rest) 0) as [m'|] eqn:M'; [|split; [discriminate|]; intros tok e H; injection H as <- <-; split; [lia|congruence]].
  destruct (named_def_ok _ _ M') as (Ns & H). destruct (def_prefix u (lit "\def\csname " ++ (name ++ lit " \endcsname ") ++ rest) m' CommandModel.P_def (handle_def ualpha) true 1) as [[tk total]| |]; [|split; [discriminate|intros; discriminate]|congruence].
  split; [discriminate|]. intros tok e He. assert (Ee : e = (Z.of_nat (9 + length ws + 1 + length name + 1) + total - Z.of_nat (length (lit "\def\csname " ++ name ++ lit " \endcsname ")))%Z) by congruence. assert (Et : tok = tk) by congruence. subst tok. clear He. specialize (H _ _ eq_refl). assert (L1 : length (lit "\def\csname ") = 12) by reflexivity. assert (L2 : length (lit " \endcsname ") = 12) by reflexivity. rewrite !app_length in H. rewrite !app_length in Ee. split; [lia|]. intros Nt. destruct H as (_ & [(_ & H)|(_ & H)]); [contradiction|specialize (H Nt); lia].
Qed.

(** * All kinds *)
Lemma kinds_long : forall k r, In (k, r) (PATTERNS u) -> 2 <= minlen r.
Proof. intros k r I. assert (H : forallb (fun kr => Nat.leb 2 (minlen (snd kr))) (PATTERNS u) = true) by (vm_compute; reflexivity). rewrite forallb_forall in H. specialize (H _ I). apply Nat.leb_le in H. exact H. Qed.
Lemma kind_pattern : forall k r, In (k, r) (PATTERNS u) -> (k = KLet -> r = LET_PREFIX) /\ (k = KDef -> r = DEF_PREFIX) /\ (k = KNamedef -> r = P_namedef).
Proof. intros k r I. unfold PATTERNS in I. cbn [In] in I. repeat (destruct I as [I|I]; [injection I as <- <-; repeat split; intros E; first [discriminate E|reflexivity]|]). destruct I. Qed.
Definition fine (t : str) (res : outcome result) : Prop :=
  res <> Spin /\ forall tok e, res = Ok (tok, e) -> (e <= Z.of_nat (length t))%Z /\ (tok <> None -> (0 < e)%Z) /\ (~ occurs (lit "\@namedef") t -> (0 <= e)%Z).
Lemma fine_nat : forall t tok e, 0 < e <= length t -> fine t (Ok (tok, Z.of_nat e)).
Proof. intros t tok e H. split; [discriminate|]. intros tok' e' E. injection E as <- <-. repeat split; intros; lia. Qed.
Lemma named_fine : forall t f n e, 0 < e <= length t -> fine t (Ok (named f n e)).
Proof. intros t f n e H. apply fine_nat. exact H. Qed.
Lemma newcommand_fine : forall t m b, 2 <= m_end m <= length t -> fine t (Ok (handle_newcommand ualnum b t m)).
Proof.
  intros t m b B. unfold handle_newcommand. destruct (extract_nested_content (skipn (m_end m - 1) t) c_lb c_rb) as [[d|] e] eqn:E; [|apply fine_nat; lia]. apply nested_bounds in E as (E & _). rewrite skipn_length in E. apply fine_nat. lia.
Qed.
Lemma blocks_fine : forall t m k, 2 <= m_end m <= length t -> m_end m - 1 + snd (extract_nested_content_sequence_blocks (skipn (m_end m - 1) t) c_lb c_rb (Some k)) <= length t.
Proof. intros t m k B. pose proof (blocks_end_le (skipn (m_end m - 1) t) k) as H. rewrite skipn_length in H. lia. Qed.
Lemma handle_fine : forall fuel t, length t < fuel -> fine t (handle_go u ualpha ualnum fuel t).
Proof.
  induction fuel as [|fu IH]; intros t F; [lia|]. cbn [handle_go]. destruct (first_match (PATTERNS u) t) as [(k, m)|] eqn:Fm; [|split; [discriminate|]; intros tok e H; injection H as <- <-; repeat split; intros; [lia|congruence|lia]].
  apply first_inv in Fm as (r & I & M). pose proof (kinds_long _ _ I) as L. pose proof (match_bounds _ _ _ M) as B. destruct (kind_pattern _ _ I) as (Kl & Kd & Kn).
  assert (D : forall Q handler add max P, ends_bs P -> tame Q handler -> re_match_at P t 0 = Some m -> 1 <= minlen Q -> fine t (def_prefix u t m Q handler add max)).
  { intros Q handler add max P Hp Hq Hm Lq. destruct (def_prefix_ok P Q handler t m add max Hp Hq Hm) as (N & H). split; [exact N|]. intros tok e He. destruct (H _ _ He) as (H1 & H2). repeat split; [exact H1| |intros _; destruct H2; lia]. intros Nt. destruct H2 as [(_ & H2)|H2]; [contradiction|lia]. }
  assert (Ex : fine t (match handle_go u ualpha ualnum fu (skipn (m_end m) t) with Ok (t0, e) => Ok (t0, (Z.of_nat (m_end m) + e)%Z) | Raise => Raise | Spin => Spin end)).
  { destruct (IH (skipn (m_end m) t)) as (N & H); [rewrite skipn_length; lia|]. destruct (handle_go u ualpha ualnum fu (skipn (m_end m) t)) as [[tk en]| |]; [|split; [discriminate|intros; discriminate]|congruence].
    split; [discriminate|]. intros tok e He. injection He as <- <-. destruct (H _ _ eq_refl) as (H1 & H2 & H3). rewrite skipn_length in H1. repeat split; [lia|intros Nt; specialize (H2 Nt); lia|]. intros Nn. assert (Z0 : (0 <= en)%Z); [|lia]. apply H3. intros (p & q & E). apply Nn. exists (firstn (m_end m) t ++ p), q. rewrite <- app_assoc, <- E. symmetry. apply firstn_skipn. }
  destruct k; try (apply newcommand_fine; lia); try exact Ex; try (apply fine_nat; lia).
  - apply (D _ _ _ _ LET_PREFIX let_ends_bs let_tame); [rewrite <- (Kl eq_refl); exact M|cbn; lia].
  - unfold handle_paired. pose proof (blocks_fine t m 2 ltac:(lia)) as Bb. destruct (extract_nested_content_sequence_blocks _ _ _ _) as [bs e]. cbn [snd] in Bb. destruct bs as [|b1 [|b2 [|b3 bs]]]; apply fine_nat; lia.
  - unfold handle_alphabets. set (n := if str_eqb _ _ then 5 else 2). pose proof (blocks_fine t m n ltac:(lia)) as Bb. destruct (extract_nested_content_sequence_blocks _ _ _ _) as [bs e]. cbn [snd] in Bb. destruct bs as [|b1 bs]; apply fine_nat; lia.
  - apply (D _ _ _ _ DEF_PREFIX def_ends_bs def_tame); [rewrite <- (Kd eq_refl); exact M|cbn; lia].
  - pose proof M as M2. rewrite (Kn eq_refl) in M2. destruct (namedef_ok _ _ M2) as (N & H). split; [exact N|]. intros tok e He. destruct (H _ _ He) as (H1 & H2). split; [exact H1|]. split; [exact H2|]. intros Nn. destruct Nn. apply namedef_shape in M2 as (ws & name & q & -> & _). exists [], (ws ++ [c_lb] ++ name ++ [c_rb] ++ q). reflexivity.
  - apply fine_nat. pose proof (blocks_fine t m 9 ltac:(lia)). lia.
  - unfold handle_setlength. pose proof (nested_end_le (skipn (m_end m - 1) t)) as Ne. rewrite skipn_length in Ne. destruct (extract_nested_content _ _ _) as [d e]. cbn [snd] in Ne. apply named_fine. lia.
  - apply fine_nat. pose proof (nested_end_le (skipn (m_end m - 1) t)) as Ne. rewrite skipn_length in Ne. lia.
  - unfold handle_color. pose proof (blocks_fine t m 3 ltac:(lia)) as Bb. destruct (extract_nested_content_sequence_blocks _ _ _ _) as [bs e]. cbn [snd] in Bb. destruct bs as [|b1 [|b2 [|b3 [|b4 bs]]]]; apply fine_nat; lia.
Qed.
Lemma handle_ok : forall t, fine t (handle u ualpha ualnum t).
Proof. intros t. apply handle_fine. lia. Qed.
End Any.
