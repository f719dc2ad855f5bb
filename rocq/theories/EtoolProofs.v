From Coq Require Import List NArith ZArith PeanoNat Lia Bool String.
From Verif Require Import PyStr Regex RegexLemmas RegexHead Json TexUtilsModel DelimSpec DelimProofs DelimFinal EtoolModel EtoolSpec.
Import ListNotations. Notation length := List.length. Notation concat := List.concat. Open Scope list_scope.

(** * The argument pattern *)
Definition arg_at (t : str) (i : nat) (arg rest : str) : Prop :=
  exists ws, skipn i t = ws ++ [c_lb] ++ arg ++ [c_rb] ++ rest /\ blank ws /\ ~ In c_rb arg.
Lemma notin_forallb : forall (x : ch) s, ~ In x s <-> forallb (fun y => negb (N.eqb y x)) s = true.
Proof.
  intros x s. rewrite forallb_forall. split.
  - intros H y Hy. apply negb_true_iff, N.eqb_neq. intros ->. contradiction.
  - intros H Hx. specialize (H x Hx). rewrite N.eqb_refl in H. discriminate H.
Qed.
Lemma fm_brace_arg : forall t i c ws arg rest, skipn i t = ws ++ [c_lb] ++ arg ++ [c_rb] ++ rest -> blank ws -> ~ In c_rb arg ->
  first_match (rseq brace_arg) t i c (i + length ws + 1 + length arg + 1) ((1, (i + length ws + 1, i + length ws + 1 + length arg)) :: c).
Proof.
  intros t i c ws arg rest E Hw Ha. unfold brace_arg. cbn [rseq].
  pose proof (skipn_more t i _ _ E) as E1. cbn [app] in E1. pose proof (skipn_more1 t _ _ _ E1) as E2. pose proof (skipn_more t _ arg _ E2) as E3. cbn [app] in E3.
  eapply fm_seq; [eapply fm_star; [exact E|exact Hw|reflexivity]|].
  eapply fm_seq; [eapply fm_is_ch; exact E1|].
  replace (i + length ws + 1) with (S (i + length ws)) by lia.
  eapply fm_seq.
  - apply fm_grp. eapply fm_star; [exact E2|apply notin_forallb; exact Ha|reflexivity].
  - replace (S (i + length ws) + length arg + 1) with (S (S (i + length ws) + length arg)) by lia. eapply fm_is_ch. exact E3.
Qed.
Lemma rel_brace_arg : forall t i j, rel (rseq brace_arg) t i j -> exists arg rest, arg_at t i arg rest.
Proof.
  intros t i j H. unfold brace_arg in H. cbn [rseq] in H. apply rel_rseq2 in H as (k1 & H1 & H). apply rel_star_chr in H1 as (ws & r1 & E1 & Hw & ->).
  apply rel_rseq2 in H as (k2 & H2 & H). apply rel_is_ch in H2 as (-> & r2 & E2). apply rel_rseq2 in H as (k3 & H3 & H). apply rel_grp1 in H3.
  apply rel_star_chr in H3 as (arg & r3 & E3 & Ha & ->). apply rel_is_ch in H as (-> & r4 & E4).
  exists arg, r4, ws. pose proof (skipn_more t i _ _ E1) as F1. rewrite E2 in F1. subst r1.
  pose proof (skipn_more1 t _ _ _ E2) as F2. rewrite E3 in F2. subst r2. pose proof (skipn_more t _ _ _ E3) as F3. rewrite E4 in F3. subst r3.
  split; [exact E1|]. split; [exact Hw|apply notin_forallb; exact Ha].
Qed.
Lemma slice_mid : forall (a b c : str), slice (length a) (length a + length b) (a ++ b ++ c) = b.
Proof. intros a b c. unfold slice. rewrite skipn_app, skipn_all, Nat.sub_diag. cbn [skipn app]. replace (length a + length b - length a) with (length b) by lia. rewrite firstn_app, Nat.sub_diag, firstn_all. cbn. apply app_nil_r. Qed.

Lemma rm_alt_rstr_none : forall a b t i c, startswith (skipn i t) a = false -> startswith (skipn i t) b = false -> rm (RAlt (rstr a) (rstr b)) t i c = [].
Proof. intros a b t i c Ha Hb. cbn [rm]. rewrite !rm_rstr, Ha, Hb. reflexivity. Qed.
(** ** the pattern of a command *)
Definition cmd_arg (name : str) (t arg rest : str) (ws : str) : Prop :=
  t = name ++ ws ++ [c_lb] ++ arg ++ [c_rb] ++ rest /\ blank ws /\ ~ In c_rb arg.
Lemma seq_brace : forall r, rseq (r :: brace_arg) = RSeq r (rseq brace_arg).
Proof. reflexivity. Qed.
Lemma ebool_match : forall name t arg rest ws, cmd_arg name t arg rest ws ->
  exists m, re_match_at (ebool_pattern name) t 0 = Some m /\ group1 t m = arg /\ skipn (m_end m) t = rest.
Proof.
  intros name t arg rest ws (-> & Hw & Ha). unfold ebool_pattern. rewrite seq_brace.
  eexists. split; [|split].
  - apply fm_match. eapply fm_seq; [apply (fm_rstr name _ 0 [] (ws ++ [c_lb] ++ arg ++ [c_rb] ++ rest)); reflexivity|].
    cbn [Nat.add]. apply fm_brace_arg with (rest := rest); [|exact Hw|exact Ha]. rewrite skipn_app, skipn_all, Nat.sub_diag. reflexivity.
  - unfold group1, m_group. cbn [m_caps cap_get Nat.eqb option_map].
    replace (length name + length ws + 1) with (length (name ++ ws ++ [c_lb])) by (rewrite !app_length; cbn; lia).
    replace (name ++ ws ++ [c_lb] ++ arg ++ [c_rb] ++ rest) with ((name ++ ws ++ [c_lb]) ++ arg ++ ([c_rb] ++ rest)) by (rewrite <- !app_assoc; reflexivity).
    apply slice_mid.
  - cbn [m_end]. replace (name ++ ws ++ [c_lb] ++ arg ++ [c_rb] ++ rest) with ((name ++ ws ++ [c_lb] ++ arg ++ [c_rb]) ++ rest) by (rewrite <- !app_assoc; reflexivity).
    replace (length name + length ws + 1 + length arg + 1) with (length (name ++ ws ++ [c_lb] ++ arg ++ [c_rb])) by (rewrite !app_length; cbn; lia).
    rewrite skipn_app, skipn_all, Nat.sub_diag. reflexivity.
Qed.
Lemma ebool_some : forall name t m, re_match_at (ebool_pattern name) t 0 = Some m ->
  exists arg rest ws, cmd_arg name t arg rest ws /\ group1 t m = arg /\ skipn (m_end m) t = rest.
Proof.
  intros name t m H.
  assert (R : exists j, rel (ebool_pattern name) t 0 j).
  { unfold re_match_at in H. destruct (rm _ t 0 []) as [|[j c] l] eqn:E; [discriminate H|]. exists j. eapply rm_sound; [lia|]. rewrite E. left. reflexivity. }
  destruct R as (j & R). unfold ebool_pattern in R. rewrite seq_brace in R. apply rel_rseq2 in R as (k & R1 & R2). apply rel_rstr in R1 as (-> & r & E).
  apply rel_brace_arg in R2 as (arg & rest & ws & E2 & Hw & Ha). cbn [skipn] in E. subst t. cbn [Nat.add] in E2. rewrite skipn_app, skipn_all, Nat.sub_diag in E2. cbn [skipn app] in E2. subst r.
  assert (C : cmd_arg name (name ++ ws ++ c_lb :: arg ++ c_rb :: rest) arg rest ws) by (split; [reflexivity|split; assumption]).
  exists arg, rest, ws. split; [exact C|]. destruct (ebool_match _ _ _ _ _ C) as (m' & Hm & G1 & G2). rewrite H in Hm. injection Hm as <-. auto.
Qed.
Lemma ebool_none : forall name t, startswith t name = false -> re_match_at (ebool_pattern name) t 0 = None.
Proof.
  intros name t H. unfold re_match_at, ebool_pattern. rewrite seq_brace. cbn [rm]. rewrite rm_rstr. cbn [skipn]. rewrite H. reflexivity.
Qed.
Lemma ifnot_none : forall t, startswith t (lit "\ifbool") = false -> startswith t (lit "\notbool") = false -> re_match_at ifnotbool_pattern t 0 = None.
Proof.
  intros t H1 H2. unfold re_match_at, ifnotbool_pattern. rewrite seq_brace.
  rewrite rm_seq_none; [reflexivity|]. apply rm_alt_rstr_none; assumption.
Qed.
Lemma command_arg_cmd : forall name t arg rest, command_arg name t arg rest <-> exists ws, cmd_arg (lit name) t arg rest ws.
Proof. intros. unfold command_arg, cmd_arg. reflexivity. Qed.

(** * true *)
Lemma lower_letter : forall l a, (97 <= l <= 122)%N -> (lower_ascii a = l <-> l = a \/ (l - 32)%N = a \/ False).
Proof.
  intros l a Hl. unfold lower_ascii. destruct (in_range 65 90 a) eqn:E; unfold in_range in E.
  - apply andb_prop in E as [E1 E2]. apply N.leb_le in E1, E2. split; [intros H; right; left; lia|intros [H|[H|[]]]; lia].
  - apply andb_false_iff in E. split; [intros ->; left; reflexivity|intros [H|[H|[]]]; [congruence|]].
    destruct E as [E|E]; apply N.leb_gt in E; lia.
Qed.
Lemma is_true_word_spec : forall s, is_true_word s = true <-> true_word s.
Proof.
  pose proof (fun a => lower_letter 116 a ltac:(lia)) as L. pose proof (fun a => lower_letter 114 a ltac:(lia)) as R.
  pose proof (fun a => lower_letter 117 a ltac:(lia)) as U. pose proof (fun a => lower_letter 101 a ltac:(lia)) as X.
  intros s. unfold is_true_word. rewrite str_eqb_spec. change (lit "true") with [116%N; 114%N; 117%N; 101%N]. split.
  - intros H. destruct s as [|a [|b [|c [|d [|e s]]]]]; try discriminate H. cbn [map] in H. injection H as Ha Hb Hc Hd.
    exists a, b, c, d. split; [reflexivity|]. apply L in Ha. apply R in Hb. apply U in Hc. apply X in Hd. auto.
  - intros (a & b & c & d & -> & Ha & Hb & Hc & Hd). cbn [map]. apply L in Ha. apply R in Hb. apply U in Hc. apply X in Hd. rewrite Ha, Hb, Hc, Hd. reflexivity.
Qed.

(** * One command *)
Lemma one_block : forall t b n, group_at c_lb c_rb t b n -> exists e, extract_nested_content_sequence_blocks t c_lb c_rb (Some 1) = ([b], e).
Proof.
  intros t b n G. destruct (c03_blocks c_lb c_rb t (Some 1) delims_curly) as (bs & p & E & Hg & Hl & Hs).
  destruct bs as [|b0 [|b1 bs]]; cbn [length] in *; [| |lia].
  - exfalso. inversion Hg; subst. apply (Hs ltac:(lia) b n). exact G.
  - inversion Hg as [|? ? n0 ? m0 G0 Hr]; subst. destruct (group_at_fun c_lb c_rb t b n b0 n0 delims_curly G G0) as [-> _]. eexists. exact E.
Qed.
Lemma no_block : forall t, (forall b n, ~ group_at c_lb c_rb t b n) -> exists e, extract_nested_content_sequence_blocks t c_lb c_rb (Some 1) = ([], e).
Proof.
  intros t G. destruct (c03_blocks c_lb c_rb t (Some 1) delims_curly) as (bs & p & E & Hg & Hl & Hs).
  destruct bs as [|b0 bs]; [exists p; exact E|]. exfalso. inversion Hg; subst. eapply G. eassumption.
Qed.

Definition step (e : option (str * bcmd)) (d : bools) : bools :=
  match e with
  | None => d
  | Some (n, BNew) => bset n false d
  | Some (n, BProvide) => match blookup n d with None => bset n false d | Some _ => d end
  | Some (n, BSet v) => assign n v d
  end.
Ltac starts := cbn; reflexivity.

Lemma says_step : forall t n c d, says t n c -> fst (etool_handle d t) = step (Some (n, c)) d.
Proof.
  intros t n c d H. unfold etool_handle.
  destruct H as [rest H|rest H|rest H|rest H|rest b k H G Tb|rest b k H G Tb]; apply command_arg_cmd in H as (ws & H);
    destruct (ebool_match _ _ _ _ _ H) as (m & Hm & G1 & G2); destruct H as (Et & Hw & Ha); subst t.
  all: rewrite ifnot_none by reflexivity; repeat rewrite (ebool_none (lit "\newbool")) by reflexivity; repeat rewrite (ebool_none (lit "\providebool")) by reflexivity;
    repeat rewrite (ebool_none (lit "\setbool")) by reflexivity; repeat rewrite (ebool_none (lit "\booltrue")) by reflexivity; rewrite Hm.
  - unfold handle_newbool. rewrite G1. reflexivity.
  - unfold handle_providebool. rewrite G1. reflexivity.
  - unfold handle_bool_value. rewrite G1. reflexivity.
  - unfold handle_bool_value. rewrite G1. reflexivity.
  - unfold handle_setbool. rewrite G1, G2. destruct (one_block _ _ _ G) as (e & ->). apply is_true_word_spec in Tb. rewrite Tb. reflexivity.
  - unfold handle_setbool. rewrite G1, G2. destruct (one_block _ _ _ G) as (e & ->).
    replace (is_true_word b) with false by (symmetry; apply not_true_iff_false; rewrite is_true_word_spec; exact Tb). reflexivity.
Qed.
Lemma silent_step : forall t d, (forall n c, ~ says t n c) -> fst (etool_handle d t) = d.
Proof.
  intros t d H. unfold etool_handle. destruct (re_match_at ifnotbool_pattern t 0); [reflexivity|].
  destruct (re_match_at (ebool_pattern (lit "\newbool")) t 0) as [m|] eqn:E.
  { apply ebool_some in E as (arg & rest & ws & C & _). exfalso. apply (H arg BNew). apply (says_new t arg rest). exists ws. exact C. }
  clear E. destruct (re_match_at (ebool_pattern (lit "\providebool")) t 0) as [m|] eqn:E.
  { apply ebool_some in E as (arg & rest & ws & C & _). exfalso. apply (H arg BProvide). apply (says_provide t arg rest). exists ws. exact C. }
  clear E. destruct (re_match_at (ebool_pattern (lit "\setbool")) t 0) as [m|] eqn:E.
  { apply ebool_some in E as (arg & rest & ws & C & G1 & G2). unfold handle_setbool. rewrite G2.
    destruct (no_block rest) as (e & ->); [|reflexivity]. intros b k G. destruct (is_true_word b) eqn:T.
    - apply is_true_word_spec in T. apply (H arg (BSet true)). apply (says_set_true t arg rest b k); [exists ws; exact C|exact G|exact T].
    - apply (H arg (BSet false)). apply (says_set_false t arg rest b k); [exists ws; exact C|exact G|]. rewrite <- is_true_word_spec, T. discriminate. }
  clear E. destruct (re_match_at (ebool_pattern (lit "\booltrue")) t 0) as [m|] eqn:E.
  { apply ebool_some in E as (arg & rest & ws & C & _). exfalso. apply (H arg (BSet true)). apply (says_true t arg rest). exists ws. exact C. }
  clear E. destruct (re_match_at (ebool_pattern (lit "\boolfalse")) t 0) as [m|] eqn:E; [|reflexivity].
  apply ebool_some in E as (arg & rest & ws & C & _). exfalso. apply (H arg (BSet false)). apply (says_false t arg rest). exists ws. exact C.
Qed.
Lemma event_step : forall t e d, event t e -> fst (etool_handle d t) = step e d.
Proof. intros t [[n c]|] d H; [apply says_step; exact H|apply silent_step; exact H]. Qed.
Lemma run_steps : forall contents h d, Forall2 event contents h -> etool_run contents d = fold_left (fun d e => step e d) h d.
Proof.
  intros contents h d H. revert d. induction H as [|t e contents h Ht H IH]; intros d; [reflexivity|]. unfold etool_run in *. cbn [fold_left]. rewrite (event_step t e d Ht). apply IH.
Qed.

(** * The recorded value *)
Lemma blookup_bset_same : forall k v d, blookup k (bset k v d) = Some v.
Proof. induction d as [|[k' w] d IH]; cbn; [rewrite str_eqb_refl; reflexivity|]. destruct (str_eqb k k') eqn:E; cbn; rewrite E; [reflexivity|exact IH]. Qed.
Lemma blookup_bset_other : forall k k' v d, k <> k' -> blookup k (bset k' v d) = blookup k d.
Proof.
  intros k k' v d H. induction d as [|[k0 w] d IH]; cbn; [rewrite str_eqb_neq by exact H; reflexivity|].
  destruct (str_eqb k' k0) eqn:E; cbn; [|rewrite IH; reflexivity]. apply str_eqb_spec in E. subst. rewrite str_eqb_neq by exact H. reflexivity.
Qed.
(** what one event does to one name *)
Lemma step_value : forall e d n, blookup n (step e d) = match e with
  | Some (k, c) => if str_eqb k n then match c with
        | BNew => Some false
        | BProvide => match blookup n d with None => Some false | Some v => Some v end
        | BSet v => match blookup n d with None => None | Some _ => Some v end end else blookup n d
  | None => blookup n d end.
Proof.
  intros [[k c]|] d n; [|reflexivity]. destruct (str_eqb k n) eqn:E.
  - apply str_eqb_spec in E. subst k. destruct c as [| |v]; cbn [step].
    + apply blookup_bset_same.
    + destruct (blookup n d) eqn:F; [exact F|apply blookup_bset_same].
    + unfold assign. destruct (blookup n d) eqn:F; [apply blookup_bset_same|exact F].
  - assert (N : n <> k) by (intros ->; rewrite str_eqb_refl in E; discriminate E). destruct c as [| |v]; cbn [step].
    + apply blookup_bset_other. exact N.
    + destruct (blookup k d); [reflexivity|apply blookup_bset_other; exact N].
    + unfold assign. destruct (blookup k d); [apply blookup_bset_other; exact N|reflexivity].
Qed.
Definition runh (h : history) : bools := fold_left (fun d e => step e d) h [].
Lemma runh_snoc : forall h e, runh (h ++ [e]) = step e (runh h).
Proof. intros h e. unfold runh. rewrite fold_left_app. reflexivity. Qed.
Lemma quiet_snoc : forall h n e, quiet h n -> e <> Some (n, BNew) -> (forall v, e <> Some (n, BSet v)) -> quiet (h ++ [e]) n.
Proof.
  intros h n e [Q1 Q2] H1 H2. split; [|intros v]; intros H; apply in_app_or in H as [H|[H|[]]]; [contradiction|congruence|exact (Q2 v H)|exact (H2 v H)].
Qed.
Lemma has_value_snoc : forall h n v e, has_value h n v -> e <> Some (n, BNew) -> (forall v, e <> Some (n, BSet v)) -> has_value (h ++ [e]) n v.
Proof.
  intros h n v e H H1 H2. destruct H as [h1 h2 -> Q|h1 h2 -> D Q|h1 h2 v -> D Q].
  - apply (hv_new _ n h1 (h2 ++ [e])); [rewrite <- app_assoc; reflexivity|apply quiet_snoc; assumption].
  - apply (hv_first_provide _ n h1 (h2 ++ [e])); [rewrite <- app_assoc; reflexivity|exact D|apply quiet_snoc; assumption].
  - apply (hv_set _ n h1 (h2 ++ [e])); [rewrite <- app_assoc; reflexivity|exact D|apply quiet_snoc; assumption].
Qed.
Lemma defines_app : forall h g n, defines (h ++ g) n <-> defines h n \/ defines g n.
Proof. intros h g n. unfold defines. rewrite !in_app_iff. tauto. Qed.
Lemma quiet_nil : forall n, quiet [] n.
Proof. intros n. split; [|intros v]; intros []. Qed.
Lemma value_holds : forall h n, match blookup n (runh h) with Some v => has_value h n v /\ defines h n | None => ~ defines h n end.
Proof.
  intros h n. induction h as [|e h IH] using rev_ind; [intros [[]|[]]|]. rewrite runh_snoc, step_value.
  assert (Other : e <> Some (n, BNew) -> e <> Some (n, BProvide) -> (forall v, e <> Some (n, BSet v)) ->
     match blookup n (runh h) with Some v => has_value (h ++ [e]) n v /\ defines (h ++ [e]) n | None => ~ defines (h ++ [e]) n end).
  { intros H1 H2 H3. destruct (blookup n (runh h)) as [v|].
    - destruct IH as [IH1 IH2]. split; [apply has_value_snoc; assumption|apply defines_app; left; exact IH2].
    - intros D. apply defines_app in D as [D|[[D|[]]|[D|[]]]]; [contradiction|congruence|congruence]. }
  destruct e as [[k c]|]; [|apply Other; discriminate].
  destruct (str_eqb k n) eqn:E.
  2:{ assert (N : k <> n) by (intros ->; rewrite str_eqb_refl in E; discriminate E). apply Other; congruence. }
  apply str_eqb_spec in E. subst k. destruct c as [| |v].
  - split; [apply (hv_new _ n h []); [reflexivity|apply quiet_nil]|]. apply defines_app. right. left. left. reflexivity.
  - destruct (blookup n (runh h)) as [v|].
    + destruct IH as [IH1 IH2]. split; [apply has_value_snoc; [exact IH1|discriminate|discriminate]|apply defines_app; left; exact IH2].
    + split; [apply (hv_first_provide _ n h []); [reflexivity|exact IH|apply quiet_nil]|]. apply defines_app. right. right. left. reflexivity.
  - destruct (blookup n (runh h)) as [w|].
    + destruct IH as [IH1 IH2]. split; [apply (hv_set _ n h [] v); [reflexivity|exact IH2|apply quiet_nil]|apply defines_app; left; exact IH2].
    + intros D. apply defines_app in D as [D|[[D|[]]|[D|[]]]]; [contradiction|discriminate D|discriminate D].
Qed.
Lemma quiet_keeps : forall h n v d, quiet h n -> blookup n d = Some v -> blookup n (fold_left (fun d e => step e d) h d) = Some v.
Proof.
  induction h as [|e h IH]; intros n v d [Q1 Q2] H; [exact H|]. cbn [fold_left]. apply IH.
  - split; [|intros w]; intros X; [apply Q1; right; exact X|apply (Q2 w); right; exact X].
  - rewrite step_value. destruct e as [[k c]|]; [|exact H]. destruct (str_eqb k n) eqn:E; [|exact H]. apply str_eqb_spec in E. subst k.
    destruct c as [| |w]; [exfalso; apply Q1; left; reflexivity|rewrite H; reflexivity|exfalso; apply (Q2 w); left; reflexivity].
Qed.
Lemma has_value_found : forall h n v, has_value h n v -> blookup n (runh h) = Some v.
Proof.
  assert (S : forall h1 e h2, runh (h1 ++ e :: h2) = fold_left (fun d e => step e d) h2 (step e (runh h1))) by (intros h1 e h2; unfold runh; rewrite fold_left_app; reflexivity).
  intros h n v [h1 h2 -> Q|h1 h2 -> D Q|h1 h2 v' -> D Q]; rewrite S; apply quiet_keeps; try exact Q; rewrite step_value, str_eqb_refl; pose proof (value_holds h1 n) as V; destruct (blookup n (runh h1)); auto; try contradiction.
  destruct V as [_ V]. contradiction.
Qed.
Theorem booleans : forall contents h n, Forall2 event contents h ->
  (forall v, blookup n (etool_run contents []) = Some v <-> has_value h n v) /\
  (blookup n (etool_run contents []) = None <-> ~ defines h n).
Proof.
  intros contents h n H. rewrite (run_steps contents h [] H). fold (runh h). split; [intros v|]; split.
  - intros E. pose proof (value_holds h n) as V. rewrite E in V. apply V.
  - apply has_value_found.
  - intros E. pose proof (value_holds h n) as V. rewrite E in V. exact V.
  - intros D. pose proof (value_holds h n) as V. destruct (blookup n (runh h)); [|reflexivity]. destruct V as [_ V]. contradiction.
Qed.
