From Coq Require Import List NArith ZArith PeanoNat Lia Bool String.
From Verif Require Import PyStr Regex RegexLemmas RegexHead TexUtilsModel DelimSpec DelimProofs DelimFinal SubstModel SubstSpec CommandModel CommandSpec CommandProofs CommandProofs2 CommandProofs3 CommandProofs4.
Import ListNotations. Notation length := List.length. Notation concat := List.concat. Open Scope list_scope.

(** * Replacing the uses of one parameterless macro *)
Lemma replaces_skip : forall name body p q out, (forall p1 p2 r, p = p1 ++ p2 -> p2 <> [] -> ~ use_at name (p2 ++ q) r) -> replaces name body q out -> replaces name body (p ++ q) (p ++ out).
Proof.
  intros name body p q out H R. induction p as [|x p IH]; [exact R|]. cbn [List.app]. apply rp_chr.
  - intros r. apply (H [] (x :: p) r eq_refl). discriminate.
  - apply IH. intros p1 p2 r E N. apply (H (x :: p1) p2 r); [rewrite E; reflexivity|exact N].
Qed.
Lemma replaces_id : forall name body s, ~ uses name s -> replaces name body s s.
Proof.
  intros name body s H. rewrite <- (app_nil_r s) at 1 2. apply replaces_skip; [|constructor]. intros p1 p2 r -> N U. rewrite app_nil_r in U. apply H. exists p1, p2, r. auto.
Qed.
Lemma replaces_fun : forall name body s o1, replaces name body s o1 -> forall o2, replaces name body s o2 -> o1 = o2.
Proof.
  intros name body s o1 H. induction H as [|r out Hr H IH|x s out N H IH]; intros o2 H2.
  - inversion H2. reflexivity.
  - inversion H2 as [|r' out' Hr' R' E|x' s' out' N' R' E]; subst.
    + apply app_inv_head in E. subst r'. f_equal. apply IH. exact R'.
    + exfalso. apply (N' r). split; [|exact Hr]. reflexivity.
  - inversion H2 as [|r' out' Hr' R' E|x' s' out' N' R']; subst.
    + exfalso. apply (N r'). split; [|exact Hr']. reflexivity.
    + f_equal. apply IH. exact R'.
Qed.

Section Expand.
Variables (isalpha isalnum : ch -> bool) (ew : str -> bool).
Definition plain_entry (name body : str) : centry := {| ce_pat := usage_pattern name; ce_math := false; ce_kind := KNew (GPlain body) 0 [] |}.
Lemma first_use : forall name s, word name -> match re_search (usage_pattern name) s with
  | Some m => exists p q r, s = p ++ q /\ use_at name q r /\ m = {| m_start := length p; m_end := length p + S (length name); m_caps := [] |} /\ (forall p1 p2 r, p = p1 ++ p2 -> p2 <> [] -> ~ use_at name (p2 ++ q) r)
  | None => ~ uses name s end.
Proof.
  intros name s W. destruct (re_search (usage_pattern name) s) as [m|] eqn:E; [|apply uses_search; assumption].
  unfold re_search in E. apply re_search_some in E as (_ & B & R & M & F). set (i := m_start m) in *.
  destruct (usage_at name s i W ltac:(lia)) as [Y N]. destruct (use_dec name (skipn i s)) as [[r U]|X].
  - exists (firstn i s), (skipn i s), r. rewrite firstn_skipn. split; [reflexivity|]. split; [exact U|]. rewrite (Y r U) in M. rewrite firstn_length, Nat.min_l by lia. split; [congruence|].
    intros p1 p2 r' E N2 U2. assert (Es : s = p1 ++ (p2 ++ skipn i s)) by (rewrite app_assoc, <- E, firstn_skipn; reflexivity).
    assert (Lp : length p1 < i) by (assert (Q : length (firstn i s) = i) by (apply firstn_length_le; lia); rewrite E, app_length in Q; destruct p2; [congruence|cbn in Q; lia]).
    destruct (usage_at name s (length p1) W ltac:(lia)) as [Y2 _]. assert (Sk : skipn (length p1) s = p2 ++ skipn i s) by (rewrite Es at 1; rewrite skipn_app, skipn_all, Nat.sub_diag; reflexivity).
    rewrite Sk in Y2. specialize (Y2 r' U2). apply re_match_at_some in Y2; [|lia]. destruct Y2 as (_ & R2 & _). apply (F (length p1) _ ltac:(lia) R2).
  - rewrite (N X) in M. discriminate M.
Qed.
Lemma subst_loop_plain : forall name body, word name -> forall fuel done rest, length rest < fuel ->
  exists out, replaces name body rest out /\ subst_loop fuel (usage_pattern name) (expand_fn isalpha isalnum ew (plain_entry name body) false) (done ++ rest) (length done) = done ++ out.
Proof.
  intros name body W. induction fuel as [|f IH]; intros done rest Hf; [lia|]. cbn [subst_loop].
  rewrite skipn_app, skipn_all, Nat.sub_diag. cbn [skipn List.app]. pose proof (first_use name rest W) as FU. destruct (re_search (usage_pattern name) rest) as [m|].
  - destruct FU as (p & q & r & -> & [Eq Hr] & -> & F). assert (EF : forall t m, expand_fn isalpha isalnum ew (plain_entry name body) false t m = (body, m_end m)) by reflexivity. rewrite EF. cbn [m_start m_end].
    assert (E1 : firstn (length done + length p) (done ++ p ++ q) = done ++ p) by (rewrite app_assoc; apply firstn_app_exact; rewrite app_length; lia).
    assert (E2 : skipn (length done + (length p + S (length name))) (done ++ p ++ q) = r).
    { rewrite Eq. replace (done ++ p ++ [c_bs] ++ name ++ r) with ((done ++ p ++ [c_bs] ++ name) ++ r) by (rewrite <- !app_assoc; reflexivity). apply skipn_app_exact. rewrite !app_length. cbn. lia. }
    rewrite E1, E2. destruct (IH (done ++ p ++ body) r) as (out & R & E).
    { rewrite Eq, app_length in Hf. cbn [List.app length] in Hf. rewrite app_length in Hf. lia. }
    exists (p ++ body ++ out). split.
    + apply replaces_skip; [exact F|]. rewrite Eq. apply rp_use; assumption.
    + replace ((done ++ p) ++ body ++ r) with ((done ++ p ++ body) ++ r) by (rewrite <- !app_assoc; reflexivity).
      replace (length done + length p + length body) with (length (done ++ p ++ body)) by (rewrite !app_length; lia). rewrite E, <- !app_assoc. reflexivity.
  - exists rest. split; [apply replaces_id; exact FU|reflexivity].
Qed.
Definition table (ms : list (str * str)) : cdict := map (fun nb => (fst nb, plain_entry (fst nb) (snd nb))) ms.
Lemma pass_plain : forall ms text, (forall n b, In (n, b) ms -> word n) -> exists out, replaces_all ms text out /\ substitute_patterns isalpha isalnum ew (table ms) false text = out.
Proof.
  induction ms as [|[n b] ms IH]; intros text W; [exists text; split; [constructor|reflexivity]|].
  destruct (subst_loop_plain n b (W n b (or_introl eq_refl)) (S (length text)) [] text ltac:(lia)) as (s1 & R & E). cbn [List.app length] in E.
  destruct (IH s1 (fun a c H => W a c (or_intror H))) as (out & R2 & E2). exists out. split; [econstructor; eassumption|].
  unfold substitute_patterns, table in *. cbn [map fold_left fst snd]. change (ce_pat (plain_entry n b)) with (usage_pattern n).
  etransitivity; [|exact E2]. f_equal. exact E.
Qed.
Lemma replaces_all_fun : forall ms s o1 o2, replaces_all ms s o1 -> replaces_all ms s o2 -> o1 = o2.
Proof.
  induction ms as [|[n b] ms IH]; intros s o1 o2 H1 H2; inversion H1; inversion H2; subst; [congruence|].
  assert (s1 = s3) by (eapply replaces_fun; eassumption). subst. eapply IH; eassumption.
Qed.
Lemma replaces_all_id : forall ms s, (forall n b, In (n, b) ms -> ~ uses n s) -> replaces_all ms s s.
Proof. induction ms as [|[n b] ms IH]; intros s H; [constructor|]. econstructor; [apply replaces_id, (H n b); left; reflexivity|]. apply IH. intros a c Hin. apply (H a c). right. exact Hin. Qed.
Theorem expand_plain : forall ms text out, (forall n b, In (n, b) ms -> word n) -> replaces_all ms text out -> (forall n b, In (n, b) ms -> ~ uses n out) ->
  expand_commands isalpha isalnum ew {| c_cmds := table ms; c_lets := [] |} text false = Some out.
Proof.
  intros ms text out W R N. unfold expand_commands. cbn [c_cmds c_lets].
  assert (Fl : filter (fun kv => negb (ce_math (snd kv))) (table ms) = table ms). { clear. induction ms as [|nb ms IH]; [reflexivity|]. unfold table in *. cbn [map filter snd]. change (ce_math (plain_entry (fst nb) (snd nb))) with false. cbn [negb]. rewrite IH. reflexivity. }
  rewrite Fl. destruct (pass_plain ms text W) as (o1 & R1 & E1). assert (o1 = out) by (eapply replaces_all_fun; eassumption). subst o1.
  destruct (pass_plain ms out W) as (o2 & R2 & E2). assert (o2 = out) by (eapply replaces_all_fun; [eassumption|apply replaces_all_id; exact N]). subst o2.
  assert (St : forall n es t, expand_loop isalpha isalnum ew (S n) es false t = (if str_eqb (substitute_patterns isalpha isalnum ew es false t) t then Some (substitute_patterns isalpha isalnum ew es false t) else expand_loop isalpha isalnum ew n es false (substitute_patterns isalpha isalnum ew es false t))) by reflexivity.
  assert (L : forall k, expand_loop isalpha isalnum ew (S (S k)) (table ms) false text = Some out).
  { intros k. rewrite !St, H. destruct (str_eqb out text) eqn:E; [reflexivity|]. rewrite H0, str_eqb_refl. reflexivity. }
  assert (L2 : forall k, expand_loop isalpha isalnum ew (S k) [] false out = Some out).
  { intros k. rewrite St. unfold substitute_patterns. cbn [fold_left]. rewrite str_eqb_refl. reflexivity. }
  assert (D : exists k, max_depth = S (S k)) by (exists 998; reflexivity). destruct D as (k & D). rewrite D. rewrite L. apply L2.
Qed.
End Expand.
