(** C86: proofs for the style commands. *)
From Coq Require Import List NArith PeanoNat Lia Bool String.
From Verif Require Import PyStr Regex RegexLemmas RegexHead Json TexUtilsModel DelimSpec DelimProofs TextModel TextProofs BuilderModel ContentModel CommandModel CommandProofs2 BoxModel StyleModel StyleSpec StyleProofs ParseReadProofs3.
Import ListNotations. Notation length := List.length. Notation concat := List.concat. Open Scope list_scope.

Definition style_names : list str := map fst FRONTEND_STYLE_MAPPING.
Lemma same_table : forall name style, In (name, style) style_commands ->
  In name style_names /\ match find (fun kv => str_eqb (fst kv) name) FRONTEND_STYLE_MAPPING with Some (_, Some s) => [VStr s] | _ => [] end = map VStr (opt_list style).
Proof.
  intros name style H. unfold style_commands in H. cbn [In] in H.
  repeat (destruct H as [H|H]; [injection H as <- <-; split; [unfold style_names; cbn [map fst FRONTEND_STYLE_MAPPING In]; tauto|vm_compute; reflexivity]|]). destruct H.
Qed.
Lemma names_cont : continued style_names. Proof. apply continuedb_ok. vm_compute. reflexivity. Qed.
Fixpoint nodupb (l : list str) : bool := match l with [] => true | x :: r => negb (existsb (str_eqb x) r) && nodupb r end.
Lemma nodupb_ok : forall l, nodupb l = true -> NoDup l.
Proof.
  induction l as [|x l IH]; intros H; [constructor|]. cbn in H. apply andb_prop in H as [H1 H2]. constructor; [|apply IH; exact H2].
  intros I. apply Bool.negb_true_iff in H1. assert (X : existsb (str_eqb x) l = true) by (apply existsb_exists; exists x; split; [exact I|apply str_eqb_refl]). congruence.
Qed.
Lemma names_nodup : NoDup style_names. Proof. apply nodupb_ok. vm_compute. reflexivity. Qed.

Definition exp_word : str := lit "\expandafter".
(** what the pattern finds after the name *)
Lemma style_match : forall name rest pre r2 j c2, In name style_names -> In pre [[]; exp_word] -> next_letter (pre ++ rest) = false -> (pre = [] -> startswith rest exp_word = false) ->
  let t := [c_bs] ++ name ++ pre ++ rest in let p := 1 + length name + length pre in
  r2 = ropt (RGrp 2 (RAlt (RSeq (rstar rspace) (RGrp 3 (is_ch c_lb))) (rstar rany))) ->
  first_match r2 t p [(1, (1, 1 + length name))] j c2 ->
  re_match_at TEXT_PATTERN t 0 = Some {| m_start := 0; m_end := j; m_caps := c2 |}.
Proof.
  intros name rest pre r2 j c2 I Ip Hl He t p Er H. apply fm_match. unfold TEXT_PATTERN. rewrite <- Er.
  eapply fm_seq; [apply (fm_is_ch c_bs t 0 [] (name ++ pre ++ rest)); reflexivity|].
  assert (E1 : skipn 1 t = name ++ pre ++ rest) by reflexivity.
  assert (Hi : 1 <= length t) by (unfold t; cbn; lia).
  assert (Hit := names_hit 1 style_names (RSeq (ropt (nm "\expandafter")) r2) t 1 [] name (pre ++ rest) names_cont names_nodup I Hi E1 Hl).
  assert (G : first_match (RSeq (ropt (nm "\expandafter")) r2) t (1 + length name) [(1, (1, 1 + length name))] j c2).
  { assert (E2 : skipn (1 + length name) t = pre ++ rest) by exact (skipn_more t 1 name _ E1).
    destruct Ip as [<-|[<-|[]]].
    - eapply fm_seq; [|unfold p in H; cbn [length] in H; rewrite Nat.add_0_r in H; exact H]. apply fm_alt_right; [|apply fm_eps]. unfold nm. rewrite rm_rstr. unfold str in *. rewrite E2. cbn [List.app].
      pose proof (He eq_refl) as He'. unfold exp_word, str in He'. rewrite He'. reflexivity.
    - eapply fm_seq; [|exact H]. apply fm_alt_left. exact (fm_rstr exp_word t (1 + length name) _ rest E2). }
  destruct G as (l & G). exists l. rewrite <- G. unfold style_names in Hit. rewrite map_map in Hit. exact Hit.
Qed.

(** * Styles *)
Lemma styles_of_has : forall d old, has_styles d old -> styles_of d = Ok (map VStr old).
Proof. intros d old [H|[H ->]]; unfold styles_of, k_styles; rewrite H; reflexivity. Qed.
Lemma filter_strs : forall x l, filter (fun y => negb (val_eqb y (VStr x))) (map VStr l) = map VStr (filter (fun y => negb (str_eqb y x)) l).
Proof. intros x l. induction l as [|y l IH]; [reflexivity|]. cbn [map filter val_eqb]. destruct (str_eqb y x); cbn [negb map]; rewrite IH; reflexivity. Qed.
Fixpoint dedupe_str (l : list str) : list str := match l with [] => [] | x :: r => x :: filter (fun y => negb (str_eqb y x)) (dedupe_str r) end.
Lemma dedupe_strs : forall l, dedupe (map VStr l) = map VStr (dedupe_str l).
Proof. induction l as [|x l IH]; [reflexivity|]. cbn [map dedupe dedupe_str]. rewrite IH, filter_strs. reflexivity. Qed.
Definition outside (seen : list str) (y : str) : bool := negb (existsb (str_eqb y) seen).
Lemma outside_in : forall seen y, outside seen y = true <-> ~ In y seen.
Proof.
  intros seen y. unfold outside. rewrite Bool.negb_true_iff. split.
  - intros H I. assert (X : existsb (str_eqb y) seen = true) by (apply existsb_exists; exists y; split; [exact I|apply str_eqb_refl]). congruence.
  - intros H. destruct (existsb (str_eqb y) seen) eqn:E; [|reflexivity]. apply existsb_exists in E as (x & I & E). apply str_eqb_spec in E as ->. contradiction.
Qed.
Lemma filter_filter : forall {A} (f g : A -> bool) l, filter f (filter g l) = filter (fun x => g x && f x) l.
Proof. intros A f g l. induction l as [|x l IH]; [reflexivity|]. cbn. destruct (g x); cbn; [destruct (f x)|]; rewrite IH; reflexivity. Qed.
Lemma firsts_dedupe : forall seen l o, firsts seen l o -> o = filter (outside seen) (dedupe_str l).
Proof.
  intros seen l o H. induction H as [seen|seen x l o I H IH|seen x l o N H IH]; [reflexivity| |].
  - cbn [dedupe_str filter]. assert (X : outside seen x = false). { destruct (outside seen x) eqn:E; [|reflexivity]. apply outside_in in E. contradiction. }
    rewrite X, IH, filter_filter. apply filter_ext. intros y. destruct (str_eqb y x) eqn:E; [|reflexivity]. apply str_eqb_spec in E as ->. rewrite X. reflexivity.
  - cbn [dedupe_str filter]. apply outside_in in N. rewrite N. f_equal. rewrite IH, filter_filter. apply filter_ext. intros y. unfold outside. cbn [existsb].
    destruct (str_eqb y x); reflexivity.
Qed.
Lemma firsts_total : forall l seen, exists o, firsts seen l o.
Proof.
  induction l as [|x l IH]; intros seen; [exists []; constructor|]. destruct (outside seen x) eqn:E.
  - apply outside_in in E. destruct (IH (x :: seen)) as [o H]. exists (x :: o). constructor; assumption.
  - destruct (IH seen) as [o H]. exists o. apply fi_old; [|exact H]. destruct (in_dec (list_eq_dec N.eq_dec) x seen) as [I|I]; [exact I|]. apply outside_in in I. congruence.
Qed.
Lemma firsts_ok : forall l o, firsts [] l o -> dedupe (map VStr l) = map VStr o.
Proof.
  intros l o H. apply firsts_dedupe in H. rewrite dedupe_strs, H. f_equal. symmetry. erewrite filter_ext; [|intros y; reflexivity].
  clear. induction (dedupe_str l) as [|x r IH]; [reflexivity|]. cbn. f_equal. exact IH.
Qed.
Lemma with_styles_ok : forall s toks outs, Forall2 (fun t o => exists d old, t = VDict d /\ has_styles d old /\ o = styled_with (s :: old) d) toks outs ->
  with_styles [VStr s] toks = Ok outs.
Proof.
  intros s toks outs H. induction H as [|t o toks outs (d & old & -> & Hs & ->) F IH]; [reflexivity|]. cbn [with_styles bind].
  rewrite (styles_of_has d old Hs). cbn [bind]. rewrite IH. reflexivity.
Qed.
(** the end of _handle_styled *)
Definition finish (style : list val) (inner : list val) (total_pos : nat) : res (val * nat) :=
    match inner with
    | [VDict d] => do old <- styles_of d; Ok (VDict (set k_styles (VList (dedupe (style ++ old))) d), total_pos)
    | [] => Ok (VNone, total_pos)
    | _ => match style with
           | [] => Ok (VList inner, total_pos)
           | _ => do l <- with_styles style inner; Ok (VList l, total_pos)
           end
    end.
Lemma finish_styled : forall style toks out n, styled style toks out -> finish (map VStr (opt_list style)) toks n = Ok (out, n).
Proof.
  intros style toks out n H. destruct H as [|d old l Hs Hf|s toks outs -> L F|toks -> L].
  - reflexivity.
  - unfold finish. rewrite (styles_of_has d old Hs). cbn [bind]. rewrite <- map_app, (firsts_ok _ _ Hf). reflexivity.
  - assert (W := with_styles_ok s toks outs F). cbn [opt_list map]. unfold finish. destruct toks as [|t1 [|t2 toks]]; [cbn in L; lia|cbn in L; lia|].
    rewrite W. destruct t1; reflexivity.
  - destruct toks as [|t1 [|t2 toks]]; [cbn in L; lia|cbn in L; lia|]. cbn [opt_list map]. unfold finish. destruct t1; reflexivity.
Qed.
Lemma styled_total : forall style toks, Forall (fun t => exists d old, t = VDict d /\ has_styles d old) toks -> exists out, styled style toks out.
Proof.
  intros style toks F. destruct toks as [|t1 [|t2 toks]].
  - exists VNone. constructor.
  - inversion F as [|t l (d & old & E & H) F']. subst. destruct (firsts_total (opt_list style ++ old) []) as [o Ho]. exists (styled_with o d). econstructor; eassumption.
  - destruct style as [s|]; [|exists (VList (t1 :: t2 :: toks)); apply sd_plain; [reflexivity|cbn; lia]].
    assert (X : forall l, Forall (fun t => exists d old, t = VDict d /\ has_styles d old) l -> exists outs, Forall2 (fun t o => exists d old, t = VDict d /\ has_styles d old /\ o = styled_with (s :: old) d) l outs).
    { induction l as [|t l IH]; intros Fl; [exists []; constructor|]. inversion Fl as [|t0 l0 (d & old & E & H) F']. subst. destruct (IH F') as [outs Ho]. exists (styled_with (s :: old) d :: outs). constructor; [|exact Ho]. exists d, old. auto. }
    destruct (X _ F) as [outs Ho]. exists (VList outs). eapply sd_many; [reflexivity|cbn; lia|exact Ho].
Qed.
