(** C89-C90: what a switch is replaced by. *)
From Coq Require Import List NArith PeanoNat Lia Bool String Compare_dec.
From Verif Require Import PyStr Regex RegexLemmas RegexHead Json TexUtilsModel DelimSpec DelimProofs EnvSpec EqSpec CommandModel CommandSpec StyleModel StyleSpec StyleProofs EnvHandlerModel ItemModel ItemSpec LegacyModel LegacySpec LegacyProofs LegacyProofs2.
Import ListNotations. Notation length := List.length. Notation concat := List.concat. Open Scope list_scope.

Lemma endswith_iff : forall s p, endswith s p = true <-> exists a, s = a ++ p.
Proof.
  intros s p. unfold endswith. rewrite startswith_spec. split; intros (r & E).
  - exists (rev r). apply (f_equal (@rev ch)) in E. rewrite rev_involutive, rev_app_distr, rev_involutive in E. exact E.
  - exists (rev r). rewrite E, rev_app_distr. reflexivity.
Qed.
Lemma format_names : forall n, In n (map fst LEGACY_FORMAT_MAPPING) <-> In n all_names.
Proof. intros x. split; apply subset_ok; vm_compute; reflexivity. Qed.
Lemma trailing_none : forall names t found, no_command_at_end names t -> trailing names t found = (t, found).
Proof.
  induction names as [|n names IH]; intros t found H; [reflexivity|]. cbn [trailing]. destruct (endswith t (c_bs :: n)) eqn:E.
  - apply endswith_iff in E as (a & E). exfalso. exact (H n (or_introl eq_refl) a E).
  - apply IH. exact (fun m I => H m (or_intror I)).
Qed.
Lemma no_bs : forall n, In n all_names -> ~ In c_bs n.
Proof.
  assert (D : forallb (fun x => negb (existsb (N.eqb c_bs) x)) all_names = true) by (vm_compute; reflexivity).
  intros n I J. rewrite forallb_forall in D. specialize (D n I). assert (Y : existsb (N.eqb c_bs) n = true) by (apply existsb_exists; exists c_bs; split; [exact J|apply N.eqb_refl]). rewrite Y in D. discriminate.
Qed.
Lemma same_end : forall (a b m n : str), ~ In c_bs m -> ~ In c_bs n -> a ++ c_bs :: m = b ++ c_bs :: n -> a = b /\ m = n.
Proof.
  induction a as [|x a IH]; intros [|y b] m n Hm Hn E; cbn [List.app] in E.
  - injection E as ->. auto.
  - injection E as <- E. exfalso. apply Hm. rewrite E. apply in_or_app. right. left. reflexivity.
  - injection E as -> E. exfalso. apply Hn. rewrite <- E. apply in_or_app. right. left. reflexivity.
  - injection E as -> E. destruct (IH b m n Hm Hn E) as [-> ->]. auto.
Qed.
Lemma trailing_one : forall names a n, In n names -> NoDup names -> (forall x, In x names -> ~ In c_bs x) -> no_command_at_end names (rstrip a) ->
  forall found, trailing names (a ++ c_bs :: n) found = (rstrip a, found ++ [c_bs :: n]).
Proof.
  induction names as [|m names IH]; intros a n I Nd Nb H found; [destruct I|]. cbn [trailing]. inversion Nd as [|? ? Nm Nd2]. subst. destruct (endswith (a ++ c_bs :: n) (c_bs :: m)) eqn:E.
  - apply endswith_iff in E as (b & E). destruct (same_end a b n m (Nb n I) (Nb m (or_introl eq_refl)) E) as [<- <-].
    rewrite app_length. replace (length a + length (c_bs :: n) - length (c_bs :: n)) with (length a) by lia. rewrite DelimFinal.firstn_app_exact by reflexivity.
    apply trailing_none. exact (fun k J => H k (or_intror J)).
  - destruct I as [->|I]; [exfalso; assert (endswith (a ++ c_bs :: n) (c_bs :: n) = true) by (apply endswith_iff; exists a; reflexivity); congruence|].
    apply IH; [exact I|exact Nd2|intros x J; apply Nb; right; exact J|exact (fun k J => H k (or_intror J))].
Qed.

(** * The text of the switch *)
Section Switch.
Variable w : ch -> bool.
Hypothesis Wp : w 112%N = true.
Variable pattern : re.
Variable switch : str -> Prop.
Hypothesis spec : forall t i, i <= length t -> ((exists j, rel pattern t i j) <-> switch (skipn i t)).
Hypothesis no_brace : forall r, ~ switch (c_lb :: r).
Hypothesis none_empty : ~ switch [].
Hypothesis no_opener : forall s, switch s -> ~ opens_here w s.

Lemma reach_exact : forall tail text, reaches tail text ->
  match extract_nested_content (c_lb :: tail) c_lb c_rb with (Some (_ :: _), closing_pos) => firstn (closing_pos - 2) tail | _ => tail end = text.
Proof.
  intros tail text R. inversion R as [t r Ne G|t N]; subst.
  - assert (Ga : group_at c_lb c_rb (c_lb :: text ++ [c_rb] ++ r) text (length text + 2)).
    { exists [], r. destruct G as [G1 G2]. split; [reflexivity|split; [reflexivity|split; [exact G1|split; [exact G2|cbn [List.length]; lia]]]]. }
    apply (extract_nested_content_iff _ _ _ _ _ delims_curly) in Ga. rewrite Ga. destruct text as [|x text]; [congruence|]. set (b := x :: text) in *. replace (length b + 2 - 2) with (length b) by lia. apply DelimFinal.firstn_app_exact. reflexivity.
  - destruct (extract_nested_content_cases c_lb c_rb (c_lb :: text) delims_curly) as [(b & n & _ & G)|(E & _)]; [exfalso; exact (N b n G)|]. rewrite E. reflexivity.
Qed.
Lemma scope_exact : forall text e, plain_ends w text -> scope w switch text e ->
  match re_search pattern text with Some _ => scope_loop w (S (length text)) pattern text 0 | None => Ok (length text) end = Ok e.
Proof.
  intros text e P S0. destruct (search_switch pattern switch spec none_empty text) as [(N & E)|(m & E)]; rewrite E.
  - destruct S0 as [(_ & ->)|D]; [reflexivity|]. f_equal. symmetry. eapply (scope_unmarked w switch); [exact D|]. intros i _. apply N.
  - destruct S0 as [(N & _)|D]; [exfalso|].
    + unfold re_search in E. apply re_search_some in E as (_ & L & R & _ & _). assert (Lm : m_start m <= length text) by (pose proof (rel_bounds _ _ _ _ R); lia).
      apply (N (m_start m)). apply (spec text _ Lm). eauto.
    + eapply loop_exact; eauto.
Qed.
Definition consumed (color : bool) (command : option str) (after : str) (p : nat) : nat :=
  match command with Some (x :: c) => if off_switch color (x :: c) after then p + length (x :: c) + 1 else p | _ => p end.
Lemma apply_exact : forall color content command mc p tail text e, skipn p content = tail -> reaches tail text -> plain_ends w text -> scope w switch text e ->
  forall out, (no_command_at_end all_names (rstrip (firstn e text)) /\ out = written_as mc (firstn e text)) \/
     (exists a name, In name all_names /\ rstrip (firstn e text) = a ++ [c_bs] ++ name /\ no_command_at_end all_names (rstrip a) /\ out = written_as mc (rstrip a) ++ [c_sp] ++ [c_bs] ++ name) ->
  apply_switch w pattern color content command mc p = Ok (Some (out, consumed color command (skipn e tail) (p + e))).
Proof.
  intros color content command mc p tail text e Ht R P S0 out Ho. unfold apply_switch. cbv zeta. rewrite Ht.
  match goal with |- bind (match re_search pattern ?X with _ => _ end) _ = _ => assert (Hx : X = text) by exact (reach_exact tail text R); rewrite Hx end.
  rewrite (scope_exact text e P S0). cbn [bind]. f_equal. f_equal.
  assert (Sk : skipn (p + e) content = skipn e tail) by (rewrite <- Ht, skipn_add; reflexivity). rewrite Sk.
  apply f_equal2; [|reflexivity].
  destruct Ho as [(N & ->)|(a & name & I & E & N & ->)].
  - assert (N2 : no_command_at_end (map fst LEGACY_FORMAT_MAPPING) (rstrip (firstn e text))) by exact (fun x J => N x (proj1 (format_names x) J)).
    rewrite (trailing_none _ _ [] N2). destruct (rstrip (firstn e text)); reflexivity.
  - assert (N2 : no_command_at_end (map fst LEGACY_FORMAT_MAPPING) (rstrip a)) by exact (fun x J => N x (proj1 (format_names x) J)).
    rewrite E. change (a ++ [c_bs] ++ name) with (a ++ c_bs :: name).
    rewrite (trailing_one _ a name (proj2 (format_names name) I)); [|apply StyleProofs2.nodupb_ok; vm_compute; reflexivity|intros x J; apply no_bs; apply format_names; exact J|exact N2].
    destruct (a ++ c_bs :: name) eqn:Z; [destruct a; discriminate|]. cbn [List.app rev join]. unfold written_as, modern. repeat (rewrite <- app_assoc || rewrite <- app_comm_cons). reflexivity.
Qed.
Lemma group_exact : forall content mc p g r, 1 <= p -> skipn (p - 1) content = [c_lb] ++ g ++ [c_rb] ++ r -> good_body g ->
  apply_group content mc p = Ok (Some (written_as mc (strip g), p + length g + 1)).
Proof.
  intros content mc p g r Hp E [G1 G2]. unfold apply_group.
  assert (Ga : group_at c_lb c_rb (skipn (p - 1) content) g (length g + 2)) by (exists [], r; split; [exact E|split; [reflexivity|split; [exact G1|split; [exact G2|cbn [List.length]; lia]]]]).
  apply (extract_nested_content_iff _ _ _ _ _ delims_curly) in Ga. rewrite Ga. f_equal. f_equal. apply f_equal2; [reflexivity|lia].
Qed.
End Switch.

(** * The switches of the tables *)
Lemma lookup_all : forall name cmd, In (name, cmd) all_switches -> find (fun kv => str_eqb (fst kv) name) LEGACY_FORMAT_MAPPING = Some (name, cmd).
Proof.
  assert (D : forallb (fun kv => match find (fun x => str_eqb (fst x) (fst kv)) LEGACY_FORMAT_MAPPING with Some (a, b) => str_eqb a (fst kv) && str_eqb b (snd kv) | None => false end) all_switches = true) by (vm_compute; reflexivity).
  intros name cmd I. rewrite forallb_forall in D. specialize (D _ I). cbn [fst snd] in D. destruct (find _ _) as [[a b]|]; [|discriminate]. apply andb_true_iff in D as [A B]. apply str_eqb_spec in A, B. subst. reflexivity.
Qed.
Lemma apart_color : forallb (fun n => apart n (lit "color")) all_names = true. Proof. vm_compute. reflexivity. Qed.
Lemma apart_normal : forallb (fun n => apart n (lit "normalcolor")) all_names = true. Proof. vm_compute. reflexivity. Qed.
Lemma apart_begin : forallb (fun n => apart n (lit "begin")) all_names = true. Proof. vm_compute. reflexivity. Qed.
