(** C89: font and size switches. *)
From Coq Require Import List NArith PeanoNat Lia Bool String Compare_dec.
From Verif Require Import PyStr Regex RegexLemmas RegexHead Json TexUtilsModel DelimSpec DelimProofs EnvSpec EqSpec EnvHandlerCases CommandModel CommandSpec StyleModel StyleSpec StyleProofs EnvHandlerModel ItemModel ItemSpec LegacyModel LegacySpec LegacyProofs LegacyProofs2 LegacyProofs3.
Import ListNotations. Notation length := List.length. Notation concat := List.concat. Open Scope list_scope.

Lemma destruct_last : forall s : str, s = [] \/ exists a x, s = a ++ [x].
Proof. intros s. destruct s as [|y s]; [left; reflexivity|right]. destruct (exists_last (l := y :: s) ltac:(discriminate)) as (a & x & E). exists a, x. exact E. Qed.
Lemma last_not_brace : forall name, In name all_names -> endswith name [c_lb] = false.
Proof.
  assert (D : forallb (fun n => negb (endswith n [c_lb])) all_names = true) by (vm_compute; reflexivity).
  intros name I. rewrite forallb_forall in D. specialize (D name I). destruct (endswith name [c_lb]); [discriminate|reflexivity].
Qed.
Lemma head_not_brace : forall name, In name all_names -> name <> [].
Proof.
  assert (D : forallb (fun n => negb (str_eqb n [])) all_names = true) by (vm_compute; reflexivity).
  intros name I ->. rewrite forallb_forall in D. specialize (D [] I). discriminate.
Qed.
Lemma matched_end : forall name ws, In name all_names -> blank ws -> endswith ([c_bs] ++ name ++ ws) [c_lb] = false.
Proof.
  intros name ws I B. destruct (endswith _ _) eqn:E; [|reflexivity]. exfalso. apply endswith_iff in E as (a & E).
  destruct (destruct_last ws) as [->|(ws' & x & ->)].
  - rewrite app_nil_r in E. destruct (destruct_last name) as [->|(n' & y & ->)]; [exact (head_not_brace _ I eq_refl)|].
    rewrite app_assoc in E. apply app_inj_tail in E as [_ ->].
    assert (endswith (n' ++ [c_lb]) [c_lb] = true) by (apply endswith_iff; eauto). pose proof (last_not_brace _ I). congruence.
  - rewrite !app_assoc in E. apply app_inj_tail in E as [_ ->]. unfold blank in B. rewrite forallb_app in B. apply andb_true_iff in B as [_ B]. discriminate.
Qed.

Section Named.
Variable w : ch -> bool.
Variable mapping : list (str * str).
Hypothesis Ne : map fst mapping <> [].
Hypothesis Cont : continued (map fst mapping).
Hypothesis Nd : NoDup (map fst mapping).
Hypothesis Sub : forall n, In n (map fst mapping) -> In n all_names.

Lemma apply_named : forall name cmd ws rest, In name (map fst mapping) -> In (name, cmd) all_switches -> blank ws -> starts_with isspace rest = false -> ends_word (ws ++ rest) ->
  exists m, re_match_at (switch_pattern mapping) ([c_bs] ++ name ++ ws ++ rest) 0 = Some m /\
  apply w (switch_pattern mapping) ([c_bs] ++ name ++ ws ++ rest) m =
    if Nat.eqb (has_brace rest) 1 then apply_group ([c_bs] ++ name ++ ws ++ rest) cmd (1 + length name + length ws + 1)
    else apply_switch w (switch_pattern mapping) false ([c_bs] ++ name ++ ws ++ rest) (Some name) cmd (1 + length name + length ws).
Proof.
  intros name cmd ws rest I Ia B Hr Hw. set (content := [c_bs] ++ name ++ ws ++ rest). eexists. split; [apply (switch_fm mapping Cont Nd content 0 name ws rest I); [reflexivity|exact B|exact Hr|exact Hw]|].
  set (m := {| m_start := 0; m_end := _; m_caps := _ |}). pose proof (Sub _ I) as Ib.
  assert (G0 : exists tl, m_group0 content m = [c_bs] ++ name ++ ws ++ tl /\ tl = firstn (has_brace rest) rest).
  { exists (firstn (has_brace rest) rest). split; [|reflexivity]. unfold m_group0, slice, m, content. cbn [m_start m_end skipn]. rewrite !Nat.sub_0_r. cbn [List.app plus firstn]. f_equal.
    replace (length name + length ws + has_brace rest) with (length name + (length ws + has_brace rest)) by lia. rewrite firstn_app_2, firstn_app_2. reflexivity. }
  destruct G0 as (tl & G0 & Etl). unfold apply. cbv zeta. rewrite G0.
  assert (N1 : str_eqb ([c_bs] ++ name ++ ws ++ tl) (lit "\normalcolor") = false).
  { destruct (str_eqb _ _) eqn:E; [|reflexivity]. exfalso. apply str_eqb_spec in E. change (lit "\normalcolor") with ([c_bs] ++ lit "normalcolor" ++ []) in E. apply app_inv_head in E. exact (names_apart _ apart_normal _ _ _ Ib E). }
  assert (N2 : startswith ([c_bs] ++ name ++ ws ++ tl) (lit "\color") = false).
  { destruct (startswith _ _) eqn:E; [|reflexivity]. exfalso. apply startswith_spec in E as (r & E). change (lit "\color" ++ r) with ([c_bs] ++ lit "color" ++ r) in E. apply app_inv_head in E. exact (names_apart _ apart_color _ _ _ Ib E). }
  rewrite N1, N2.
  assert (G1 : m_group content 1 m = Some name).
  { unfold m_group, m_span, m. cbn [m_caps cap_get Nat.eqb option_map]. unfold slice, content. f_equal. cbn [plus List.app skipn]. replace (S (length name) - 1) with (length name) by lia. apply DelimFinal.firstn_app_exact. reflexivity. }
  rewrite G1. cbv beta iota. rewrite (lookup_all name cmd Ia). cbn [m m_end].
  destruct rest as [|x r].
  - cbn [has_brace Nat.eqb] in *. subst tl. cbn [firstn]. rewrite app_nil_r. rewrite (matched_end _ _ Ib B). unfold m. cbn [m_end]. rewrite !Nat.add_0_r. reflexivity.
  - cbn [has_brace] in *. destruct (N.eqb_spec x c_lb) as [->|Nx].
    + cbn [Nat.eqb firstn] in *. subst tl. assert (E : endswith ([c_bs] ++ name ++ ws ++ [c_lb]) [c_lb] = true) by (apply endswith_iff; exists ([c_bs] ++ name ++ ws); rewrite <- !app_assoc; reflexivity). rewrite E. unfold m. cbn [m_end]. rewrite Nat.add_0_r. reflexivity.
    + cbn [Nat.eqb firstn] in *. subst tl. rewrite app_nil_r, (matched_end _ _ Ib B). unfold m. cbn [m_end]. rewrite !Nat.add_0_r. reflexivity.
Qed.
End Named.

Lemma sub_fonts : forall n, In n (map fst LEGACY_FONT_MAPPING) -> In n all_names. Proof. apply subset_ok. vm_compute. reflexivity. Qed.
Lemma sub_sizes : forall n, In n (map fst LEGACY_SIZE_MAPPING) -> In n all_names. Proof. apply subset_ok. vm_compute. reflexivity. Qed.
Definition map_of (size : bool) : list (str * str) := if size then LEGACY_SIZE_MAPPING else LEGACY_FONT_MAPPING.
Lemma in_map_of : forall size name cmd, In (name, cmd) (kind_of size) -> In name (map fst (map_of size)) /\ In (name, cmd) all_switches.
Proof.
  intros size name cmd I. split; [|destruct size; apply in_or_app; [right|left]; exact I]. apply (in_map fst) in I. destruct size; [apply size_same|apply font_same]; exact I.
Qed.
Lemma handle_named : forall w size name cmd ws rest, In (name, cmd) (kind_of size) -> blank ws -> starts_with isspace rest = false -> ends_word (ws ++ rest) ->
  handle w ([c_bs] ++ name ++ ws ++ rest) =
    if Nat.eqb (has_brace rest) 1 then apply_group ([c_bs] ++ name ++ ws ++ rest) cmd (1 + length name + length ws + 1)
    else apply_switch w (switch_pattern (map_of size)) false ([c_bs] ++ name ++ ws ++ rest) (Some name) cmd (1 + length name + length ws).
Proof.
  intros w size name cmd ws rest I B Hr Hw. destruct (in_map_of _ _ _ I) as [I1 I2]. unfold handle, PATTERNS. cbn [try_patterns].
  destruct size; cbn [map_of kind_of] in *.
  - assert (N : re_match_at FONT_PATTERN ([c_bs] ++ name ++ ws ++ rest) 0 = None).
    { destruct (re_match_at _ _ _) as [m|] eqn:E; [exfalso|reflexivity]. apply re_match_at_some in E as (_ & R & _); [|lia].
      apply (size_not_font name (ws ++ rest) (in_map fst _ _ I) Hw). apply (font_rel ([c_bs] ++ name ++ ws ++ rest) 0); [lia|]. eexists. exact R. }
    rewrite N. destruct (apply_named w LEGACY_SIZE_MAPPING size_cont size_nodup sub_sizes name cmd ws rest I1 I2 B Hr Hw) as (m & M & A). unfold SIZE_PATTERN. rewrite M. exact A.
  - destruct (apply_named w LEGACY_FONT_MAPPING font_cont font_nodup sub_fonts name cmd ws rest I1 I2 B Hr Hw) as (m & M & A). unfold FONT_PATTERN. rewrite M. exact A.
Qed.

Lemma word_none_empty : forall names, ~ command_here names [].
Proof. intros names (n & r & _ & E & _). discriminate. Qed.
Lemma word_no_brace : forall names r, ~ command_here names (c_lb :: r).
Proof. intros names q (n & r & _ & E & _). discriminate. Qed.
Lemma word_no_opener : forall w names, (forall n, In n names -> In n all_names) -> forall s, command_here names s -> ~ opens_here w s.
Proof.
  intros w names Sub s (n & r & I & E & _) [(ws & nm & q & _ & _ & F)|(short & q & F & _)].
  - rewrite E in F. change (lit "\begin" ++ ?x) with ([c_bs] ++ lit "begin" ++ x) in F. apply app_inv_head in F. eapply (names_apart (lit "begin")); [vm_compute; reflexivity|exact (Sub n I)|exact F].
  - rewrite E in F. destruct short; cbn [group_word] in F.
    + change (lit "\bgroup" ++ q) with ([c_bs] ++ lit "bgroup" ++ q) in F. apply app_inv_head in F. eapply (names_apart (lit "bgroup")); [vm_compute; reflexivity|exact (Sub n I)|exact F].
    + change (lit "\begingroup" ++ q) with ([c_bs] ++ lit "begingroup" ++ q) in F. apply app_inv_head in F. eapply (names_apart (lit "begingroup")); [vm_compute; reflexivity|exact (Sub n I)|exact F].
Qed.
Theorem switch_styles : forall w size name cmd ws rest text e out, w 112%N = true ->
  In (name, cmd) (kind_of size) -> blank ws -> starts_with isspace rest = false -> ends_word (ws ++ rest) -> (forall r, rest <> c_lb :: r) ->
  reaches rest text -> plain_ends w text -> scope w (command_here (map fst (kind_of size))) text e -> styled cmd (firstn e text) out ->
  handle w ([c_bs] ++ name ++ ws ++ rest) = Ok (Some (out, 1 + length name + length ws + e + if startswith (skipn e rest) ([c_bs] ++ name) then 1 + length name else 0)).
Proof.
  intros w size name cmd ws rest text e out Wp I B Hr Hw Nb R P Sc St. rewrite (handle_named w size name cmd ws rest I B Hr Hw).
  assert (Hb : Nat.eqb (has_brace rest) 1 = false). { destruct rest as [|x r]; [reflexivity|]. cbn [has_brace]. destruct (N.eqb_spec x c_lb) as [->|_]; [exfalso; exact (Nb r eq_refl)|reflexivity]. }
  rewrite Hb. set (names := map fst (kind_of size)) in *.
  assert (Sp : forall t i, i <= length t -> ((exists j, rel (switch_pattern (map_of size)) t i j) <-> command_here names (skipn i t))) by (destruct size; [exact size_rel|exact font_rel]).
  assert (Sub : forall n, In n names -> In n all_names) by (unfold names; destruct size; intros n J; apply in_or_app; [right|left]; exact J).
  assert (Sk : skipn (1 + length name + length ws) ([c_bs] ++ name ++ ws ++ rest) = rest).
  { cbn [plus List.app skipn]. rewrite app_assoc. apply DelimFinal.skipn_app_exact. rewrite app_length. reflexivity. }
  rewrite (apply_exact w Wp (switch_pattern (map_of size)) (command_here names) Sp (word_no_brace names) (word_none_empty names) (word_no_opener w names Sub) false _ (Some name) cmd _ rest text e Sk R P Sc out St).
  f_equal. f_equal. f_equal. unfold consumed. destruct name as [|x name']; [exfalso; eapply head_not_brace; [apply Sub; apply (in_map fst _ _ I)|reflexivity]|]. set (name := x :: name') in *.
  assert (Off : off_switch false name (skipn e rest) = startswith (skipn e rest) ([c_bs] ++ name)).
  { destruct (skipn e rest) as [|y s]; [reflexivity|]. cbn [List.app off_switch startswith]. rewrite (N.eqb_sym c_bs y). reflexivity. }
  change (x :: name') with name. rewrite Off. destruct (startswith _ _); lia.
Qed.
