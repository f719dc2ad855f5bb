From Coq Require Import List NArith ZArith PeanoNat Lia Bool String.
From Verif Require Import PyStr Regex RegexLemmas RegexHead Json TexUtilsModel DelimSpec DelimProofs DelimFinal SubstModel EtoolProofs KeyvalModel KeyvalSpec.
Import ListNotations. Notation length := List.length. Notation concat := List.concat. Open Scope list_scope.

Lemma kv_min : 0 < minlen KEY_VALUE_PATTERN.
Proof. cbn. lia. Qed.
Definition stop (rest : str) : Prop := rest = [] \/ exists r, rest = c_comma :: r.
Notation it := (iter_at KEY_VALUE_PATTERN).

(** a character that is no key character is skipped *)
Lemma kv_skip1 : forall t i x r, skipn i t = x :: r -> key_char x = false -> it t i = it t (S i).
Proof.
  intros t i x r E H. rewrite (iter_at_step _ kv_min) by (eapply skipn_cons_lt; exact E).
  replace (re_match_at KEY_VALUE_PATTERN t i) with (@None mobj); [reflexivity|]. symmetry. unfold re_match_at, KEY_VALUE_PATTERN.
  rewrite rm_seq_none; [reflexivity|]. cbn [rm]. unfold rplus. rewrite rm_seq_none; [reflexivity|]. apply rm_chr_none. rewrite E. exact H.
Qed.
Lemma kv_skip : forall s t i r, skipn i t = s ++ r -> forallb (fun x => negb (key_char x)) s = true -> it t i = it t (i + length s).
Proof.
  induction s as [|x s IH]; intros t i r E H; cbn [length]; [rewrite Nat.add_0_r; reflexivity|]. cbn [forallb] in H. apply andb_prop in H as [H1 H2].
  cbn [List.app] in E. rewrite (kv_skip1 t i x _ E) by (apply negb_true_iff; exact H1). rewrite (IH t (S i) r); [f_equal; lia|eapply skipn_more1; exact E|exact H2].
Qed.
Lemma blank_skip : forall w, blank w -> forallb (fun x => negb (key_char x)) w = true.
Proof.
  intros w H. unfold blank in H. rewrite forallb_forall in *. intros x Hx. specialize (H x Hx). unfold key_char. rewrite H, !orb_true_r. reflexivity.
Qed.
Lemma good_key_chars : forall k, good_key k -> forallb key_char k = true.
Proof.
  intros k [_ H]. apply forallb_forall. intros x Hx. destruct (H x Hx) as (A & B & C). unfold key_char.
  apply N.eqb_neq in A, B. rewrite A, B, C. reflexivity.
Qed.
Lemma slice_at : forall (t : str) i s r, skipn i t = s ++ r -> slice i (i + length s) t = s.
Proof. intros t i s r E. unfold slice. rewrite E. replace (i + length s - i) with (length s) by lia. rewrite firstn_app, Nat.sub_diag, firstn_all. cbn. apply app_nil_r. Qed.

(** a key without a value *)
Lemma kv_flag : forall t i k b rest, skipn i t = k ++ b ++ rest -> good_key k -> blank b -> stop rest ->
  exists m, re_match_at KEY_VALUE_PATTERN t i = Some m /\ key_value t m = (k, lit "true") /\ m_end m = i + length k.
Proof.
  intros t i k b rest E Hk Hb Hs.
  assert (Hn : match b ++ rest with x :: _ => key_char x || N.eqb x c_eq | [] => false end = false).
  { destruct b as [|x b].
    - cbn. destruct Hs as [->|(r & ->)]; reflexivity.
    - cbn. unfold blank in Hb. cbn in Hb. apply andb_prop in Hb as [Hx _]. unfold key_char. rewrite Hx, orb_true_r. cbn.
      apply N.eqb_neq. intros ->. discriminate Hx. }
  eexists. split.
  - apply fm_match. unfold KEY_VALUE_PATTERN. eapply fm_seq.
    + apply fm_grp. eapply fm_plus; [exact E|apply (proj1 Hk)|apply good_key_chars, Hk|]. destruct (b ++ rest); [reflexivity|]. apply orb_false_iff in Hn as [Hn _]. exact Hn.
    + unfold ropt. apply fm_alt_right; [|apply fm_eps]. apply rm_seq_none. unfold is_ch. apply rm_chr_none. rewrite (skipn_more _ _ _ _ E).
      destruct (b ++ rest) as [|y l]; [reflexivity|]. apply orb_false_iff in Hn as [_ Hn]. rewrite N.eqb_sym. exact Hn.
  - split; [|reflexivity]. unfold key_value, m_group. cbn [m_caps cap_get Nat.eqb option_map]. rewrite (slice_at _ _ _ _ E). reflexivity.
Qed.
Lemma kv_valued : forall t i k v rest, skipn i t = k ++ [c_eq] ++ v ++ rest -> good_key k -> v <> [] -> ~ In c_comma v -> stop rest ->
  exists m, re_match_at KEY_VALUE_PATTERN t i = Some m /\ key_value t m = (k, strip v) /\ m_end m = i + length k + 1 + length v.
Proof.
  intros t i k v rest E Hk Hv Hc Hs.
  pose proof (skipn_more _ _ _ _ E) as E1. cbn [List.app] in E1. pose proof (skipn_more1 _ _ _ _ E1) as E2.
  eexists. split.
  - apply fm_match. unfold KEY_VALUE_PATTERN. eapply fm_seq.
    + apply fm_grp. eapply fm_plus; [exact E|apply (proj1 Hk)|apply good_key_chars, Hk|reflexivity].
    + unfold ropt. apply fm_alt_left. eapply fm_seq; [eapply fm_is_ch; exact E1|]. apply fm_grp. eapply fm_plus; [exact E2|exact Hv| |].
      * apply notin_forallb in Hc. exact Hc.
      * destruct Hs as [->|(r & ->)]; reflexivity.
  - split; [|cbn [m_end]; lia]. unfold key_value, m_group. cbn [m_caps cap_get Nat.eqb option_map]. rewrite (slice_at _ _ _ _ E), (slice_at _ _ _ _ E2).
    destruct v; [congruence|reflexivity].
Qed.
Lemma skipn_lt : forall (t : str) i s r, skipn i t = s ++ r -> s <> [] -> i < length t.
Proof. intros t i [|x s] r E H; [congruence|]. eapply skipn_cons_lt. exact E. Qed.

Lemma piece_iter : forall t i piece out rest, skipn i t = piece ++ rest -> setting piece out -> stop rest ->
  exists k, map (key_value t) (it t i) = given [out] ++ map (key_value t) (it t k) /\ it t k = it t (i + length piece).
Proof.
  intros t i piece out rest E H Hs. destruct H as [w Hw|a k b Ha Hk Hb|a k v Ha Hk Hv Hc].
  - exists i. split; [reflexivity|]. eapply kv_skip; [exact E|apply blank_skip, Hw].
  - rewrite <- !app_assoc in E. rewrite (kv_skip a t i _ E) by (apply blank_skip, Ha).
    pose proof (skipn_more _ _ _ _ E) as E1. destruct (kv_flag t _ k b rest E1 Hk Hb Hs) as (m & Em & Ek & Ee).
    rewrite (iter_at_step _ kv_min) by (eapply skipn_lt; [exact E1|apply (proj1 Hk)]). rewrite Em. exists (m_end m). split; [cbn [map given List.app]; rewrite Ek; reflexivity|].
    rewrite Ee. pose proof (skipn_more _ _ _ _ E1) as E2. rewrite (kv_skip b t _ rest E2) by (apply blank_skip, Hb). f_equal. rewrite !app_length. lia.
  - rewrite <- !app_assoc in E. rewrite (kv_skip a t i _ E) by (apply blank_skip, Ha).
    pose proof (skipn_more _ _ _ _ E) as E1. destruct (kv_valued t _ k v rest E1 Hk Hv Hc Hs) as (m & Em & Ek & Ee).
    rewrite (iter_at_step _ kv_min) by (eapply skipn_lt; [exact E1|apply (proj1 Hk)]). rewrite Em. exists (m_end m). split; [cbn [map given List.app]; rewrite Ek; reflexivity|].
    f_equal. rewrite Ee, !app_length. cbn [length]. lia.
Qed.
Lemma pieces_iter : forall pieces outs, Forall2 setting pieces outs -> forall t i, skipn i t = join [c_comma] pieces -> map (key_value t) (it t i) = given outs.
Proof.
  induction 1 as [|p o ps os H Hr IH]; intros t i E.
  - cbn in E. rewrite iter_at_end; [reflexivity|exact kv_min|]. apply (f_equal (@length ch)) in E. rewrite skipn_length in E. cbn in E. lia.
  - destruct ps as [|p2 ps].
    + inversion Hr; subst. cbn [join] in E. rewrite <- (app_nil_r p) in E. destruct (piece_iter t i p o [] E H (or_introl eq_refl)) as (k & E1 & E2).
      rewrite E1, E2. rewrite iter_at_end; [cbn [map]; rewrite app_nil_r; reflexivity|exact kv_min|].
      apply (f_equal (@length ch)) in E. rewrite skipn_length, app_length in E. cbn in E. lia.
    + change (join [c_comma] (p :: p2 :: ps)) with (p ++ [c_comma] ++ join [c_comma] (p2 :: ps)) in E.
      destruct (piece_iter t i p o _ E H (or_intror (ex_intro _ _ eq_refl))) as (k & E1 & E2). rewrite E1, E2.
      pose proof (skipn_more _ _ _ _ E) as E3. cbn [List.app] in E3. rewrite (kv_skip1 _ _ _ _ E3) by reflexivity.
      rewrite (IH t (S (i + length p)) (skipn_more1 _ _ _ _ E3)). destruct o; reflexivity.
Qed.
Theorem key_values_spec : forall pieces outs, Forall2 setting pieces outs -> key_values (join [c_comma] pieces) = given outs.
Proof. intros pieces outs H. exact (pieces_iter pieces outs H (join [c_comma] pieces) 0 eq_refl). Qed.
