(** C86: style commands without a group. *)
From Coq Require Import List NArith PeanoNat Lia Bool String.
From Verif Require Import PyStr Regex RegexLemmas RegexHead Json TexUtilsModel DelimSpec DelimProofs DelimFinal TextModel TextProofs BuilderModel ContentModel CommandModel CommandProofs2 BoxModel StyleModel StyleSpec StyleProofs StyleProofs2 StyleProofs3 ParseReadProofs3.
Import ListNotations. Notation length := List.length. Notation concat := List.concat. Open Scope list_scope.
Lemma no_brace_ahead : forall (t : str) i c ws y r, i <= length t -> skipn i t = ws ++ y :: r -> blank ws -> isspace y = false -> y <> c_lb ->
  rm (RSeq (rstar rspace) (RGrp 3 (is_ch c_lb))) t i c = [].
Proof.
  intros t i c ws y r Hi E Hw Hy Hx. apply list_none. intros j c' H. apply CommandProofs2.in_seq in H as (j1 & c1 & H1 & H2).
  assert (Z := sp_then_none c_lb REps t i c ws y r Hi E Hw Hy (proj2 (N.eqb_neq c_lb y) (fun Q => Hx (eq_sym Q))) eq_refl).
  assert (X : In (j, c1) (rm (RSeq (rstar rspace) (RSeq (is_ch c_lb) REps)) t i c)).
  { cbn [rm]. apply in_flat_map. exists (j1, c1). split; [exact H1|]. cbn [fst snd]. cbn [rm] in H2. apply in_map_iff in H2 as ([j2 c2] & Q & H2). injection Q as <- <-.
    apply in_flat_map. exists (j2, c2). split; [exact H2|]. cbn [fst snd]. unfold is_ch in H2. cbn [rm] in H2. destruct (next_is _ _ _); [|destruct H2]. destruct H2 as [H2|[]]. injection H2 as <- <-. left. reflexivity. }
  rewrite Z in X. destruct X.
Qed.
Section H.
Variable w : ch -> bool.
Variable process : str -> res (list val).
(** the pattern then takes everything to the end *)
Lemma at_open : forall name pre ws y r, In name style_names -> In pre [[]; exp_word] -> next_letter (pre ++ ws ++ y :: r) = false -> (pre = [] -> startswith (ws ++ y :: r) exp_word = false) ->
  blank ws -> isspace y = false -> y <> c_lb -> let t := [c_bs] ++ name ++ pre ++ ws ++ y :: r in let p := 1 + length name + length pre in
  re_match_at TEXT_PATTERN t 0 = Some {| m_start := 0; m_end := length t; m_caps := [(2, (p, length t)); (1, (1, 1 + length name))] |}.
Proof.
  intros name pre ws y r I Ip NL NE Hb Hy Hx t p.
  assert (Sp : skipn p t = ws ++ y :: r).
  { unfold p, t. replace ([c_bs] ++ name ++ pre ++ ws ++ y :: r) with (([c_bs] ++ name ++ pre) ++ ws ++ y :: r) by (rewrite <- !app_assoc; reflexivity).
    apply skipn_app_exact. rewrite !app_length. reflexivity. }
  assert (Lt : length t = p + length (ws ++ y :: r)) by (unfold t, p; rewrite !app_length; cbn [length]; lia).
  assert (M := style_match name (ws ++ y :: r) pre _ (length t) [(2, (p, length t)); (1, (1, 1 + length name))] I Ip NL NE eq_refl).
  fold t in M. fold p in M. apply M. clear M. apply fm_alt_left. apply fm_grp. apply fm_alt_right.
  - apply (no_brace_ahead t p _ ws y r); [unfold str in *; clearbody p; lia|exact Sp|exact Hb|exact Hy|exact Hx].
  - rewrite Lt. apply (fm_star (fun _ => true) t p _ (ws ++ y :: r) []); [rewrite app_nil_r; exact Sp| |reflexivity]. apply forallb_forall. reflexivity.
Qed.
Lemma without_group : forall name style pre ws y r, In (name, style) style_commands -> In pre [[]; exp_word] -> next_letter (pre ++ ws ++ y :: r) = false -> (pre = [] -> startswith (ws ++ y :: r) exp_word = false) ->
  blank ws -> isspace y = false -> y <> c_lb -> last (y :: r) 0%N <> c_lb ->
  handle w process ([c_bs] ++ name ++ pre ++ ws ++ y :: r) =
  if N.eqb y c_bs then do toks <- process []; finish (map VStr (opt_list style)) toks (1 + length name + length pre)
  else do toks <- process [y]; finish (map VStr (opt_list style)) toks (1 + length name + length pre + length ws + 1).
Proof.
  intros name style pre ws y r I Ip NL NE Hb Hy Hx Hl. destruct (same_table name style I) as [In1 Hst].
  pose (t := [c_bs] ++ name ++ pre ++ ws ++ y :: r). pose (p := 1 + length name + length pre).
  assert (M := at_open name pre ws y r In1 Ip NL NE Hb Hy Hx). cbv zeta in M. fold t in M. fold p in M. fold t. rewrite (handle_text w process _ _ M). unfold handle_styled.
  assert (Gn : grp t 1 {| m_start := 0; m_end := length t; m_caps := [(2, (p, length t)); (1, (1, 1 + length name))] |} = name).
  { destruct (grp_name name (pre ++ ws ++ y :: r) (length t) [(2, (p, length t))]) as [G|G]; [exact G|exfalso; apply G; reflexivity]. }
  rewrite Gn, Hst. unfold m_span. cbn [m_caps cap_get Nat.eqb m_end].
  assert (Sl : slice p (length t) t = ws ++ y :: r).
  { unfold slice. assert (Sp : skipn p t = ws ++ y :: r).
    { unfold p, t. replace ([c_bs] ++ name ++ pre ++ ws ++ y :: r) with (([c_bs] ++ name ++ pre) ++ ws ++ y :: r) by (rewrite <- !app_assoc; reflexivity).
      apply skipn_app_exact. rewrite !app_length. reflexivity. }
    rewrite Sp. apply firstn_all2. unfold t, p. rewrite !app_length. cbn [length]. lia. }
  rewrite Sl.
  assert (La : last (ws ++ y :: r) 0%N = last (y :: r) 0%N).
  { clear. induction ws as [|a ws IH]; [reflexivity|]. cbn [List.app]. rewrite <- IH. destruct (ws ++ y :: r) eqn:E; [destruct ws; discriminate|reflexivity]. }
  rewrite La. rewrite (proj2 (N.eqb_neq _ _) Hl).
  assert (Ld : nlead (ws ++ y :: r) = length ws). { rewrite nlead_ws_app by exact Hb. cbn [nlead]. rewrite Hy. lia. }
  rewrite Ld. assert (Nt : nth_error (ws ++ y :: r) (length ws) = Some y). { rewrite nth_error_app2 by lia. rewrite Nat.sub_diag. reflexivity. }
  rewrite Nt. fold p. destruct (ws ++ y :: r) eqn:Ew; [destruct ws; discriminate|]. destruct (N.eqb y c_bs); reflexivity.
Qed.
(** one character is the argument *)
Lemma styled_char : forall name style pre ws x r toks out, In (name, style) style_commands -> In pre [[]; lit "\expandafter"] ->
  blank ws -> isspace x = false -> x <> c_lb -> x <> c_bs -> (pre = [] -> ws = [] -> ~ letter x) -> last (x :: r) 0%N <> c_lb ->
  process [x] = Ok toks -> styled style toks out ->
  handle w process ([c_bs] ++ name ++ pre ++ ws ++ x :: r) = Ok (out, length ([c_bs] ++ name ++ pre ++ ws) + 1).
Proof.
  intros name style pre ws x r toks out I Ip Hb Hy Hx Hbs Hlet Hl P S.
  assert (Hd : forall q, startswith (ws ++ x :: q) exp_word = false).
  { intros q. destruct ws as [|a ws'].
    - cbn [List.app]. change (startswith (x :: q) exp_word) with (N.eqb c_bs x && startswith q (lit "expandafter"))%bool. rewrite (proj2 (N.eqb_neq c_bs x)) by congruence. reflexivity.
    - cbn [List.app]. change (startswith (a :: ws' ++ x :: q) exp_word) with (N.eqb c_bs a && startswith (ws' ++ x :: q) (lit "expandafter"))%bool. destruct (N.eqb c_bs a) eqn:Ea; [|reflexivity].
      apply N.eqb_eq in Ea. subst a. unfold blank in Hb. discriminate Hb. }
  rewrite (without_group name style pre ws x r I Ip); [|  |intros _; apply Hd|exact Hb|exact Hy|exact Hx|exact Hl].
  - rewrite (proj2 (N.eqb_neq _ _) Hbs), P. cbn [bind]. rewrite (finish_styled style toks out _ S). rewrite !app_length. cbn [length]. rewrite !Nat.add_assoc. reflexivity.
  - destruct Ip as [<-|[<-|[]]]; [|reflexivity]. cbn [List.app]. destruct ws as [|a ws]; cbn [List.app next_letter].
    + apply letter_ok. apply Hlet; reflexivity.
    + apply space_not_letter. unfold blank in Hb. cbn in Hb. apply andb_prop in Hb as [H _]. exact H.
Qed.
(** before another command there is no argument *)
Lemma styled_command : forall name style pre ws r toks out, In (name, style) style_commands -> In pre [[]; lit "\expandafter"] ->
  blank ws -> (pre = [] -> ws = [] -> forall q, r <> lit "expandafter" ++ q) -> last (c_bs :: r) 0%N <> c_lb ->
  process [] = Ok toks -> styled style toks out ->
  handle w process ([c_bs] ++ name ++ pre ++ ws ++ c_bs :: r) = Ok (out, length ([c_bs] ++ name ++ pre)).
Proof.
  intros name style pre ws r toks out I Ip Hb He Hl P S.
  rewrite (without_group name style pre ws c_bs r I Ip); [| | |exact Hb|reflexivity|discriminate|exact Hl].
  - rewrite N.eqb_refl, P. cbn [bind]. rewrite (finish_styled style toks out _ S). rewrite !app_length. cbn [length]. rewrite Nat.add_assoc. reflexivity.
  - destruct Ip as [<-|[<-|[]]]; [|reflexivity]. cbn [List.app]. destruct ws as [|a ws]; cbn [List.app next_letter]; [reflexivity|].
    apply space_not_letter. unfold blank in Hb. cbn in Hb. apply andb_prop in Hb as [H _]. exact H.
  - intros Hp. destruct ws as [|a ws].
    + cbn [List.app]. change (startswith (c_bs :: r) exp_word) with (startswith r (lit "expandafter")). destruct (startswith r (lit "expandafter")) eqn:E; [|reflexivity].
      apply startswith_spec in E as (q & E). exfalso. exact (He Hp eq_refl q E).
    + cbn [List.app]. change (startswith (a :: ws ++ c_bs :: r) exp_word) with (N.eqb c_bs a && startswith (ws ++ c_bs :: r) (lit "expandafter"))%bool. destruct (N.eqb c_bs a) eqn:Ea; [|reflexivity].
      apply N.eqb_eq in Ea. subst a. unfold blank in Hb. discriminate Hb.
Qed.
End H.
