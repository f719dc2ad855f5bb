From Coq Require Import List NArith ZArith PeanoNat Lia Bool String.
From Verif Require Import PyStr Regex RegexLemmas RegexHead Json TexUtilsModel DelimSpec DelimProofs DelimFinal TextProofs TableProofs2 EtoolProofs KeyvalProofs ContentModel ContentSpec.
Import ListNotations. Notation length := List.length. Notation concat := List.concat. Open Scope list_scope.

(** * Splitting a stripped list *)
Lemma comma_nospace : isspace c_comma = false. Proof. reflexivity. Qed.
Lemma split_lead : forall a u, forallb isspace a = true -> exists w ws, split_char c_comma u = w :: ws /\ split_char c_comma (a ++ u) = (a ++ w) :: ws.
Proof.
  intros a u H. induction a as [|x a IH]; cbn [List.app].
  - destruct (split_char c_comma u) as [|w ws] eqn:E; [exfalso; exact (split_char_nonempty c_comma u E)|eauto].
  - cbn in H. apply andb_prop in H as [Hx H]. destruct (IH H) as (w & ws & E1 & E2). exists w, ws. split; [exact E1|]. cbn [split_char]. rewrite E2.
    destruct (N.eqb x c_comma) eqn:Ex; [apply N.eqb_eq in Ex; subst; discriminate Hx|reflexivity].
Qed.
Lemma split_tail : forall u b, forallb isspace b = true -> exists ws w, split_char c_comma u = ws ++ [w] /\ split_char c_comma (u ++ b) = ws ++ [w ++ b].
Proof.
  induction u as [|x u IH]; intros b H.
  - destruct (split_lead b [] H) as (w & ws & E1 & E2). cbn in E1. injection E1 as <- <-. exists [], []. split; [reflexivity|]. cbn [List.app]. rewrite app_nil_r in E2. exact E2.
  - destruct (IH b H) as (ws & w & E1 & E2). cbn [List.app split_char]. rewrite E1, E2. destruct (N.eqb x c_comma).
    + exists ([] :: ws), w. split; reflexivity.
    + destruct ws as [|y ws]; [exists [], (x :: w)|exists ((x :: y) :: ws), w]; split; reflexivity.
Qed.
Lemma strip_lead : forall a s, forallb isspace a = true -> strip (a ++ s) = strip s.
Proof. intros a s H. unfold strip. rewrite lstrip_ws_app by exact H. reflexivity. Qed.
Lemma rstrip_tail : forall s b, forallb isspace b = true -> rstrip (s ++ b) = rstrip s.
Proof. intros s b H. unfold rstrip. rewrite rev_app_distr, lstrip_ws_app; [reflexivity|]. rewrite forallb_forall in *. intros x Hx. apply H. apply in_rev. exact Hx. Qed.
Lemma strip_trail : forall s b, forallb isspace b = true -> strip (s ++ b) = strip s.
Proof.
  intros s b H. destruct (lead_split s) as (ws & E & Hw & _). destruct (lstrip s) as [|x r] eqn:El.
  - rewrite app_nil_r in E. subst ws. rewrite strip_lead by exact Hw. unfold strip at 2. rewrite El. unfold strip. 
    rewrite <- (app_nil_r b). rewrite lstrip_ws_app by exact H. reflexivity.
  - pose proof (lstrip_head s x r El) as Hx. clear El. subst s. rewrite <- app_assoc, (strip_lead ws ((x :: r) ++ b)), (strip_lead ws (x :: r)) by exact Hw. unfold strip. cbn [List.app]. rewrite !lstrip_id by exact Hx. 
    change (x :: r ++ b) with ((x :: r) ++ b). apply rstrip_tail. exact H.
Qed.
Lemma keys_strip : forall s, map strip (split_char c_comma (strip s)) = map strip (split_char c_comma s).
Proof.
  intros s. destruct (strip_split s) as (a & b & E & Ha & Hb). rewrite E at 2. destruct (split_lead a (strip s ++ b) Ha) as (w & ws & E1 & E2). rewrite E2. cbn [map]. rewrite strip_lead by exact Ha.
  change (strip w :: map strip ws) with (map strip (w :: ws)). rewrite <- E1. destruct (split_tail (strip s) b Hb) as (us & u & F1 & F2). rewrite F1, F2, !map_app. cbn [map]. rewrite strip_trail by exact Hb. reflexivity.
Qed.
Lemma split_app_nosep : forall c w r, ~ In c w -> split_char c (w ++ [c] ++ r) = w :: split_char c r.
Proof.
  intros c w r H. induction w as [|x w IH]; cbn [List.app split_char]; [rewrite N.eqb_refl; reflexivity|].
  destruct (N.eqb x c) eqn:E; [apply N.eqb_eq in E; subst; exfalso; apply H; left; reflexivity|]. cbn [List.app] in IH. rewrite IH by (intros ?; apply H; right; assumption). reflexivity.
Qed.
Lemma split_nosep : forall c w, ~ In c w -> split_char c w = [w].
Proof.
  intros c w H. induction w as [|x w IH]; cbn [split_char]; [reflexivity|].
  destruct (N.eqb x c) eqn:E; [apply N.eqb_eq in E; subst; exfalso; apply H; left; reflexivity|]. rewrite IH by (intros ?; apply H; right; assumption). reflexivity.
Qed.
Lemma split_join : forall c ks, ks <> [] -> (forall k, In k ks -> ~ In c k) -> split_char c (join [c] ks) = ks.
Proof.
  intros c ks Hn H. induction ks as [|k ks IH]; [congruence|]. destruct ks as [|k2 ks].
  - cbn [join]. apply split_nosep, H. left. reflexivity.
  - change (join [c] (k :: k2 :: ks)) with (k ++ [c] ++ join [c] (k2 :: ks)). rewrite split_app_nosep by (apply H; left; reflexivity).
    rewrite IH; [reflexivity|discriminate|intros k' Hk; apply H; right; exact Hk].
Qed.
Lemma keys_join : forall ks, ks <> [] -> (forall k, In k ks -> ~ In c_comma k) -> keys (strip (join [c_comma] ks)) = map strip ks.
Proof. intros ks H1 H2. unfold keys. rewrite keys_strip, split_join by assumption. reflexivity. Qed.

(** * Case-insensitive literals *)
Fixpoint ci_prefix (n s : str) : bool :=
  match n, s with [], _ => true | x :: n, y :: s => ci x y && ci_prefix n s | _, [] => false end.
Lemma rm_rci : forall n t i c, rm (rci n) t i c = if ci_prefix n (skipn i t) then [(i + length n, c)] else [].
Proof.
  induction n as [|x n IH]; intros t i c; cbn [rci rm ci_prefix].
  - cbn. rewrite Nat.add_0_r. reflexivity.
  - unfold next_is. rewrite nth_error_skipn. destruct (skipn i t) as [|y s] eqn:E; [reflexivity|].
    destruct (ci x y); [|reflexivity]. cbn [flat_map fst snd andb]. rewrite IH, (skipn_S_tl _ _ _ _ E), app_nil_r. cbn [length]. replace (S i + length n) with (i + S (length n)) by lia. reflexivity.
Qed.
Lemma ci_refl : forall x, ci x x = true.
Proof. intros x. unfold ci. rewrite N.eqb_refl. reflexivity. Qed.
Lemma ci_prefix_app : forall n s, ci_prefix n (n ++ s) = true.
Proof. induction n as [|x n IH]; intros s; cbn; [reflexivity|]. rewrite ci_refl, IH. reflexivity. Qed.
Lemma fm_rci : forall n t i c r, skipn i t = n ++ r -> first_match (rci n) t i c (i + length n) c.
Proof. intros n t i c r E. unfold first_match. rewrite rm_rci, E, ci_prefix_app. eexists. reflexivity. Qed.

(** an alternative of a sequence *)
Lemma fm_alt_seq_left : forall a b k t i c j c1, first_match (RSeq a k) t i c j c1 -> first_match (RSeq (RAlt a b) k) t i c j c1.
Proof. intros a b k t i c j c1 (l & H). unfold first_match. cbn [rm] in *. rewrite flat_map_app, H. eexists. reflexivity. Qed.
Lemma fm_alt_seq_right : forall a b k t i c j c1, rm (RSeq a k) t i c = [] -> first_match (RSeq b k) t i c j c1 -> first_match (RSeq (RAlt a b) k) t i c j c1.
Proof. intros a b k t i c j c1 H (l & H2). unfold first_match. cbn [rm] in *. rewrite flat_map_app, H, H2. eexists. reflexivity. Qed.

(** * Optional arguments *)
Lemma fm_sp : forall t i c ws r, skipn i t = ws ++ r -> blank ws -> (match r with x :: _ => isspace x | [] => false end) = false -> first_match sp t i c (i + length ws) c.
Proof. intros. unfold sp, rstar, rspace. eapply fm_star; eassumption. Qed.
Lemma fm_opt_some : forall n t i c a r, skipn i t = [c_lk] ++ a ++ [c_rk] ++ r -> ~ In c_rk a ->
  first_match (opt_brace n) t i c (i + length (bracketed (Some a))) ((n, (S i, S i + length a)) :: c).
Proof.
  intros n t i c a r E Ha. unfold opt_brace, ropt. apply fm_alt_left. cbn [rseq]. cbn [List.app] in E. pose proof (skipn_more1 _ _ _ _ E) as E1. pose proof (skipn_more _ _ a _ E1) as E2. cbn [List.app] in E2.
  eapply fm_seq; [eapply fm_is_ch; exact E|]. eapply fm_seq; [apply fm_grp; unfold rstar, not_ch; eapply fm_star; [exact E1|apply notin_forallb; exact Ha|reflexivity]|].
  replace (i + length (bracketed (Some a))) with (S (S i + length a)) by (cbn [bracketed]; rewrite !app_length; cbn [length]; lia). eapply fm_is_ch. exact E2.
Qed.
Lemma fm_opt_none : forall n (t : str) i c, (match skipn i t with x :: _ => N.eqb c_lk x | [] => false end) = false -> first_match (opt_brace n) t i c i c.
Proof.
  intros n t i c H. unfold opt_brace, ropt. apply fm_alt_right; [|apply fm_eps]. cbn [rseq]. apply rm_seq_none. unfold is_ch. apply rm_chr_none. exact H.
Qed.
Lemma not_open : forall (t : str) i ws r, skipn i t = ws ++ [c_lb] ++ r -> blank ws -> (match skipn i t with x :: _ => N.eqb c_lk x | [] => false end) = false.
Proof.
  intros t i ws r E H. rewrite E. destruct ws as [|y ws]; [reflexivity|]. cbn [List.app]. unfold blank in H. cbn in H. apply andb_prop in H as [Hy _]. apply N.eqb_neq. intros <-. discriminate Hy.
Qed.
(** the part of P_citation after the name *)
Definition cite_tail : re := rseq [sp; opt_brace 1; opt_brace 2; sp; lbrace].
Definition tail_text (ws1 : str) (pre post : option str) (ws2 r : str) : str := ws1 ++ bracketed pre ++ bracketed post ++ ws2 ++ [c_lb] ++ r.
Lemma fm_cite_tail : forall (t : str) i ws1 pre post ws2 r, skipn i t = tail_text ws1 pre post ws2 r -> blank ws1 -> blank ws2 -> good_note pre -> good_note post ->
  (pre = None -> post = None) ->
  exists c, first_match cite_tail t i [] (i + length (ws1 ++ bracketed pre ++ bracketed post ++ ws2 ++ [c_lb])) c /\
    option_map (fun '(a, b) => slice a b t) (cap_get 1 c) = pre /\ option_map (fun '(a, b) => slice a b t) (cap_get 2 c) = post.
Proof.
  intros t i ws1 pre post ws2 r E H1 H2 G1 G2 Hp. unfold tail_text in E. unfold cite_tail. cbn [rseq]. destruct pre as [a|].
  - cbn [bracketed good_note] in *. pose proof (skipn_more _ _ _ _ E) as E1. rewrite <- !app_assoc in E1.
    pose proof (skipn_more _ _ [c_lk] _ E1) as S1. cbn [length] in S1.
    assert (E2 : skipn (i + length ws1 + length ([c_lk] ++ a ++ [c_rk])) t = bracketed post ++ ws2 ++ [c_lb] ++ r) by (apply (skipn_more _ _ ([c_lk] ++ a ++ [c_rk]) _); rewrite E1, <- !app_assoc; reflexivity).
    assert (F1 : first_match sp t i [] (i + length ws1) []) by (eapply fm_sp; [exact E|exact H1|reflexivity]).
    pose proof (fm_opt_some 1 t (i + length ws1) [] a _ E1 G1) as F2. cbn [bracketed] in F2.
    assert (Sl : slice (S (i + length ws1)) (S (i + length ws1) + length a) t = a) by (eapply slice_at; replace (S (i + length ws1)) with (i + length ws1 + 1) by lia; exact S1).
    destruct post as [b|].
    + cbn [bracketed] in *. rewrite <- !app_assoc in E2.
      pose proof (fm_opt_some 2 t _ [(1, (S (i + length ws1), S (i + length ws1) + length a))] b _ E2 G2) as F3. cbn [bracketed] in F3.
      pose proof (skipn_more _ _ [c_lk] _ E2) as S2. cbn [length] in S2.
      assert (E3 : skipn (i + length ws1 + length ([c_lk] ++ a ++ [c_rk]) + length ([c_lk] ++ b ++ [c_rk])) t = ws2 ++ [c_lb] ++ r) by (apply (skipn_more _ _ ([c_lk] ++ b ++ [c_rk]) _); rewrite E2, <- !app_assoc; reflexivity).
      pose proof (skipn_more _ _ _ _ E3) as E4. eexists. split; [|split].
      * eapply fm_seq; [exact F1|]. eapply fm_seq; [exact F2|]. eapply fm_seq; [exact F3|]. eapply fm_seq; [eapply fm_sp; [exact E3|exact H2|reflexivity]|].
        match goal with |- first_match _ _ ?p _ ?q _ => replace q with (S p) by (rewrite !app_length; cbn [length]; lia) end. unfold lbrace. eapply fm_is_ch. exact E4.
      * cbn [cap_get Nat.eqb option_map]. rewrite Sl. reflexivity.
      * cbn [cap_get Nat.eqb option_map]. f_equal. eapply slice_at. match goal with |- skipn (S ?p) _ = _ => replace (S p) with (p + 1) by lia end. exact S2.
    + change (bracketed None ++ ws2 ++ [c_lb] ++ r) with (ws2 ++ [c_lb] ++ r) in E2. pose proof (skipn_more _ _ _ _ E2) as E4. eexists. split; [|split].
      * eapply fm_seq; [exact F1|]. eapply fm_seq; [exact F2|]. eapply fm_seq.
        { apply fm_opt_none. exact (not_open _ _ _ _ E2 H2). }
        eapply fm_seq; [eapply fm_sp; [exact E2|exact H2|reflexivity]|].
        match goal with |- first_match _ _ ?p _ ?q _ => replace q with (S p) by (cbn [bracketed]; rewrite !app_length; cbn [length]; lia) end. unfold lbrace. eapply fm_is_ch. exact E4.
      * cbn [cap_get Nat.eqb option_map]. rewrite Sl. reflexivity.
      * reflexivity.
  - assert (post = None) by (apply Hp; reflexivity). subst post. cbn [bracketed List.app] in E |- *. rewrite app_assoc in E. pose proof (skipn_more _ _ _ _ E) as E1.
    assert (Hb : blank (ws1 ++ ws2)) by (unfold blank in *; rewrite forallb_app, H1, H2; reflexivity). exists []. split; [|split; reflexivity].
    eapply fm_seq; [eapply fm_sp; [exact E|exact Hb|reflexivity]|]. eapply fm_seq; [apply fm_opt_none; rewrite E1; reflexivity|]. eapply fm_seq; [apply fm_opt_none; rewrite E1; reflexivity|].
    eapply fm_seq; [eapply (fm_sp _ _ _ [] _ E1); reflexivity|]. 
    match goal with |- first_match _ _ ?p _ ?q _ => replace q with (S p) by (rewrite !app_length; cbn [length]; lia) end. unfold lbrace. eapply fm_is_ch. cbn [length]. rewrite Nat.add_0_r. exact E1.
Qed.
