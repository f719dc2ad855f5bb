From Coq Require Import List NArith ZArith PeanoNat Lia Bool String.
From Verif Require Import PyStr Regex RegexLemmas RegexHead Json TexUtilsModel DelimSpec DelimProofs DelimFinal TextProofs TableProofs2 EtoolProofs KeyvalProofs ContentModel ContentSpec ContentProofs ContentProofs2 ContentProofs3 ContentSpec2 ContentProofs5 ContentProofs6.
Import ListNotations. Notation length := List.length. Notation concat := List.concat. Open Scope list_scope.

(** * The page of a graphic *)
Lemma chr_head : forall p t i j, rel (RChr p) t i j -> exists x q, skipn i t = x :: q /\ p x = true.
Proof.
  intros p t i j R. inversion R; subst. match goal with N : nth_error t i = Some ?x |- _ => exists x; rewrite nth_error_skipn in N; destruct (skipn i t) as [|y q]; [discriminate N|]; injection N as ->; exists q; split; [reflexivity|assumption] end.
Qed.
Lemma page_rel : forall o i j, rel page_pattern o i j -> exists x q, skipn i o = lit "page=" ++ x :: q /\ (48 <= x <= 57)%N.
Proof.
  intros o i j R. unfold page_pattern in R. apply rel_rseq2 in R as (k & R1 & R). apply rel_rstr in R1 as (-> & q & E). apply rel_grp1 in R. unfold rplus in R. apply rel_rseq2 in R as (k & R & _).
  apply chr_head in R as (x & q' & E' & D). rewrite (skipn_more _ _ _ _ E) in E'. subst q. exists x, q'. split; [exact E|]. apply digit_iff. exact D.
Qed.
Lemma at_split : forall (o : str) i r, skipn i o = r -> r <> [] -> o = firstn i o ++ r /\ length (firstn i o) = i.
Proof.
  intros o i r E N. split; [rewrite <- E; symmetry; apply firstn_skipn|]. rewrite firstn_length. destruct (Nat.leb_spec i (length o)); [lia|]. exfalso. apply N. rewrite <- E. apply skipn_all2. lia.
Qed.
Lemma page_some : forall o n, names_page o n -> page_number (Some o) = Some n.
Proof.
  intros o n (a & ds & b & E & [N D] & V & B & M). unfold page_number.
  assert (E0 : skipn (length a) o = lit "page=" ++ ds ++ b) by (rewrite E; apply skipn_app_exact; reflexivity).
  assert (F : re_match_at page_pattern o (length a) = Some {| m_start := length a; m_end := length a + 5 + length ds; m_caps := [(1, (length a + 5, length a + 5 + length ds))] |}).
  { apply fm_match. unfold page_pattern. pose proof (skipn_more _ _ _ _ E0) as E1. eapply fm_seq; [eapply fm_rstr; exact E0|]. apply fm_grp. unfold rdigit. eapply fm_plus; [exact E1|exact N|apply forallb_forall; intros x Hx; apply digit_iff, D, Hx|].
    destruct b as [|x b']; [reflexivity|]. specialize (B x b' eq_refl). rewrite <- digit_iff in B. destruct (isdigit x); [congruence|reflexivity]. }
  assert (S : re_search page_pattern o = Some {| m_start := length a; m_end := length a + 5 + length ds; m_caps := [(1, (length a + 5, length a + 5 + length ds))] |}).
  { unfold re_search. apply (search_first page_pattern o 0 (length a)); [lia|rewrite E, app_length; lia| |exact F]. intros k _ L. apply re_match_at_none; [rewrite E, app_length; lia|]. intros j R. apply page_rel in R as (x & q & E' & Dx).
    destruct (at_split o k _ E' ltac:(discriminate)) as (E2 & L2). specialize (M _ _ _ E2 Dx). lia. }
  rewrite S. unfold m_group. cbn [m_caps cap_get Nat.eqb option_map].
  rewrite (slice_at o (length a + 5) ds b) by (exact (skipn_more _ _ _ _ E0)). rewrite (int_value ds (conj N D)), V. reflexivity.
Qed.
Lemma page_none : forall o, no_page o -> page_number (Some o) = None.
Proof.
  intros o H. unfold page_number. assert (S : re_search page_pattern o = None); [|rewrite S; reflexivity].
  unfold re_search. apply re_search_none. intros i j L R. apply page_rel in R as (x & q & E & D). destruct (at_split o i _ E ltac:(discriminate)) as (E2 & _). exact (H _ _ _ E2 D).
Qed.
Lemma page_option : forall o p, option_page o p -> page_number o = p.
Proof. intros [o|] [n|] H; cbn in H; [apply page_some; exact H|apply page_none; exact H|discriminate H|reflexivity]. Qed.
Lemma graphics_command : forall word expand d ws1 o ws2 body rest p, blank ws1 -> blank ws2 -> good_note o -> closed body -> option_page o p ->
  takes (content_handle word expand d) (lit "\includegraphics" ++ ws1 ++ bracketed o ++ ws2 ++ group body) rest d
    (token "includegraphics" (field "content" (VStr (strip (expand body))) :: page_field p)).
Proof.
  intros word expand d ws1 o ws2 body rest p H1 H2 G Hb P. apply (option_command word expand d 19 Kincludegraphics P_includegraphics d _ (lit "includegraphics")); try assumption; try discriminate; try reflexivity.
  intros t m E. unfold create_token. rewrite E, (page_option o p P). destruct p; reflexivity.
Qed.

(** * The pages of a document *)
Lemma chars_iff : forall x, in_str (lit "0123456789-,") x = true <-> page_chars [x].
Proof.
  intros x. unfold page_chars. split.
  - intros H y [<-|[]]. unfold in_str in H; apply existsb_exists in H as (z & Hz & E). apply N.eqb_eq in E. subst z. cbn in Hz. repeat (destruct Hz as [<-|Hz]; [first [left; lia|right; cbn; tauto]|]). destruct Hz.
  - intros H. specialize (H x (or_introl eq_refl)). unfold in_str. apply existsb_exists. exists x. split; [|apply N.eqb_refl]. cbn. destruct H as [H|[H|[H|[]]]]; [|auto 20|auto 20].
    assert (C : (x = 48 \/ x = 49 \/ x = 50 \/ x = 51 \/ x = 52 \/ x = 53 \/ x = 54 \/ x = 55 \/ x = 56 \/ x = 57)%N) by lia.
    repeat (destruct C as [->|C]; [auto 20|]). subst x. auto 20.
Qed.
Lemma chars_all : forall ps, ContentSpec2.page_chars ps -> forallb (in_str (lit "0123456789-,")) ps = true.
Proof. intros ps H. apply forallb_forall. intros x Hx. apply chars_iff. intros y [<-|[]]. exact (H x Hx). Qed.
Lemma pages_rel : forall o i j, rel pages_pattern o i j -> exists q, skipn i o = lit "pages=" ++ q.
Proof. intros o i j R. unfold pages_pattern in R. apply rel_rseq2 in R as (k & R1 & R). apply rel_rstr in R1 as (-> & q & E). exists q. exact E. Qed.
Lemma pages_some : forall o ps, names_pages o ps -> pages_of (Some o) = Some ps.
Proof.
  intros o ps (N & C & a & b & M & E). unfold pages_of. apply chars_all in C.
  assert (X : exists e c, re_match_at pages_pattern o (length a) = Some {| m_start := length a; m_end := e; m_caps := c |} /\
     (match m_group o 1 {| m_start := length a; m_end := e; m_caps := c |} with Some d => Some d | None => m_group o 2 {| m_start := length a; m_end := e; m_caps := c |} end) = Some ps).
  { destruct E as [E|[E B]].
    - assert (E0 : skipn (length a) o = lit "pages=" ++ [c_lb] ++ ps ++ [c_rb] ++ b) by (rewrite E; unfold group; rewrite <- !app_assoc; apply skipn_app_exact; reflexivity).
      pose proof (skipn_more _ _ _ _ E0) as E1. cbn [List.app] in E1. pose proof (skipn_more1 _ _ _ _ E1) as E2. pose proof (skipn_more _ _ _ _ E2) as E3. cbn [List.app] in E3.
      eexists. eexists. split.
      + apply fm_match. unfold pages_pattern. eapply fm_seq; [eapply fm_rstr; exact E0|]. apply fm_alt_left. cbn [rseq]. eapply fm_seq; [unfold lbrace; eapply fm_is_ch; exact E1|].
        eapply fm_seq; [apply fm_grp; unfold ContentModel.page_chars, rcls; eapply fm_plus; [exact E2|exact N|exact C|reflexivity]|]. eapply fm_is_ch. exact E3.
      + unfold m_group. cbn [m_caps cap_get Nat.eqb option_map]. f_equal. eapply slice_at. exact E2.
    - assert (E0 : skipn (length a) o = lit "pages=" ++ ps ++ b) by (rewrite E; apply skipn_app_exact; reflexivity).
      pose proof (skipn_more _ _ _ _ E0) as E1. eexists. eexists. split.
      + apply fm_match. unfold pages_pattern. eapply fm_seq; [eapply fm_rstr; exact E0|]. apply fm_alt_right.
        * cbn [rseq]. apply rm_seq_none. unfold lbrace, is_ch. apply rm_chr_none. rewrite E1. destruct ps as [|x ps]; [congruence|]. cbn in C. cbn [List.app]. apply N.eqb_neq. intros <-. discriminate C.
        * apply fm_grp. unfold ContentModel.page_chars, rcls. eapply fm_plus; [exact E1|exact N|exact C|]. destruct b as [|x b']; [reflexivity|]. specialize (B x b' eq_refl). rewrite <- chars_iff in B. destruct (in_str (lit "0123456789-,") x); [congruence|reflexivity].
      + unfold m_group. cbn [m_caps cap_get Nat.eqb option_map]. f_equal. eapply slice_at. exact E1. }
  destruct X as (e & c & F & V). assert (L : length a <= length o) by (destruct E as [->|[-> _]]; rewrite app_length; lia).
  assert (S : re_search pages_pattern o = Some {| m_start := length a; m_end := e; m_caps := c |}).
  { unfold re_search. apply (search_first pages_pattern o 0 (length a)); [lia|exact L| |exact F]. intros k _ Lk. apply re_match_at_none; [lia|]. intros j R. apply pages_rel in R as (q & E').
    destruct (at_split o k _ E' ltac:(discriminate)) as (E2 & L2). specialize (M _ _ E2). lia. }
  rewrite S. exact V.
Qed.
Lemma pages_none : forall o, (forall a q, o <> a ++ lit "pages=" ++ q) -> pages_of (Some o) = None.
Proof.
  intros o H. unfold pages_of. assert (S : re_search pages_pattern o = None); [|rewrite S; reflexivity].
  unfold re_search. apply re_search_none. intros i j L R. apply pages_rel in R as (q & E). destruct (at_split o i _ E ltac:(discriminate)) as (E2 & _). exact (H _ _ E2).
Qed.
Lemma pages_option : forall o p, option_pages o p -> pages_of o = p.
Proof. intros [o|] [n|] P; cbn in P; [apply pages_some; exact P|apply pages_none; exact P|discriminate P|reflexivity]. Qed.
Lemma pages_command : forall word expand d ws1 o ws2 body rest p, blank ws1 -> blank ws2 -> good_note o -> closed body -> option_pages o p ->
  takes (content_handle word expand d) (lit "\includepdf" ++ ws1 ++ bracketed o ++ ws2 ++ group body) rest d
    (token "includepdf" (field "content" (VStr (strip (expand body))) :: pages_field p)).
Proof.
  intros word expand d ws1 o ws2 body rest p H1 H2 G Hb P. apply (option_command word expand d 20 Kincludepdf P_includepdf d _ (lit "includepdf")); try assumption; try discriminate; try reflexivity.
  intros t m E. unfold create_token. cbv zeta. rewrite E, (pages_option o p P). destruct p as [ps|]; [|reflexivity]. destruct o as [o|]; cbn in P; [|discriminate P]. destruct P as [N _]. destruct ps; [congruence|reflexivity].
Qed.

(** * Aliases *)
Lemma get_set : forall d k v k', alias_get k' (alias_set k v d) = if str_eqb k' k then Some v else alias_get k' d.
Proof.
  induction d as [|[k0 v0] d IH]; intros k v k'; cbn [alias_set alias_get].
  - destruct (str_eqb k' k); reflexivity.
  - destruct (str_eqb k k0) eqn:E; cbn [alias_get].
    + apply str_eqb_spec in E. subst k0. destruct (str_eqb k' k); reflexivity.
    + rewrite IH. destruct (str_eqb k' k0) eqn:E2; [|reflexivity]. apply str_eqb_spec in E2. subst k0. destruct (str_eqb k' k) eqn:E3; [|reflexivity]. apply str_eqb_spec in E3. subst k'. rewrite str_eqb_refl in E. discriminate E.
Qed.
(** the dictionary after the definitions [defs] *)
Fixpoint after (d : aliases) (defs : list (str * str)) : aliases := match defs with [] => d | (k, v) :: r => after (alias_set k v d) r end.
Lemma after_latest : forall defs d k, alias_get k (after d defs) = match latest k defs with Some v => Some v | None => alias_get k d end.
Proof.
  induction defs as [|[k0 v0] defs IH]; intros d k; [reflexivity|]. cbn [after latest]. rewrite IH, get_set. destruct (latest k defs); [reflexivity|]. destruct (str_eqb k k0); reflexivity.
Qed.
Lemma define_command : forall word expand d ws1 k ws2 body rest, blank ws1 -> blank ws2 -> flat k -> closed body ->
  takes (content_handle word expand d) (lit "\defcitealias" ++ ws1 ++ group k ++ ws2 ++ group body) rest (alias_set (strip k) (strip (expand body)) d) VNone.
Proof.
  intros word expand d ws1 k ws2 body rest H1 H2 G Hb. apply (two_command word expand d 23 Kdefcitealias P_defcitealias _ _ (lit "defcitealias") []); try assumption; try discriminate; try reflexivity.
  - intros s r o R _. unfold P_defcitealias. cbn [rseq List.app length]. intros t i c. specialize (runs_name (lit "defcitealias") _ s r o R t i c). rewrite Nat.add_0_r. exact (fun X => X).
  - intros t m E. unfold create_token, group_strip1. rewrite E. reflexivity.
Qed.
Lemma use_command : forall word expand defs name ws body rest ks, In name ["\citetalias"; "\citepalias"]%string -> blank ws -> closed body ->
  expand body = join [c_comma] ks -> ks <> [] -> (forall k, In k ks -> ~ In c_comma k) ->
  takes (content_handle word expand (after [] defs)) (lit name ++ ws ++ group body) rest (after [] defs) (one_or_list (map (fun k => alias_citation defs (strip k)) ks)).
Proof.
  intros word expand defs name ws body rest ks Hn Hw Hb He Nk Ck. set (d := after [] defs).
  assert (T : forall k, VDict (alias_token d k) = alias_citation defs k).
  { intros k. unfold alias_token, alias_citation, d. rewrite after_latest. cbn [alias_get]. destruct (latest k defs) as [[|x v]|]; reflexivity. }
  assert (C : forall t m, create_token d Kcitealias t m (expand body) = Ok (d, one_or_list (map (fun k => alias_citation defs (strip k)) ks))).
  { intros t m. unfold create_token. rewrite He, (keys_join ks Nk Ck), map_map. destruct ks as [|k1 [|k2 ks]]; [congruence|cbn [map one_or_list]; rewrite <- T; reflexivity|].
    cbn [map one_or_list]. rewrite <- !T. do 3 f_equal. cbn [map]. do 2 f_equal. rewrite map_map. apply map_ext. intros k. apply T. }
  destruct Hn as [<-|[<-|[]]]; [apply (plain_command word expand d 24 Kcitealias P_citealias d _ (lit "citetalias"))|apply (plain_command word expand d 24 Kcitealias P_citealias d _ (lit "citepalias"))];
    try assumption; try discriminate; try reflexivity; try (intros t _; apply C); intros s r R; unfold P_citealias; cbn [rseq].
  - apply (runs_seq bs _ [c_bs] _ _ keep keep); [apply runs_ch|]. apply (runs_seq _ _ (lit "cite") (lit "talias" ++ s) _ keep keep); [apply runs_lit|].
    apply (runs_seq _ _ (lit "t") (lit "alias" ++ s) _ keep keep); [intros t i c E; cbn [length]; rewrite Nat.add_1_r; eapply fm_chr; [exact E|reflexivity]|]. apply (runs_seq _ _ (lit "alias") s _ keep keep); [apply runs_lit|exact R].
  - apply (runs_seq bs _ [c_bs] _ _ keep keep); [apply runs_ch|]. apply (runs_seq _ _ (lit "cite") (lit "palias" ++ s) _ keep keep); [apply runs_lit|].
    apply (runs_seq _ _ (lit "p") (lit "alias" ++ s) _ keep keep); [intros t i c E; cbn [length]; rewrite Nat.add_1_r; eapply fm_chr; [exact E|reflexivity]|]. apply (runs_seq _ _ (lit "alias") s _ keep keep); [apply runs_lit|exact R].
Qed.
