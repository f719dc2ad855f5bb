From Coq Require Import List NArith ZArith PeanoNat Lia Bool String.
From Verif Require Import PyStr Regex RegexLemmas RegexHead Json TexUtilsModel DelimSpec DelimProofs DelimFinal TextProofs TableProofs2 EtoolProofs KeyvalProofs ContentModel ContentSpec ContentProofs.
Import ListNotations. Notation length := List.length. Notation concat := List.concat. Open Scope list_scope.

(** * The name of a citation command *)
Definition tail_start (x : ch) : bool := isspace x || N.eqb x c_lk || N.eqb x c_lb.
Lemma tail_head : forall ws1 pre post ws2 r, blank ws1 -> blank ws2 -> exists x s, tail_text ws1 pre post ws2 r = x :: s /\ tail_start x = true.
Proof.
  intros ws1 pre post ws2 r H1 H2. unfold tail_text, tail_start. destruct ws1 as [|x ws1].
  - destruct pre as [a|]; [exists c_lk; eexists; split; [reflexivity|]; reflexivity|]. cbn [bracketed List.app]. destruct post as [b|]; [exists c_lk; eexists; split; [reflexivity|]; reflexivity|].
    cbn [bracketed List.app]. destruct ws2 as [|x ws2]; [exists c_lb; eexists; split; [reflexivity|]; reflexivity|]. unfold blank in H2. cbn in H2. apply andb_prop in H2 as [Hx _]. exists x. eexists. split; [reflexivity|]. rewrite Hx. reflexivity.
  - unfold blank in H1. cbn in H1. apply andb_prop in H1 as [Hx _]. exists x. eexists. split; [reflexivity|]. rewrite Hx. reflexivity.
Qed.
Lemma ci_tail : forall y x, in_range 97 122 y = true -> tail_start x = true -> ci y x = false.
Proof.
  intros y x Hy Hx. unfold tail_start in Hx. destruct (ci y x) eqn:E; [|reflexivity]. exfalso. unfold in_range in Hy. apply andb_prop in Hy as [Y1 Y2]. apply N.leb_le in Y1, Y2.
  assert (X : x = y \/ x = (y - 32)%N \/ x = 304%N \/ x = 305%N \/ x = 383%N \/ x = 8490%N).
  { unfold ci in E. repeat (apply orb_prop in E as [E|E]); repeat (apply andb_prop in E as [_ E]); try (apply orb_prop in E as [E|E]); apply N.eqb_eq in E; auto 8. }
  apply orb_prop in Hx as [Hx|Hx]; [apply orb_prop in Hx as [Hx|Hx]|].
  - assert (B : (x <= 8490 /\ (x < 33 \/ x = 133 \/ x = 160 \/ x = 5760 \/ 8192 <= x))%N \/ (8490 < x)%N).
    { destruct (N.leb_spec x 8490); [left; split; [assumption|]|right; assumption]. revert Hx. unfold isspace, in_range. 
      rewrite !orb_true_iff, !andb_true_iff, ?N.eqb_eq, ?N.leb_le. lia. }
    destruct X as [->|[->|[->|[->|[->| ->]]]]]; try discriminate Hx; lia.
  - apply N.eqb_eq in Hx. unfold c_lk in Hx. lia.
  - apply N.eqb_eq in Hx. unfold c_lb in Hx. lia.
Qed.
Definition letters (s : str) : Prop := forallb (in_range 97 122) s = true.
Lemma ci_letters : forall y x, in_range 97 122 y = true -> in_range 97 122 x = true -> ci y x = true -> x = y.
Proof.
  intros y x Hy Hx E. unfold in_range in *. apply andb_prop in Hy as [Y1 Y2], Hx as [X1 X2]. apply N.leb_le in Y1, Y2, X1, X2.
  unfold ci in E. repeat (apply orb_prop in E as [E|E]); repeat (apply andb_prop in E as [_ E]); try (apply orb_prop in E as [E|E]); apply N.eqb_eq in E; lia.
Qed.
Lemma ci_prefix_letters : forall n name x s, letters n -> letters name -> tail_start x = true -> ci_prefix n (name ++ x :: s) = true -> exists m, name = n ++ m.
Proof.
  unfold letters. induction n as [|y n IH]; intros name x s Hn Hm Hx H; [exists name; reflexivity|]. cbn in Hn. apply andb_prop in Hn as [Hy Hn].
  destruct name as [|z name]; cbn [List.app ci_prefix] in H.
  - rewrite (ci_tail y x Hy Hx) in H. discriminate H.
  - cbn in Hm. apply andb_prop in Hm as [Hz Hm]. apply andb_prop in H as [H1 H2]. rewrite (ci_letters y z Hy Hz H1). destruct (IH name x s Hn Hm Hx H2) as (m & ->). exists m. reflexivity.
Qed.
Lemma sp_stay : forall t i c, (match skipn i t with x :: _ => isspace x | [] => false end) = false -> rm sp t i c = [(i, c)].
Proof.
  intros t i c H. unfold sp, rstar, rspace. rewrite rm_star_chr_greedy. destruct (skipn i t) as [|x r]; cbn; [reflexivity|]. rewrite H. reflexivity.
Qed.
Lemma opt_stay : forall n (t : str) i c, (match skipn i t with x :: _ => N.eqb c_lk x | [] => false end) = false -> rm (opt_brace n) t i c = [(i, c)].
Proof.
  intros n t i c H. unfold opt_brace, ropt. change (rm (RAlt ?a REps) t i c) with (rm a t i c ++ [(i, c)]). cbn [rseq]. rewrite rm_seq_none; [reflexivity|]. unfold is_ch. apply rm_chr_none. exact H.
Qed.
Lemma rm_seq1 : forall a b t i c, rm a t i c = [(i, c)] -> rm (RSeq a b) t i c = rm b t i c.
Proof. intros a b t i c H. cbn [rm]. rewrite H. cbn. apply app_nil_r. Qed.
Lemma letter_facts : forall l, in_range 97 122 l = true -> isspace l = false /\ N.eqb c_lk l = false /\ N.eqb c_lb l = false.
Proof.
  intros l H. pose proof H as H'. unfold in_range in H. apply andb_prop in H as [H1 H2]. apply N.leb_le in H1, H2.
  assert (T : tail_start l = false). { destruct (tail_start l) eqn:E; [|reflexivity]. pose proof (ci_tail l l H' E) as C. rewrite ci_refl in C. discriminate C. }
  unfold tail_start in T. apply orb_false_iff in T as [T T3]. apply orb_false_iff in T as [T1 T2]. rewrite N.eqb_sym in T2, T3. auto.
Qed.
Lemma tail_dead : forall (t : str) i c l r, skipn i t = l :: r -> in_range 97 122 l = true -> rm cite_tail t i c = [].
Proof.
  intros t i c l r E H. destruct (letter_facts l H) as (H1 & H2 & H3). unfold cite_tail. cbn [rseq].
  rewrite rm_seq1 by (apply sp_stay; rewrite E; exact H1). rewrite !rm_seq1 by (first [apply opt_stay; rewrite E; exact H2|apply sp_stay; rewrite E; exact H1]).
  unfold lbrace, is_ch. apply rm_chr_none. rewrite E. exact H3.
Qed.
Lemma alt_dead : forall n name x s c (t : str), letters n -> letters name -> n <> name -> tail_start x = true -> skipn 1 t = name ++ x :: s -> rm (RSeq (rci n) cite_tail) t 1 c = [].
Proof.
  intros n name x s c t Hn Hm Ne Hx E. cbn [rm]. rewrite rm_rci, E. destruct (ci_prefix n (name ++ x :: s)) eqn:P; [|reflexivity].
  destruct (ci_prefix_letters n name x s Hn Hm Hx P) as (m & ->). destruct m as [|l m]; [rewrite app_nil_r in Ne; congruence|].
  cbn [flat_map fst snd]. rewrite app_nil_r. apply tail_dead with (l := l) (r := m ++ x :: s).
  - rewrite <- app_assoc in E. apply (skipn_more _ _ _ _ E).
  - unfold letters in Hm. rewrite forallb_app in Hm. apply andb_prop in Hm as [_ Hm]. cbn in Hm. apply andb_prop in Hm as [Hm _]. exact Hm.
Qed.
Lemma fm_ralt_names : forall names name x s (t : str) j c1, In name names -> (forall n, In n names -> letters n) -> tail_start x = true -> skipn 1 t = name ++ x :: s ->
  first_match (RSeq (rci name) cite_tail) t 1 [] j c1 -> first_match (RSeq (ralt (map rci names)) cite_tail) t 1 [] j c1.
Proof.
  induction names as [|n names IH]; intros name x s t j c1 Hin Hl Hx E F; [destruct Hin|]. destruct names as [|n2 names].
  - destruct Hin as [->|[]]. exact F.
  - change (ralt (map rci (n :: n2 :: names))) with (RAlt (rci n) (ralt (map rci (n2 :: names)))).
    destruct (str_eqb n name) eqn:En.
    + apply str_eqb_spec in En. subst n. apply fm_alt_seq_left. exact F.
    + assert (Ne : n <> name) by (intros ->; rewrite str_eqb_refl in En; discriminate En). destruct Hin as [->|Hin]; [congruence|].
      apply fm_alt_seq_right; [|apply (IH name x s); auto; intros; apply Hl; right; assumption]. eapply alt_dead; try eassumption; apply Hl; [left; reflexivity|right; exact Hin].
Qed.

(** * Citations *)
Definition tail_name (name : string) : str := tl (lit name).
Lemma cite_names : forall name, In name cite_commands -> lit name = [c_bs] ++ tail_name name /\ In (tail_name name) (map lit citation_names).
Proof. intros name H. repeat (destruct H as [<-|H]; [split; [reflexivity|cbn; tauto]|]). destruct H. Qed.
Lemma names_letters : forall n, In n (map lit citation_names) -> letters n.
Proof. intros n H. repeat (destruct H as [<-|H]; [reflexivity|]). destruct H. Qed.
Lemma P_citation_eq : P_citation = RSeq bs (RSeq (ralt (map rci (map lit citation_names))) cite_tail).
Proof. reflexivity. Qed.
Lemma first_pattern_app : forall a b t, first_pattern a t = None -> first_pattern (a ++ b) t = first_pattern b t.
Proof. induction a as [|[k p] a IH]; intros b t H; [reflexivity|]. cbn [first_pattern List.app] in *. destruct (re_match_at p t 0); [discriminate H|]. apply IH, H. Qed.
Lemma before_citation : forall word r, first_pattern (firstn 22 (PATTERNS word)) (lit "\cite" ++ r) = None.
Proof. intros word r. reflexivity. Qed.
Lemma cite_prefix : forall name, In name cite_commands -> exists q, lit name = lit "\cite" ++ q.
Proof. intros name H. repeat (destruct H as [<-|H]; [eexists; reflexivity|]). destruct H. Qed.
(** the balanced argument after the match *)
Lemma nested_arg : forall (t pre : str) body rest, closed body -> t = pre ++ [c_lb] ++ body ++ [c_rb] ++ rest ->
  extract_nested_content (skipn (S (length pre) - 1) t) c_lb c_rb = (Some body, 1 + length body + 1).
Proof.
  intros t pre body rest [B C] ->. replace (S (length pre) - 1) with (length pre) by lia. rewrite skipn_app, skipn_all, Nat.sub_diag.
  apply (proj2 (extract_nested_content_iff c_lb c_rb _ _ _ delims_curly)). exists [], rest. repeat split; auto.
Qed.
Lemma note_of : forall t m n o, option_map (fun '(a, b) => slice a b t) (cap_get n (m_caps m)) = o -> filter (fun s : str => negb (nilb s)) [note t n m] = trimmed_note o.
Proof.
  intros t m n o H. unfold note, m_group. rewrite H. destruct o as [a|]; [|reflexivity]. cbn [filter trimmed_note]. destruct (strip a); reflexivity.
Qed.
Lemma notes_of : forall t m pre post, option_map (fun '(a, b) => slice a b t) (cap_get 1 (m_caps m)) = pre -> option_map (fun '(a, b) => slice a b t) (cap_get 2 (m_caps m)) = post ->
  filter (fun s : str => negb (nilb s)) [note t 1 m; note t 2 m] = trimmed_note pre ++ trimmed_note post.
Proof. intros t m pre post H1 H2. rewrite <- (note_of t m 1 pre H1), <- (note_of t m 2 post H2), <- filter_app. reflexivity. Qed.
Theorem citation : forall word expand d name ws1 pre post ws2 body rest ks,
  In name cite_commands -> blank ws1 -> blank ws2 -> good_note pre -> good_note post -> (pre = None -> post = None) -> closed body ->
  expand body = join [c_comma] ks -> ks <> [] -> (forall k, In k ks -> ~ In c_comma k) ->
  content_handle word expand d (cite_text name ws1 pre post ws2 body rest) =
    Ok (d, (VDict ([(lit "type", VStr (lit "citation")); (lit "content", key_list ks)] ++ note_title pre post),
            length (cite_text name ws1 pre post ws2 body []))).
Proof.
  intros word expand d name ws1 pre post ws2 body rest ks Hn H1 H2 G1 G2 Hp Hb He Hk Hc. set (t := cite_text name ws1 pre post ws2 body rest).
  destruct (cite_names name Hn) as (En & Hin). set (nm := tail_name name) in *.
  assert (Et : t = [c_bs] ++ nm ++ tail_text ws1 pre post ws2 (body ++ [c_rb] ++ rest)) by (unfold t, cite_text, tail_text; rewrite En; rewrite <- ?app_assoc; reflexivity).
  destruct (tail_head ws1 pre post ws2 (body ++ [c_rb] ++ rest) H1 H2) as (x & s & Ex & Hx).
  assert (E1 : skipn 1 t = nm ++ tail_text ws1 pre post ws2 (body ++ [c_rb] ++ rest)) by (rewrite Et; reflexivity).
  destruct (fm_cite_tail t (1 + length nm) ws1 pre post ws2 (body ++ [c_rb] ++ rest) (skipn_more _ _ _ _ E1) H1 H2 G1 G2 Hp) as (c & F & C1 & C2).
  set (head := lit name ++ ws1 ++ bracketed pre ++ bracketed post ++ ws2).
  assert (Hlen : 1 + length nm + length (ws1 ++ bracketed pre ++ bracketed post ++ ws2 ++ [c_lb]) = S (length head)) by (unfold head; rewrite En, !app_length; cbn [length]; lia).
  rewrite Hlen in F.
  assert (M : re_match_at P_citation t 0 = Some {| m_start := 0; m_end := S (length head); m_caps := c |}).
  { apply fm_match. rewrite P_citation_eq. eapply fm_seq; [unfold bs; eapply fm_is_ch with (r := nm ++ tail_text ws1 pre post ws2 (body ++ [c_rb] ++ rest)); rewrite Et; reflexivity|].
    apply (fm_ralt_names _ nm x s); [exact Hin|exact names_letters|exact Hx|rewrite E1, Ex; reflexivity|]. eapply fm_seq; [eapply fm_rci; exact E1|exact F]. }
  assert (P : first_pattern (PATTERNS word) t = Some (Kcitation, {| m_start := 0; m_end := S (length head); m_caps := c |})).
  { rewrite <- (firstn_skipn 22 (PATTERNS word)), first_pattern_app.
    - cbn [PATTERNS skipn first_pattern]. rewrite M. reflexivity.
    - destruct (cite_prefix name Hn) as (q & Eq). unfold t, cite_text. rewrite Eq, <- app_assoc. apply before_citation. }
  unfold content_handle. rewrite P. cbn [m_end].
  rewrite (nested_arg t head body rest Hb) by (unfold t, cite_text, head; rewrite <- ?app_assoc; reflexivity).
  unfold create_token. rewrite He, (keys_join ks Hk Hc). cbn [bind fst snd].
  pose proof (notes_of t {| m_start := 0; m_end := S (length head); m_caps := c |} pre post C1 C2) as N. cbv zeta. rewrite N.
  do 3 f_equal; [|unfold head, cite_text; rewrite !app_length; cbn [length]; lia].
  unfold tok, contentf, strs, key_list, note_title. rewrite map_map. do 2 f_equal.
  unfold trimmed_note. destruct pre as [a|]; [destruct (strip a) as [|y a']|]; destruct post as [b|]; try destruct (strip b) as [|z b']; reflexivity.
Qed.
