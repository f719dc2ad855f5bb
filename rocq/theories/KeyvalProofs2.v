From Coq Require Import List NArith ZArith PeanoNat Lia Bool String.
From Verif Require Import PyStr Regex RegexLemmas RegexHead Json TexUtilsModel DelimSpec DelimProofs DelimFinal SubstModel EtoolProofs KeyvalModel KeyvalSpec KeyvalProofs.
Import ListNotations. Notation length := List.length. Notation concat := List.concat. Open Scope list_scope.

(** * Extraction of a known run of groups *)
Lemma groups_same : forall o c, delims_ok o c -> forall t bs p, groups_at o c t bs p -> forall bs' p', groups_at o c t bs' p' -> length bs' <= length bs ->
  (length bs' < length bs -> forall ct n, ~ group_at o c (skipn p' t) ct n) -> bs' = bs /\ p' = p.
Proof.
  intros o c Hd t bs p H. induction H as [t|t b n bs m G Hr IH]; intros bs' p' H' Hl Hs.
  - destruct bs'; [|cbn in Hl; lia]. inversion H'; subst. auto.
  - inversion H' as [|? b' n' bs0 m' G' Hr']; subst.
    + exfalso. apply (Hs ltac:(cbn; lia) b n). exact G.
    + destruct (group_at_fun o c t b n b' n' Hd G G') as [-> ->]. cbn [length] in *.
      destruct (IH bs0 m' Hr') as [-> ->]; [lia| |auto]. intros L ct k. specialize (Hs ltac:(lia) ct k). rewrite <- skipn_add in Hs. exact Hs.
Qed.
Lemma blocks_exact : forall o c t bs p, delims_ok o c -> groups_at o c t bs p -> extract_nested_content_sequence_blocks t o c (Some (length bs)) = (bs, p).
Proof.
  intros o c t bs p Hd H. destruct (c03_blocks o c t (Some (length bs)) Hd) as (bs' & p' & E & G & L & S). rewrite E.
  destruct (groups_same o c Hd t bs p H bs' p' G L S) as [-> ->]. reflexivity.
Qed.
Lemma blocks_none : forall o c t, delims_ok o c -> (forall b n, ~ group_at o c t b n) -> exists p, extract_nested_content_sequence_blocks t o c (Some 1) = ([], p).
Proof.
  intros o c t Hd H. destruct (c03_blocks o c t (Some 1) Hd) as (bs & p & E & G & L & S). inversion G; subst; [exists 0; rewrite E; reflexivity|]. exfalso. eapply H. eassumption.
Qed.
(** leading blanks belong to the first group *)
Lemma lead_blank : forall r, exists ws r', r = ws ++ r' /\ forallb isspace ws = true /\ (match r' with x :: _ => isspace x | [] => false end) = false.
Proof.
  induction r as [|x r IH]; [exists [], []; auto|]. destruct (isspace x) eqn:E.
  - destruct IH as (ws & r' & -> & H1 & H2). exists (x :: ws), r'. cbn. rewrite E. auto.
  - exists [], (x :: r). auto.
Qed.
Lemma same_lead : forall o (ws ws' r r' : str), forallb isspace ws = true -> forallb isspace ws' = true -> isspace o = false ->
  (match r' with x :: _ => isspace x | [] => false end) = false -> ws' ++ r' = ws ++ o :: r -> ws' = ws /\ r' = o :: r.
Proof.
  intros o. induction ws as [|x ws IH]; intros ws' r r' H1 H2 Ho Hr E; destruct ws' as [|y ws']; cbn in *.
  - auto.
  - injection E as -> E. rewrite Ho in H2. discriminate H2.
  - subst r'. apply andb_prop in H1 as [H1 _]. rewrite H1 in Hr. discriminate Hr.
  - injection E as -> E. apply andb_prop in H1 as [_ H1]. apply andb_prop in H2 as [_ H2]. destruct (IH ws' r r' H1 H2 Ho Hr E) as [-> ->]. auto.
Qed.
Lemma group_strip : forall o c (ws r' : str) b n, delims_ok o c -> forallb isspace ws = true -> (match r' with x :: _ => isspace x | [] => false end) = false ->
  group_at o c (ws ++ r') b n -> length ws <= n /\ group_at o c r' b (n - length ws).
Proof.
  intros o c ws r' b n (_ & Ho & _) Hw Hr (w & rest & E & Hw' & Hb & Hc & ->). destruct (same_lead o w ws _ r' Hw' Hw Ho Hr E) as [-> ->].
  split; [lia|]. exists [], rest. repeat split; auto. cbn [length]. lia.
Qed.
Lemma groups_strip : forall o c (ws r' : str) b bs n, delims_ok o c -> forallb isspace ws = true -> (match r' with x :: _ => isspace x | [] => false end) = false ->
  groups_at o c (ws ++ r') (b :: bs) n -> length ws <= n /\ groups_at o c r' (b :: bs) (n - length ws).
Proof.
  intros o c ws r' b bs n Hd Hw Hr H. inversion H as [|? ? n0 ? m0 G G']; subst. destruct (group_strip o c ws r' b n0 Hd Hw Hr G) as [L G0].
  split; [lia|]. replace (n0 + m0 - length ws) with ((n0 - length ws) + m0) by lia. constructor; [exact G0|].
  rewrite skipn_app in G'. rewrite (skipn_all2 ws) in G' by lia. exact G'.
Qed.

(** * The commands *)
Lemma cmd_match : forall (name : str) t r ws r', t = name ++ r -> r = ws ++ r' -> forallb isspace ws = true -> (match r' with x :: _ => isspace x | [] => false end) = false ->
  re_match_at (RSeq (rstr name) (rstar rspace)) t 0 = Some {| m_start := 0; m_end := length name + length ws; m_caps := [] |} /\ skipn (length name + length ws) t = r'.
Proof.
  intros name t r ws r' -> -> Hw Hr. assert (E : skipn (length name) (name ++ ws ++ r') = ws ++ r') by (rewrite skipn_app, skipn_all, Nat.sub_diag; reflexivity).
  split; [|apply (skipn_more _ _ _ _ E)]. apply fm_match. eapply fm_seq; [apply (fm_rstr name _ 0 [] (ws ++ r')); reflexivity|]. cbn [Nat.add]. eapply fm_star; [exact E|exact Hw|exact Hr].
Qed.
Lemma cmd_nomatch : forall (name : str) t, startswith t name = false -> re_match_at (RSeq (rstr name) (rstar rspace)) t 0 = None.
Proof. intros name t H. unfold re_match_at. rewrite rm_seq_none; [reflexivity|]. rewrite rm_rstr. cbn [skipn]. rewrite H. reflexivity. Qed.

Lemma str_eqb_neq : forall a b : str, str_eqb a b = false <-> a <> b.
Proof. intros a b. rewrite <- not_true_iff_false, str_eqb_spec. reflexivity. Qed.
Lemma fk_eq : forall f k f' k' : str, (str_eqb f f' && str_eqb k k')%bool = true <-> (f, k) = (f', k').
Proof. intros. rewrite andb_true_iff, !str_eqb_spec. split; [intros [-> ->]; reflexivity|intros H; injection H; auto]. Qed.
Lemma klookup_same : forall f k v d, klookup f k (kset f k v d) = Some v.
Proof.
  intros f k v d. induction d as [|[[f' k'] w] d IH]; cbn [kset klookup]; [rewrite !str_eqb_refl; reflexivity|].
  destruct (str_eqb f f' && str_eqb k k')%bool eqn:E; cbn [klookup]; rewrite E; auto.
Qed.
Lemma klookup_other : forall f k v d f' k', (f', k') <> (f, k) -> klookup f' k' (kset f k v d) = klookup f' k' d.
Proof.
  intros f k v d f' k' H. induction d as [|[[f2 k2] w] d IH]; cbn [kset klookup].
  - destruct (str_eqb f' f && str_eqb k' k)%bool eqn:E; [apply fk_eq in E; congruence|reflexivity].
  - destruct (str_eqb f f2 && str_eqb k k2)%bool eqn:E; cbn [klookup].
    + apply fk_eq in E. injection E as <- <-. destruct (str_eqb f' f && str_eqb k' k)%bool eqn:E2; [apply fk_eq in E2; congruence|reflexivity].
    + destruct (str_eqb f' f2 && str_eqb k' k2)%bool; [reflexivity|exact IH].
Qed.

(** ** codeblocks *)
Fixpoint slookup (k : str) (d : list (str * str)) : option str := match d with [] => None | (k', v) :: r => if str_eqb k k' then Some v else slookup k r end.
Lemma slookup_same : forall k v d, slookup k (sset k v d) = Some v.
Proof.
  intros k v d. induction d as [|[k' w] d IH]; cbn [sset slookup]; [rewrite str_eqb_refl; reflexivity|].
  destruct (str_eqb k k') eqn:E; cbn [slookup]; rewrite E; auto.
Qed.
Lemma slookup_other : forall k v d k', k' <> k -> slookup k' (sset k v d) = slookup k' d.
Proof.
  intros k v d k' H. induction d as [|[k2 w] d IH]; cbn [sset slookup].
  - apply str_eqb_neq in H. rewrite H. reflexivity.
  - destruct (str_eqb k k2) eqn:E; cbn [slookup].
    + apply str_eqb_spec in E. subst k2. apply str_eqb_neq in H. rewrite H. reflexivity.
    + rewrite IH. reflexivity.
Qed.
Lemma codeblocks_spec : forall isalpha d family kvs k x,
  slookup k (process_setkeys_token isalpha d family kvs) = Some x <->
  exists default code v, klookup family k d = Some (default, code) /\ code <> [] /\ last_value k kvs v /\ x = substitute_args isalpha code [Some v] false.
Proof.
  intros isalpha d family kvs k x. unfold process_setkeys_token. induction kvs as [|[k1 v1] kvs IH] using rev_ind.
  - cbn. split; [discriminate|]. intros (df & code & v & _ & _ & (l1 & l2 & E & _) & _). destruct l1; discriminate E.
  - rewrite fold_left_app. cbn [fold_left]. set (cbs := fold_left _ kvs []) in *. unfold add_codeblock. cbn [fst snd].
    assert (LV : forall v, last_value k (kvs ++ [(k1, v1)]) v <-> (k1 = k /\ v = v1) \/ (k1 <> k /\ last_value k kvs v)).
    { intros v. split.
      - intros (l1 & l2 & E & N). destruct l2 as [|y l2 _] using rev_ind.
        + apply app_inj_tail in E as [-> E]. injection E as -> ->. auto.
        + right. rewrite app_comm_cons, app_assoc in E. apply app_inj_tail in E as [-> <-]. rewrite map_app in N. split; [intros ->; apply N, in_app_iff; right; left; reflexivity|].
          exists l1, l2. split; [reflexivity|]. intros H. apply N, in_app_iff. auto.
      - intros [[-> ->]|[N (l1 & l2 & -> & N2)]]; [exists kvs, []; split; [reflexivity|intros []]|]. exists l1, (l2 ++ [(k1, v1)]). split; [rewrite <- app_assoc; reflexivity|].
        rewrite map_app. intros H. apply in_app_iff in H as [H|[H|[]]]; [contradiction|]. cbn in H. contradiction. }
    assert (Hsame : k1 <> k -> (slookup k cbs = Some x <-> exists default code v, klookup family k d = Some (default, code) /\ code <> [] /\ last_value k (kvs ++ [(k1, v1)]) v /\ x = substitute_args isalpha code [Some v] false)).
    { intros N. rewrite IH. split; intros (df & code & v & H1 & H2 & H3 & H4); exists df, code, v; repeat split; auto; [apply LV; auto|apply LV in H3; destruct H3 as [[H3 _]|[_ H3]]; [congruence|exact H3]]. }
    destruct (str_eqb k1 k) eqn:Ek.
    + apply str_eqb_spec in Ek. subst k1. destruct (klookup family k d) as [[df code]|] eqn:El.
      * destruct code as [|y code]; cbn [nilb].
        -- rewrite IH. split; intros (df' & code & v & H1 & H2 & _); injection H1 as _ <-; congruence.
        -- rewrite slookup_same. split.
           ++ intros H. injection H as <-. exists df, (y :: code), v1. repeat split; [discriminate|]. apply LV. auto.
           ++ intros (df' & code' & v & H1 & _ & H3 & ->). injection H1 as <- <-. apply LV in H3 as [[_ ->]|[N _]]; [reflexivity|congruence].
      * rewrite IH. split; intros (df' & code & v & H1 & _); discriminate H1.
    + apply str_eqb_neq in Ek. specialize (Hsame Ek). destruct (klookup family k1 d) as [[df code]|]; [|exact Hsame].
      destruct (nilb code); [exact Hsame|]. rewrite slookup_other by congruence. exact Hsame.
Qed.

Theorem setkeys : forall isalpha d r family pieces outs n, groups_at c_lb c_rb r [family; join [c_comma] pieces] n -> Forall2 setting pieces outs ->
  exists cbs, keyval_handle isalpha d (lit "\setkeys" ++ r) = (d, (Some (KSetting family (given outs) cbs), 8 + n)) /\
    forall k x, slookup k cbs = Some x <->
      exists default code v, klookup family k d = Some (default, code) /\ code <> [] /\ last_value k (given outs) v /\ x = substitute_args isalpha code [Some v] false.
Proof.
  intros isalpha d r family pieces outs n G H. exists (process_setkeys_token isalpha d family (given outs)). split; [|apply codeblocks_spec].
  destruct (lead_blank r) as (ws & r' & -> & Hw & Hr). destruct (groups_strip _ _ _ _ _ _ _ delims_curly Hw Hr G) as [L G'].
  destruct (cmd_match (lit "\setkeys") _ _ ws r' eq_refl eq_refl Hw Hr) as [M S].
  unfold keyval_handle, define_key_pattern, setkeys_pattern. rewrite cmd_nomatch by reflexivity. rewrite M. unfold handle_setkeys. cbn [m_end]. rewrite S.
  pose proof (blocks_exact _ _ _ _ _ delims_curly G') as B. cbn [length] in B. rewrite B. rewrite (key_values_spec _ _ H). do 2 f_equal. change (length (lit "\setkeys")) with 8. lia.
Qed.
Lemma delims_square : delims_ok c_lk c_rk.
Proof. repeat split; discriminate. Qed.
Theorem define_key : forall isalpha d r family key n default m code p,
  groups_at c_lb c_rb r [family; key] n ->
  match default with
  | Some b => group_at c_lk c_rk (skipn n r) b m
  | None => m = 0 /\ forall b k, ~ group_at c_lk c_rk (skipn n r) b k
  end ->
  group_at c_lb c_rb (skipn (n + m) r) code p ->
  exists d', keyval_handle isalpha d (lit "\define@key" ++ r) = (d', (Some (KDefinition family key default code), 11 + n + m + p)) /\
    klookup family key d' = Some (default, code) /\ forall f k, (f, k) <> (family, key) -> klookup f k d' = klookup f k d.
Proof.
  intros isalpha d r family key n default m code p G D C. exists (kset family key (default, code) d).
  split; [|split; [apply klookup_same|intros; apply klookup_other; assumption]].
  destruct (lead_blank r) as (ws & r' & -> & Hw & Hr). destruct (groups_strip _ _ _ _ _ _ _ delims_curly Hw Hr G) as [L G'].
  destruct (cmd_match (lit "\define@key") _ _ ws r' eq_refl eq_refl Hw Hr) as [M S].
  assert (E : forall k, length ws <= k -> skipn k (ws ++ r') = skipn (k - length ws) r') by (intros k Hk; rewrite skipn_app, (skipn_all2 ws) by lia; reflexivity).
  rewrite E in C by lia. unfold keyval_handle, define_key_pattern. rewrite M. unfold handle_define_key. cbn [m_end]. rewrite S.
  pose proof (blocks_exact _ _ _ _ _ delims_curly G') as B. cbn [length] in B. rewrite B.
  assert (C1 : forall t b k, group_at c_lb c_rb t b k -> extract_nested_content_sequence_blocks t c_lb c_rb (Some 1) = ([b], k)).
  { intros t b k Hg. rewrite <- (Nat.add_0_r k). apply (blocks_exact c_lb c_rb t [b] (k + 0) delims_curly). constructor; [exact Hg|constructor]. }
  destruct default as [b|].
  - rewrite E in D by lia. assert (B2 : extract_nested_content_sequence_blocks (skipn (n - length ws) r') c_lk c_rk (Some 1) = ([b], m)).
    { rewrite <- (Nat.add_0_r m). apply (blocks_exact c_lk c_rk _ [b] (m + 0) delims_square). constructor; [exact D|constructor]. }
    rewrite B2. rewrite skipn_add. replace (n - length ws + m) with (n + m - length ws) by lia. rewrite (C1 _ _ _ C). do 2 f_equal. change (length (lit "\define@key")) with 11. lia.
  - destruct D as [-> D]. rewrite E in D by lia. destruct (blocks_none c_lk c_rk _ delims_square D) as (q & B2). rewrite B2.
    rewrite Nat.add_0_r in C. rewrite (C1 _ _ _ C). do 2 f_equal. change (length (lit "\define@key")) with 11. lia.
Qed.
