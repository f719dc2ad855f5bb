From Coq Require Import List NArith ZArith PeanoNat Lia Bool String.
From Verif Require Import PyStr Json BuilderModel TokensModel PlaceSpec TokensSpec.
Import ListNotations.
Notation length := List.length.
Notation concat := List.concat.
Open Scope list_scope.

Lemma set_set : forall k v w d, set k v (set k w d) = set k v d.
Proof.
  induction d as [|[k' x] d IH]; cbn; [rewrite str_eqb_refl; reflexivity|].
  destruct (str_eqb k k') eqn:E; cbn; rewrite E; [reflexivity|rewrite IH; reflexivity].
Qed.
Lemma set_same : forall k v d, lookup k d = Some v -> set k v d = d.
Proof.
  induction d as [|[k' x] d IH]; cbn; intros H; [discriminate|].
  destruct (str_eqb k k') eqn:E; [injection H as ->; reflexivity|rewrite IH by exact H; reflexivity].
Qed.
Lemma last_of_app : forall p t, last_of (p ++ [t]) = Some (p, t).
Proof. induction p as [|x p IH]; intros t; [reflexivity|]. cbn. rewrite IH. reflexivity. Qed.
Lemma last_of_spec : forall l, match last_of l with None => l = [] | Some (p, t) => l = p ++ [t] end.
Proof.
  induction l as [|x l IH]; cbn; [reflexivity|]. destruct (last_of l) as [[p t]|]; subst; reflexivity.
Qed.

Lemma plain_set : forall d s s', plain_text d s -> plain_text (set k_content (VStr s') d) s'.
Proof.
  intros d s s' (T & C & S). split; [|split].
  - rewrite lookup_set_other by discriminate. exact T.
  - apply lookup_set_same.
  - rewrite lookup_set_other by discriminate. exact S.
Qed.
Lemma plain_test : forall d s, plain_text d s -> is_str (get k_type d) "text" = true /\ has_key k_styles d = false.
Proof. intros d s (T & C & S). unfold get, has_key. rewrite T, S. split; [apply is_str_true; reflexivity|reflexivity]. Qed.
Lemma text_type : forall d, is_str (get k_type d) "text" = true <-> lookup k_type d = Some (VStr (lit "text")).
Proof.
  intros d. rewrite is_str_true. unfold get. destruct (lookup k_type d); split; intros H; congruence.
Qed.
Lemma ends_space : forall s, endswith s (lit " ") = match rev s with c :: _ => N.eqb c c_sp | [] => false end.
Proof. intros s. unfold endswith. change (rev (lit " ")) with [32%N]. destruct (rev s) as [|c r]; cbn [startswith]; [reflexivity|]. rewrite andb_true_r. apply N.eqb_sym. Qed.

Lemma merge_plain : forall l s d s' sp, plain_text l s -> plain_text d s' ->
  merge_text l d sp = Ok (set k_content (VStr (spaced s (sp, s'))) l).
Proof.
  intros l s d s' sp (Tl & Cl & Sl) (Td & Cd & Sd). unfold merge_text, getitem. rewrite Cl, Cd. cbn [bind].
  destruct sp; cbn [bind str_of spaced]; [|reflexivity].
  rewrite ends_space. destruct (rev s) as [|c r] eqn:E; cbn [negb bind py_iadd].
  - assert (s = []) as -> by (rewrite <- (rev_involutive s), E; reflexivity). reflexivity.
  - destruct (N.eqb c c_sp); cbn [negb bind py_iadd]; [reflexivity|]. rewrite <- !app_assoc. reflexivity.
Qed.

(** what the leaving tokens look like *)
Lemma leaves_text : forall t d, leaves t d -> lookup k_type d = Some (VStr (lit "text")) -> exists s, lookup k_content d = Some (VStr s).
Proof.
  intros t d H T. inversion H; subst.
  - exists (c :: s). reflexivity.
  - eauto.
  - rewrite H0 in T. injection T as ->. exfalso. cbn [In map] in H1. destruct H1 as [E|[E|[E|[]]]]; discriminate E.
  - congruence.
Qed.
Lemma block_test : forall d, existsb (is_str (get k_type d)) ["group"; "environment"; "list"]%string = true <->
  exists t, lookup k_type d = Some (VStr t) /\ In t (map lit ["group"; "environment"; "list"]%string).
Proof.
  intros d. rewrite existsb_exists. split.
  - intros (x & I & E). rewrite is_str_true in E. unfold get in E. destruct (lookup k_type d) as [v|]; [|discriminate].
    subst v. exists (lit x). split; [reflexivity|]. apply in_map. exact I.
  - intros (t & E & I). apply in_map_iff in I. destruct I as (x & <- & I). exists x. split; [exact I|].
    rewrite is_str_true. unfold get. rewrite E. reflexivity.
Qed.
Lemma leaves_add : forall t d, leaves t d -> forall tokens sp, add_token t tokens sp =
  if is_str (get k_type d) "text" then add_dict d tokens sp else Ok (tokens ++ [d]).
Proof.
  intros t d H tokens sp. inversion H; subst.
  - reflexivity.
  - destruct d as [|kv d]; [discriminate|]. cbn [add_token]. rewrite (proj2 (text_type _) H0). reflexivity.
  - destruct d as [|kv d]; [discriminate|]. cbn [add_token].
    assert (is_str (get k_type (kv :: d)) "text" = false) as E.
    { destruct (is_str _ _) eqn:E; [|reflexivity]. apply text_type in E. rewrite H0 in E. injection E as ->.
      exfalso. cbn [In map] in H1. destruct H1 as [E|[E|[E|[]]]]; discriminate E. }
    rewrite E. unfold add_dict. rewrite E. rewrite (proj2 (block_test _)) by eauto. unfold getitem. rewrite H2. cbn [bind]. rewrite H3. reflexivity.
  - destruct d as [|kv d]; [congruence|]. cbn [add_token].
    assert (is_str (get k_type (kv :: d)) "text" = false) as E.
    { destruct (is_str _ _) eqn:E; [|reflexivity]. apply text_type in E. congruence. }
    rewrite E. unfold add_dict. rewrite E.
    destruct (existsb _ _) eqn:B; [|reflexivity]. apply block_test in B. destruct B as (t & B1 & B2). destruct (H2 _ B1 B2).
Qed.
Lemma nothing_add : forall t, leaves_nothing t -> forall tokens sp, add_token t tokens sp = Ok tokens.
Proof.
  intros t H tokens sp. inversion H; subst; try reflexivity.
  destruct d as [|kv d]; [reflexivity|]. cbn [add_token].
  assert (is_str (get k_type (kv :: d)) "text" = false) as E.
  { destruct (is_str _ _) eqn:E; [|reflexivity]. apply text_type in E. rewrite H0 in E. injection E as ->.
    exfalso. cbn [In map] in H1. destruct H1 as [E|[E|[E|[]]]]; discriminate E. }
  unfold add_dict. rewrite E. rewrite (proj2 (block_test _)) by eauto. unfold getitem. rewrite H2. cbn [bind]. rewrite H3. reflexivity.
Qed.

Lemma plain_dec : forall t d, leaves t d -> plain d \/ ~ plain d /\ (is_str (get k_type d) "text" = true -> has_key k_styles d = true).
Proof.
  intros t d H. destruct (is_str (get k_type d) "text") eqn:T.
  - apply text_type in T. destruct (leaves_text _ _ H T) as [s C]. destruct (lookup k_styles d) as [v|] eqn:S.
    + right. split; [intros (s' & _ & _ & S'); congruence|]. unfold has_key. rewrite S. reflexivity.
    + left. exists s. repeat split; assumption.
  - right. split; [|discriminate]. intros (s & T' & _). apply text_type in T'. congruence.
Qed.

(** the last token pushed is not plain *)
Definition ends_other (tokens : list dict) : Prop := forall p l, tokens = p ++ [l] -> ~ (is_str (get k_type l) "text" = true /\ has_key k_styles l = false).

Lemma leave_other : forall t d tokens sp, leaves t d -> (is_str (get k_type d) "text" = true -> has_key k_styles d = true) ->
  add_token t tokens sp = Ok (tokens ++ [d]) /\ ends_other (tokens ++ [d]).
Proof.
  intros t d tokens sp H S. split.
  - rewrite (leaves_add _ _ H). destruct (is_str (get k_type d) "text") eqn:T; [|reflexivity].
    unfold add_dict. rewrite T. destruct (last_of tokens) as [[p l]|]; [|reflexivity]. rewrite (S eq_refl). rewrite andb_false_r. reflexivity.
  - intros p l E. apply app_inj_tail in E. destruct E as [_ <-]. intros [T N]. rewrite (S T) in N. discriminate.
Qed.
Lemma leave_plain_other : forall t d s tokens sp, leaves t d -> plain_text d s -> ends_other tokens -> add_token t tokens sp = Ok (tokens ++ [d]).
Proof.
  intros t d s tokens sp H P O. rewrite (leaves_add _ _ H). destruct (plain_test _ _ P) as [T _]. rewrite T. unfold add_dict. rewrite T.
  pose proof (last_of_spec tokens) as L. destruct (last_of tokens) as [[p l]|]; [|reflexivity].
  specialize (O _ _ L). destruct (is_str (get k_type l) "text"); [|reflexivity]. destruct (has_key k_styles l) eqn:HS; [|exfalso; apply O; auto].
  rewrite !andb_false_r. reflexivity.
Qed.
Lemma leave_plain_plain : forall t d s p l s' sp, leaves t d -> plain_text d s -> plain_text l s' ->
  add_token t (p ++ [l]) sp = Ok (p ++ [set k_content (VStr (spaced s' (sp, s))) l]).
Proof.
  intros t d s p l s' sp H P L. rewrite (leaves_add _ _ H). destruct (plain_test _ _ P) as [T N]. rewrite T. unfold add_dict. rewrite T.
  rewrite last_of_app. destruct (plain_test _ _ L) as [TL NL]. rewrite TL, NL, N. cbn [andb negb].
  rewrite (merge_plain _ _ _ _ _ L P). reflexivity.
Qed.

Lemma add_coalesced : forall calls ts, kept_calls calls ts ->
  (forall tokens, ends_other tokens -> exists out, add_tokens calls tokens = Ok (tokens ++ out) /\ coalesced ts out) /\
  (forall p l s, plain_text l s -> exists run texts r out, ts = run ++ r /\
     Forall2 (fun t u => fst t = fst u /\ plain_text (snd t) (snd u)) run texts /\
     (forall t r', r = t :: r' -> ~ plain (snd t)) /\
     coalesced r out /\
     add_tokens calls (p ++ [l]) = Ok (p ++ set k_content (VStr (fold_left spaced texts s)) l :: out)).
Proof.
  induction 1 as [|t sp r o N K [IA IB]|t sp d r o L K [IA IB]].
  - split.
    + intros tokens _. exists []. rewrite app_nil_r. split; [reflexivity|constructor].
    + intros p l s P. exists [], [], [], []. cbn [fold_left]. rewrite set_same by apply P.
      repeat split; try constructor; intros; discriminate.
  - split.
    + intros tokens O. cbn [add_tokens]. rewrite (nothing_add _ N). cbn [bind]. apply IA, O.
    + intros p l s P. cbn [add_tokens]. rewrite (nothing_add _ N). cbn [bind]. apply IB, P.
  - destruct (plain_dec _ _ L) as [[s' P']|[NP S]]; split.
    + intros tokens O. cbn [add_tokens]. rewrite (leave_plain_other _ _ _ _ _ L P' O). cbn [bind].
      destruct (IB tokens d s' P') as (run & texts & r' & out & -> & F & Hr & C & E). rewrite E.
      eexists. split; [reflexivity|]. apply co_run; assumption.
    + intros p l s P. cbn [add_tokens]. rewrite (leave_plain_plain _ _ _ _ _ _ _ L P' P). cbn [bind].
      destruct (IB p _ _ (plain_set _ _ (spaced s (sp, s')) P)) as (run & texts & r' & out & -> & F & Hr & C & E). rewrite E.
      exists ((sp, d) :: run), ((sp, s') :: texts), r', out. repeat split; try assumption.
      * constructor; [split; [reflexivity|exact P']|exact F].
      * rewrite set_set. reflexivity.
    + intros tokens O. cbn [add_tokens]. destruct (leave_other _ _ tokens sp L S) as [E O']. rewrite E. cbn [bind].
      destruct (IA _ O') as (out & E' & C). rewrite E'. exists (d :: out). rewrite <- app_assoc. split; [reflexivity|]. constructor; assumption.
    + intros p l s P. cbn [add_tokens]. destruct (leave_other _ _ (p ++ [l]) sp L S) as [E O']. rewrite E. cbn [bind].
      destruct (IA _ O') as (out & E' & C). rewrite E'. exists [], [], ((sp, d) :: o), (d :: out). cbn [fold_left].
      rewrite set_same by apply P. split; [reflexivity|]. split; [constructor|]. split.
      * intros t0 r0 [= <- <-]. exact NP.
      * split; [constructor; assumption|]. rewrite <- !app_assoc. reflexivity.
Qed.

Theorem c26_coalesced : forall calls ts, kept_calls calls ts -> exists out, add_tokens calls [] = Ok out /\ coalesced ts out.
Proof. intros calls ts K. apply (proj1 (add_coalesced _ _ K) []). intros p l E. destruct p; discriminate. Qed.

Lemma coalesced_head : forall ts out, coalesced ts out -> forall o r, out = o :: r -> plain o -> exists t r', ts = t :: r' /\ plain (snd t).
Proof.
  intros ts out C. destruct C as [|sp d r out ND C|sp d s run texts r out P F H C]; intros o r0 E PO; try discriminate.
  - injection E as <- <-. contradiction.
  - exists (sp, d), (run ++ r). split; [reflexivity|]. exists s. exact P.
Qed.
Lemma c26_not_adjacent : forall ts out, coalesced ts out -> no_adjacent plain out.
Proof.
  induction 1 as [|sp d r out ND C IH|sp d s run texts r out P F H C IH]; [exact I| |].
  - destruct out as [|o out]; [exact I|]. split; [tauto|exact IH].
  - destruct out as [|o out]; [exact I|]. split; [|exact IH]. intros [_ PO].
    destruct (coalesced_head _ _ C _ _ eq_refl PO) as (t & r' & E & PT). exact (H _ _ E PT).
Qed.

(** plain strings only *)
Lemma c26_strings : forall sp c s l, Forall (fun x => snd x <> []) l ->
  add_tokens ((TStr (c :: s), sp) :: map (fun x => (TStr (snd x), fst x)) l) [] =
  Ok [[(k_type, VStr (lit "text")); (k_content, VStr (fold_left spaced l (c :: s)))]].
Proof.
  intros sp c s l F.
  cbn [add_tokens]. change (add_token (TStr (c :: s)) [] sp) with (Ok [[(k_type, VStr (lit "text")); (k_content, VStr (c :: s))]]). cbn [bind].
  generalize (c :: s) as acc. induction F as [|[b x] l NE F IH]; intros acc; [reflexivity|]. cbn [map add_tokens fst snd].
  assert (leaves (TStr x) [(k_type, VStr (lit "text")); (k_content, VStr x)]) as L by (destruct x; [contradiction|constructor]).
  pose proof (leave_plain_plain _ _ x [] [(k_type, VStr (lit "text")); (k_content, VStr acc)] acc b L) as E.
  cbn [List.app] in E. etransitivity; [apply (f_equal (fun X => bind X _)); apply E; repeat split|]. cbn [bind]. apply IH.
Qed.
Lemma fold_concat : forall l s, fold_left spaced (map (pair false) l) s = s ++ concat l.
Proof. induction l as [|x l IH]; intros s; cbn; [symmetry; apply app_nil_r|]. rewrite IH, app_assoc. reflexivity. Qed.

(* ------------------------------------------------------------------ *)
(** * The bibliography *)
Definition has_cite_key (t : dict) : Prop := lookup k_cite_key t <> None.
Lemma convert_key : forall parse e t, convert_bibentry parse e = Ok t -> lookup k_cite_key t = Some (VStr (be_key e)).
Proof. intros parse e t H. unfold convert_bibentry in H. destruct (if str_eqb _ _ then _ else _); [|discriminate]. injection H as <-. reflexivity. Qed.
Lemma mmap_all : forall (A B : Type) (f : A -> res B) (P : B -> Prop), (forall a b, f a = Ok b -> P b) -> forall l o, mmap f l = Ok o -> Forall P o.
Proof.
  intros A B f P H l. induction l as [|a l IH]; intros o E; cbn in E.
  - injection E as <-. constructor.
  - destruct (f a) as [b|] eqn:Ea; [|discriminate]. cbn in E. destruct (mmap f l) as [o'|]; [|discriminate]. injection E as <-.
    constructor; [eapply H; exact Ea|apply IH; reflexivity].
Qed.
Lemma bib_tokens_keys : forall parse pf dir paths, Forall has_cite_key (bib_tokens parse pf dir paths).
Proof.
  intros parse pf dir. induction paths as [|p r IH]; cbn [bib_tokens]; [constructor|]. apply Forall_app. split; [|exact IH].
  destruct (bind _ _) as [ts|] eqn:E; [|constructor]. destruct (pf _) as [es|]; [|discriminate]. cbn [bind] in E.
  apply (mmap_all _ _ _ has_cite_key) in E; [exact E|]. intros a b H. unfold has_cite_key. rewrite (convert_key _ _ _ H). discriminate.
Qed.

Lemma val_mem : forall k l, existsb (val_eqb k) l = true <-> In k l.
Proof.
  intros k l. rewrite existsb_exists. split.
  - intros (x & I & E). apply val_eqb_spec in E. subst. exact I.
  - intros I. exists k. split; [exact I|]. apply val_eqb_spec. reflexivity.
Qed.
Lemma dedupe_spec : forall tokens seen, Forall has_cite_key tokens -> exists out, dedupe seen tokens = Ok out /\
  NoDup (map cite_key out) /\ (forall t, In t out -> ~ In (cite_key t) seen) /\
  (forall t, In t tokens -> In (cite_key t) seen \/ In (cite_key t) (map cite_key out)) /\
  (forall o1 t o2, out = o1 ++ t :: o2 -> exists before after, tokens = before ++ t :: after /\
     forall k, (In k (map cite_key o1) \/ In k seen) <-> (In k (map cite_key before) \/ In k seen)).
Proof.
  induction tokens as [|t tokens IH]; intros seen F.
  - exists []. split; [reflexivity|]. split; [constructor|]. split; [intros ? []|]. split; [intros ? []|]. intros [|] ? ? E; discriminate E.
  - inversion F as [|? ? Ht Ft]; subst. cbn [dedupe]. unfold has_cite_key in Ht. unfold getitem.
    assert (lookup k_cite_key t = Some (cite_key t)) as E by (unfold cite_key, get; destruct (lookup k_cite_key t); congruence).
    rewrite E. cbn [bind]. destruct (existsb (val_eqb (cite_key t)) seen) eqn:M.
    + apply val_mem in M. destruct (IH seen Ft) as (out & E' & N & NS & C & B). exists out. split; [exact E'|].
      split; [exact N|]. split; [exact NS|]. split.
      * intros u [<-|I]; [left; exact M|]. apply C, I.
      * intros o1 u o2 Eo. destruct (B _ _ _ Eo) as (b & a & -> & K). exists (t :: b), a. split; [reflexivity|]. intros k. rewrite K. cbn [map In].
        split; [intros [H|H]; auto|intros [[H|H]|H]; auto]. right. congruence.
    + assert (~ In (cite_key t) seen) as NM by (intros I; apply val_mem in I; congruence).
      destruct (IH (cite_key t :: seen) Ft) as (out & E' & N & NS & C & B). rewrite E'. cbn [bind]. exists (t :: out). split; [reflexivity|].
      split.
      { cbn [map]. constructor; [|exact N]. intros I. apply in_map_iff in I. destruct I as (u & K & I). apply (NS _ I). left. symmetry. exact K. }
      split; [|split].
      * intros u [<-|I]; [exact NM|]. intros K. apply (NS _ I). right. exact K.
      * intros u [<-|I]; [right; left; reflexivity|]. destruct (C _ I) as [[K|K]|K]; [right; left; exact K|left; exact K|right; right; exact K].
      * intros o1 u o2 Eo. destruct o1 as [|x o1]; injection Eo as Ex Eo.
        -- subst u. exists [], tokens. split; [reflexivity|]. intros k. reflexivity.
        -- subst x. destruct (B _ _ _ Eo) as (b & a & -> & K). exists (t :: b), a. split; [reflexivity|]. intros k. specialize (K k). cbn [map In] in *. tauto.
Qed.
Lemma c27_first : forall parse pf dir file_path, exists out,
  parse_bib_file parse pf dir file_path = Ok [(k_type, VStr (lit "bibliography")); (k_content, VList (map (fun d => VDict d) out))] /\
  first_occurrences (bib_tokens parse pf dir (bib_paths file_path)) out.
Proof.
  intros parse pf dir fp. destruct (dedupe_spec _ [] (bib_tokens_keys parse pf dir (bib_paths fp))) as (out & E & N & _ & C & B).
  exists out. split; [unfold parse_bib_file; rewrite E; reflexivity|]. split; [exact N|]. split.
  - intros t I. destruct (C _ I) as [[]|K]. exact K.
  - intros o1 t o2 Eo. destruct (B _ _ _ Eo) as (b & a & Ea & K). exists b, a. split; [exact Ea|]. intros k. specialize (K k). cbn [In] in K. tauto.
Qed.

Lemma c27_unique : forall all o1 o2, first_occurrences all o1 -> first_occurrences all o2 -> o1 = o2.
Proof.
  intros all o1 o2 (N1 & C1 & F1) (N2 & C2 & F2).
  assert (forall r1 r2 p, o1 = p ++ r1 -> o2 = p ++ r2 -> r1 = r2) as G.
  { assert (forall o o' p t r, NoDup (map cite_key o) -> (forall u, In u all -> In (cite_key u) (map cite_key p)) -> o = p ++ t :: r ->
       (forall u r', u = t -> o = p ++ u :: r' -> exists b a, all = b ++ u :: a) -> o' = p -> False) as Z.
    { intros o o' p t r N C E F _. destruct (F _ _ eq_refl E) as (b & a & Ea). subst o.
      rewrite map_app in N. apply NoDup_remove_2 in N. apply N. apply in_or_app. left. apply C. rewrite Ea. apply in_or_app. right. left. reflexivity. }
    induction r1 as [|t r1 IH]; intros r2 p E1 E2.
    - destruct r2 as [|u r2]; [reflexivity|]. exfalso. rewrite app_nil_r in E1. subst p.
      apply (Z o2 o1 o1 u r2); auto. intros v r' -> Ev. destruct (F2 _ _ _ Ev) as (b & a & Ea & _). eauto.
    - destruct r2 as [|u r2].
      + exfalso. rewrite app_nil_r in E2. subst p. apply (Z o1 o2 o2 t r1); auto. intros v r' -> Ev. destruct (F1 _ _ _ Ev) as (b & a & Ea & _). eauto.
      + destruct (F1 _ _ _ E1) as (b1 & a1 & A1 & K1). destruct (F2 _ _ _ E2) as (b2 & a2 & A2 & K2).
        assert (~ In (cite_key t) (map cite_key p)) as T1 by (rewrite E1, map_app in N1; apply NoDup_remove_2 in N1; intros I; apply N1, in_or_app; left; exact I).
        assert (~ In (cite_key u) (map cite_key p)) as T2 by (rewrite E2, map_app in N2; apply NoDup_remove_2 in N2; intros I; apply N2, in_or_app; left; exact I).
        assert (forall (b b' : list dict) (x y : dict) a a', b ++ x :: a = b' ++ y :: a' -> length b < length b' -> In x b') as Hlt.
        { clear. induction b as [|z b IHb]; intros b' x y a a' E L; destruct b' as [|w b']; cbn [length] in L; try lia.
          - cbn in E. injection E as -> _. left. reflexivity.
          - cbn in E. injection E as -> E. right. apply (IHb b' x y a a' E). lia. }
        destruct (Nat.lt_trichotomy (length b1) (length b2)) as [L|[L|L]].
        * exfalso. apply T1, K2. apply in_map. apply (Hlt b1 b2 t u a1 a2); [congruence|exact L].
        * assert (b1 ++ t :: a1 = b2 ++ u :: a2) as EE by congruence.
          assert (t = u) as ->.
          { clear - EE L. revert b2 EE L. induction b1 as [|z b1 IHb]; intros [|w b2] EE L; cbn in *; try lia; injection EE as E1 E2; [exact E1|].
            apply (IHb b2 E2). lia. }
          f_equal. apply (IH r2 (p ++ [u])); rewrite <- app_assoc; assumption.
        * exfalso. apply T2, K1. apply in_map. apply (Hlt b2 b1 u t a2 a1); [congruence|exact L]. }
  apply (G o1 o2 []); reflexivity.
Qed.
