(** Proofs for ExtractModel. *)
From Coq Require Import List NArith ZArith PeanoNat Lia Bool String.
From Verif Require Import PyStr RegexLocal TokensModel Json Placeholder PlaceSpec TableCases ContentProofs ExtractModel ExtractSpec.
Import ListNotations.
Notation length := List.length.
Notation concat := List.concat.
Open Scope list_scope.

Lemma entry_tests : forall c, entry_name c -> str_eqb c [] = false /\ str_eqb c dot = false /\ str_eqb c dotdot = false.
Proof. intros c (A & B & C & _). repeat split; apply str_eqb_neq; assumption. Qed.

Lemma norm_app : forall r a b s, norm_comps r (a ++ b) s = norm_comps r b (norm_comps r a s).
Proof. intros r a. induction a as [|c a IH]; intros b s; [reflexivity|]. cbn [List.app norm_comps]. repeat match goal with |- context[if ?x then _ else _] => destruct x end; apply IH. Qed.
Lemma norm_plain : forall r cs s, (forall c, In c cs -> c <> dotdot) ->
  norm_comps r cs s = s ++ filter (fun c => negb (str_eqb c [] || str_eqb c dot)) cs.
Proof.
  intros r cs. induction cs as [|c cs IH]; intros s H; [cbn; now rewrite app_nil_r|].
  cbn [norm_comps filter]. destruct (str_eqb c [] || str_eqb c dot) eqn:E; cbn [negb].
  - apply IH. intros x Hx. apply H. now right.
  - rewrite (str_eqb_neq c dotdot) by (apply H; now left). cbn [negb orb]. rewrite IH by (intros x Hx; apply H; now right). now rewrite <- app_assoc.
Qed.
Lemma filter_entries : forall T, Forall entry_name T -> filter (fun c => negb (str_eqb c [] || str_eqb c dot)) T = T.
Proof. intros T H. induction H as [|c T H0 H IH]; [reflexivity|]. cbn [filter]. destruct (entry_tests c H0) as (-> & -> & _). cbn. now rewrite IH. Qed.

Lemma in_split_occurs : forall c s w, In w (split_char c s) -> occurs w s.
Proof.
  intros c s. induction s as [|x s IH]; cbn [split_char]; intros w H.
  - destruct H as [<-|[]]. exists [], []. reflexivity.
  - destruct (N.eqb x c).
    + destruct H as [<-|H]; [exists [], (x :: s); reflexivity|]. destruct (IH w H) as (p & q & ->). exists (x :: p), q. reflexivity.
    + destruct (split_char c s) as [|v vs] eqn:E; [now apply split_char_nonempty in E|].
      destruct H as [<-|H].
      * destruct (IH v (or_introl eq_refl)) as (p & q & Es).
        (* the first piece is a prefix *)
        assert (P : exists q', s = v ++ q').
        { clear IH p q Es. revert v vs E. induction s as [|y s IHs]; intros v vs E; cbn [split_char] in E.
          - injection E as <- <-. exists []. reflexivity.
          - destruct (N.eqb y c); [injection E as <- <-; exists (y :: s); reflexivity|].
            destruct (split_char c s) as [|v0 vs0] eqn:E0; [now apply split_char_nonempty in E0|].
            injection E as <- <-. destruct (IHs v0 vs0 eq_refl) as (q' & ->). exists q'. reflexivity. }
        destruct P as (q' & ->). exists [], q'. reflexivity.
      * destruct (IH w (or_intror H)) as (p & q & ->). exists (x :: p), q. reflexivity.
Qed.

Lemma split_path : forall T n, Forall entry_name T -> T <> [] -> split_char c_slash (path_of T ++ [c_slash] ++ n) = [] :: T ++ split_char c_slash n.
Proof.
  intros T n H N0. unfold path_of. cbn [List.app split_char]. rewrite N.eqb_refl. f_equal.
  induction H as [|c T (_ & _ & _ & Hc) H IH]; [congruence|].
  destruct T as [|d T].
  - cbn [join List.app]. apply split_app_nosep. exact Hc.
  - rewrite join_cons by discriminate. rewrite <- !app_assoc. rewrite split_app_nosep by exact Hc. cbn [List.app]. f_equal. apply IH. discriminate.
Qed.
Lemma split_path0 : forall T, Forall entry_name T -> T <> [] -> split_char c_slash (path_of T) = [] :: T.
Proof.
  intros T H N0. unfold path_of. cbn [List.app split_char]. rewrite N.eqb_refl. f_equal. apply split_join; [exact N0|].
  intros k Hk. rewrite Forall_forall in H. apply H. exact Hk.
Qed.
Lemma path_head : forall T, Forall entry_name T -> T <> [] -> exists x r, path_of T = c_slash :: x :: r /\ x <> c_slash.
Proof.
  intros T H N0. destruct T as [|c T]; [congruence|]. inversion H as [|c' T' Hc HT]; subst.
  destruct Hc as (A & _ & _ & B). destruct c as [|x c]; [congruence|]. unfold path_of.
  destruct T as [|d T].
  - exists x, c. split; [reflexivity|]. intros ->. apply B. now left.
  - rewrite join_cons by discriminate. exists x, (c ++ [c_slash] ++ join [c_slash] (d :: T)). split; [reflexivity|]. intros ->. apply B. now left.
Qed.
Lemma path_last : forall T, Forall entry_name T -> T <> [] -> endswith (path_of T) [c_slash] = false.
Proof.
  intros T H N0. unfold path_of, endswith. rewrite rev_app_distr. cbn [rev List.app].
  assert (E : exists y r, rev (join [c_slash] T) = y :: r /\ y <> c_slash).
  { induction H as [|c T (A & _ & _ & B) H IH]; [congruence|]. destruct T as [|d T].
    - cbn [join]. destruct (rev c) as [|y r] eqn:E; [apply (f_equal (@rev ch)) in E; rewrite rev_involutive in E; cbn in E; congruence|].
      exists y, r. split; [reflexivity|]. intros ->. apply B. apply in_rev. rewrite E. now left.
    - rewrite join_cons by discriminate. destruct IH as (y & r & E & Hy); [discriminate|].
      rewrite !rev_app_distr, E. exists y, ((r ++ rev [c_slash]) ++ rev c). split; [reflexivity|exact Hy]. }
  destruct E as (y & r & -> & Hy). cbn [List.app startswith]. destruct (N.eqb_spec c_slash y); [congruence|reflexivity].
Qed.
Lemma lead_one : forall x (r : str), x <> c_slash -> startswith (c_slash :: x :: r) [c_slash; c_slash] = false.
Proof. intros x r H. cbn [startswith]. destruct (N.eqb_spec c_slash x); [congruence|]. rewrite N.eqb_refl. reflexivity. Qed.
Lemma norm_rooted : forall x (r : str), x <> c_slash -> normpath (c_slash :: x :: r) = [c_slash] ++ join [c_slash] (norm_comps true (split_char c_slash (c_slash :: x :: r)) []).
Proof.
  intros x r H. unfold normpath. rewrite lead_one by exact H. cbn [startswith]. rewrite N.eqb_refl. cbn [andb List.app]. reflexivity.
Qed.
Lemma abs_temp : forall cwd T, Forall entry_name T -> T <> [] -> abspath cwd (path_of T) = path_of T.
Proof.
  intros cwd T H N0. unfold abspath. destruct (path_head T H N0) as (x & r & E & Hx). rewrite E.
  unfold isabs. cbn [startswith]. rewrite N.eqb_refl. cbn [andb]. rewrite norm_rooted by exact Hx. rewrite <- E, split_path0 by assumption.
  rewrite (norm_plain true ([] :: T)).
  - cbn [List.app filter]. change (negb (str_eqb [] [] || str_eqb [] dot)) with false. cbn iota. rewrite filter_entries by exact H. reflexivity.
  - intros c [<-|Hc]; [discriminate|]. rewrite Forall_forall in H. apply H in Hc. apply Hc.
Qed.
Lemma join_temp : forall T n, Forall entry_name T -> T <> [] -> isabs n = false -> path_join (path_of T) n = path_of T ++ [c_slash] ++ n.
Proof.
  intros T n H N0 A. unfold path_join. unfold isabs in A. change (lit "/") with [c_slash]. rewrite A.
  rewrite path_last by assumption. destruct (path_of T) eqn:E; [discriminate E|]. reflexivity.
Qed.
Lemma abs_member : forall cwd T n, Forall entry_name T -> T <> [] -> isabs n = false -> (forall c, In c (split_char c_slash n) -> c <> dotdot) ->
  abspath cwd (path_join (path_of T) n) = path_of (T ++ parts n).
Proof.
  intros cwd T n H N0 A D. rewrite join_temp by assumption. unfold abspath.
  destruct (path_head T H N0) as (x & r & E & Hx). rewrite E. cbn [List.app].
  unfold isabs. cbn [startswith]. rewrite N.eqb_refl. cbn [andb]. rewrite norm_rooted by exact Hx.
  change (c_slash :: x :: r ++ c_slash :: n) with ((c_slash :: x :: r) ++ [c_slash] ++ n). rewrite <- E, split_path by assumption.
  rewrite (norm_plain true ([] :: T ++ split_char c_slash n)).
  - cbn [List.app filter]. change (negb (str_eqb [] [] || str_eqb [] dot)) with false. cbn iota. rewrite filter_app, filter_entries by exact H. reflexivity.
  - intros c [<-|Hc]; [discriminate|]. apply in_app_or in Hc as [Hc|Hc]; [rewrite Forall_forall in H; apply H in Hc; apply Hc|apply D; exact Hc].
Qed.
Lemma join_app : forall sep (a b : list str), a <> [] -> exists r, join sep (a ++ b) = join sep a ++ r.
Proof.
  intros sep a b N0. induction a as [|x a IH]; [congruence|]. destruct a as [|y a].
  - destruct b as [|z b]; [exists []; cbn; now rewrite app_nil_r|]. cbn [List.app]. rewrite join_cons by discriminate. eexists. reflexivity.
  - destruct IH as (r & E); [discriminate|]. cbn [List.app] in *. exists r. rewrite (join_cons sep x (y :: a ++ b)), (join_cons sep x (y :: a)) by discriminate. rewrite E. now rewrite !app_assoc.
Qed.

Definition temp_ok (T : loc) : Prop := Forall entry_name T /\ T <> [].

Lemma no_dd : forall n, ~ occurs dotdot n -> forall c, In c (split_char c_slash n) -> c <> dotdot.
Proof. intros n H c Hc ->. apply H. eapply in_split_occurs. exact Hc. Qed.

Lemma accepted_exact : forall cwd T name, temp_ok T ->
  (accepted cwd (path_of T) name = true <-> (forall r, name <> c_slash :: r) /\ ~ occurs (lit "..") name).
Proof.
  intros cwd T name (H & N0). change (lit "..") with dotdot. unfold accepted. rewrite negb_true_iff, !orb_false_iff, negb_false_iff.
  assert (A : isabs name = false <-> forall r, name <> c_slash :: r).
  { unfold isabs. destruct name as [|x name]; cbn [startswith]; [split; [discriminate|reflexivity]|].
    destruct (N.eqb_spec c_slash x) as [<-|Hx]; cbn [andb]; split; intros X.
    - discriminate.
    - exfalso. eapply X. reflexivity.
    - intros r E. congruence.
    - reflexivity. }
  assert (B : contains dotdot name = false <-> ~ occurs dotdot name).
  { rewrite occurs_dec. destruct (contains dotdot name); split; congruence. }
  rewrite A, B. split; [tauto|]. intros (X & Y). repeat split; try assumption.
  rewrite abs_temp, abs_member by (try assumption; try (apply A; assumption); apply no_dd; assumption).
  unfold path_of. destruct (join_app [c_slash] T (parts name) N0) as (r & ->). rewrite app_assoc. apply startswith_app.
Qed.

Lemma lexical_plain : forall cs d, (forall c, In c cs -> c <> dotdot) -> lexical d cs (d ++ filter (fun c => negb (str_eqb c [] || str_eqb c dot)) cs).
Proof.
  induction cs as [|c cs IH]; intros d H; [cbn; rewrite app_nil_r; constructor|].
  cbn [filter]. destruct (str_eqb c [] || str_eqb c dot) eqn:E; cbn [negb].
  - apply lx_stay; [|apply IH; intros x Hx; apply H; now right]. apply orb_true_iff in E as [E|E]; apply str_eqb_spec in E; [left|right]; exact E.
  - apply orb_false_iff in E as [E1 E2].
    apply lx_down.
    + intros ->. discriminate.
    + intros ->. discriminate.
    + apply H. now left.
    + specialize (IH (d ++ [c]) (fun x Hx => H x (or_intror Hx))). now rewrite <- app_assoc in IH.
Qed.
Lemma lexical_fun : forall d cs e1, lexical d cs e1 -> forall e2, lexical d cs e2 -> e1 = e2.
Proof.
  intros d cs e1 H. induction H as [d|d c r e Hc H IH|d x r e H IH|r e H IH|d c r e N1 N2 N3 H IH]; intros e2 K.
  - now inversion K.
  - inversion K; subst; try (now apply IH); destruct Hc; try congruence; subst; discriminate.
  - inversion K as [|? ? ? ? Hc|d' x' r' e' K' E1 E2|r' e' K' E1 E2|]; subst.
    + destruct Hc; discriminate.
    + apply app_inj_tail in E1 as [-> ->]. now apply IH.
    + symmetry in E1. apply app_eq_nil in E1 as [_ E1]. discriminate.
    + congruence.
  - inversion K as [|? ? ? ? Hc|d' x' r' e' K' E1 E2|r' e' K' E1 E2|]; subst.
    + destruct Hc; discriminate.
    + apply app_eq_nil in E1 as [_ E1]. discriminate.
    + now apply IH.
    + congruence.
  - inversion K as [|? ? ? ? Hc| | |]; subst; try (now apply IH); try congruence. destruct Hc; congruence.
Qed.
Lemma parts_entry : forall n c, ~ occurs dotdot n -> In c (parts n) -> entry_name c /\ In c (split_char c_slash n).
Proof.
  intros n c D H. unfold parts in H. apply filter_In in H as (H & E). apply negb_true_iff, orb_false_iff in E as [E1 E2]. split; [|exact H].
  repeat split.
  - intros ->. discriminate.
  - intros ->. discriminate.
  - eapply no_dd; eassumption.
  - eapply split_char_nosep. exact H.
Qed.
Lemma accepted_below : forall cwd T name, temp_ok T -> accepted cwd (path_of T) name = true ->
  exists r, (forall e, lexical T (split_char c_slash name) e <-> e = T ++ r) /\
    (forall c, In c r -> entry_name c /\ In c (split_char c_slash name)) /\
    abspath cwd (path_join (path_of T) name) = path_of (T ++ r).
Proof.
  intros cwd T name HT HA. apply (accepted_exact cwd T name HT) in HA as (A & D). change (lit "..") with dotdot in D. exists (parts name). repeat split.
  - intros L. eapply lexical_fun; [exact L|]. apply lexical_plain. apply no_dd. exact D.
  - intros ->. apply lexical_plain. apply no_dd. exact D.
  - apply (parts_entry name c D H).
  - apply (parts_entry name c D H).
  - apply (parts_entry name c D H).
  - apply (parts_entry name c D H).
  - apply (parts_entry name c D H).
  - destruct HT as (H & N0). apply abs_member; try assumption; [|apply no_dd; exact D].
    unfold isabs. destruct name as [|x name]; [reflexivity|]. cbn [startswith]. destruct (N.eqb_spec c_slash x) as [<-|]; [|reflexivity]. exfalso. eapply A. reflexivity.
Qed.

(** ** Extraction stays below the directory *)
Definition inside (T p : loc) : Prop := exists r, p = T ++ r.
Definition inv (T : loc) (s : st) : Prop :=
  (forall a b, T = a ++ b -> files s a = Some NDir) /\
  (forall p t, below T p -> files s p = Some (NLink t) -> inner_target t) /\
  (forall p, In p (touched s) -> below T p).

Lemma inside_snoc : forall T p c, inside T p -> below T (p ++ [c]).
Proof. intros T p c (r & ->). exists (r ++ [c]). split; [destruct r; discriminate|now rewrite app_assoc]. Qed.
Lemma below_inside : forall T p, below T p -> inside T p.
Proof. intros T p (r & _ & E). exists r. exact E. Qed.

Lemma walk_inside : forall T f, (forall p t, below T p -> f p = Some (NLink t) -> inner_target t) ->
  forall k cur rest p, inside T cur -> ~ In dotdot rest -> walk k f cur rest = Some p -> inside T p.
Proof.
  intros T f L k. induction k as [|k IH]; intros cur rest p I D W; [discriminate|]. cbn [walk] in W. destruct rest as [|c r]; [injection W as <-; exact I|].
  assert (D' : ~ In dotdot r) by (intros X; apply D; now right).
  destruct (str_eqb c [] || str_eqb c dot); [eapply IH; eassumption|].
  destruct (str_eqb c dotdot) eqn:E; [exfalso; apply D; left; apply str_eqb_spec; exact E|].
  pose proof (inside_snoc T cur c I) as B.
  destruct (f (cur ++ [c])) as [[| |t]|] eqn:F.
  - eapply IH; [|exact D'|exact W]. apply below_inside. exact B.
  - destruct r; [injection W as <-; apply below_inside; exact B|discriminate].
  - destruct (L _ _ B F) as (A & C). eapply IH; [| |exact W].
    + unfold isabs. destruct t as [|x t]; [exact I|]. cbn [startswith]. destruct (N.eqb_spec c_slash x) as [<-|]; [exfalso; eapply A; reflexivity|exact I].
    + intros X. apply in_app_or in X as [X|X]; [exact (C X)|exact (D' X)].
  - destruct r; [injection W as <-; apply below_inside; exact B|discriminate].
Qed.
Lemma walk_down : forall T f r, Forall entry_name T -> forall k cur p, (forall a b, T = a ++ b -> f (cur ++ a) = Some NDir) ->
  walk k f cur (T ++ r) = Some p -> exists k', walk k' f (cur ++ T) r = Some p.
Proof.
  intros T f r H. induction H as [|c T Hc H IH]; intros k cur p P W.
  - rewrite app_nil_r. exists k. exact W.
  - destruct k as [|k]; [discriminate|]. cbn [List.app walk] in W. destruct (entry_tests c Hc) as (E1 & E2 & E3). rewrite E1, E2, E3 in W. cbn [orb] in W.
    rewrite (P [c] T eq_refl) in W. destruct (IH k (cur ++ [c]) p) as (k' & W').
    + intros a b ->. rewrite <- app_assoc. apply (P (c :: a) b). reflexivity.
    + exact W.
    + exists k'. now rewrite <- app_assoc in W'.
Qed.
Lemma walk_temp : forall T s k ps p, temp_ok T -> inv T s -> ~ In dotdot ps -> walk k (files s) [] (T ++ ps) = Some p -> inside T p.
Proof.
  intros T s k ps p (H & _) (P & L & _) D W. destruct (walk_down T (files s) ps H k [] p P W) as (k' & W').
  eapply walk_inside; [exact L| |exact D|exact W']. exists []. now rewrite app_nil_r.
Qed.
Lemma last_snoc : forall (l : list str) (d : str), l <> [] -> removelast l ++ [last l d] = l.
Proof. intros l d H. symmetry. apply app_removelast_last. exact H. Qed.
Lemma walk_exact : forall T f, Forall entry_name T -> (forall a b, T = a ++ b -> f a = Some NDir) -> forall k p, walk k f [] T = Some p -> p = T.
Proof.
  intros T f H P k p W. rewrite <- (app_nil_r T) in W at 1. destruct (walk_down T f [] H k [] p) as (k' & W'); [exact P|exact W|].
  destruct k'; [discriminate|]. cbn [walk] in W'. injection W' as <-. reflexivity.
Qed.
Lemma parent_temp : forall T s k ps p, temp_ok T -> inv T s -> ~ In dotdot ps -> parent k (files s) (T ++ ps) = Some p -> below T p \/ p = T.
Proof.
  intros T s k ps p HT I D W. unfold parent in W. destruct (walk k (files s) [] (removelast (T ++ ps))) as [d|] eqn:E; [|discriminate].
  destruct (files s d) as [[| |t]|]; try discriminate. injection W as <-.
  destruct ps as [|c ps].
  - right. rewrite app_nil_r in *. destruct HT as (H & N0). assert (Ed : d = removelast T).
    { destruct I as (P & _). apply (walk_exact (removelast T) (files s)) with (k := k); [| |exact E].
      - rewrite (app_removelast_last [] N0) in H. now apply Forall_app in H as [H _].
      - intros a b Eab. apply (P a (b ++ [last T []])). rewrite app_assoc, <- Eab. apply app_removelast_last. exact N0. }
    subst d. apply last_snoc. exact N0.
  - left. apply inside_snoc. rewrite removelast_app in E by discriminate. eapply walk_temp; [exact HT|exact I| |exact E].
    intros X. apply D. rewrite (app_removelast_last [] (l := c :: ps)) by discriminate. apply in_or_app. now left.
Qed.
Lemma touch_inv : forall T s p n, inv T s -> below T p -> (forall t, n = Some (NLink t) -> inner_target t) -> inv T (touch s p n).
Proof.
  intros T s p n (P & L & W) B N. split; [|split].
  - intros a b E. cbn [touch files]. unfold upd. destruct (loc_eq_dec a p) as [->|]; [|eapply P; exact E].
    exfalso. destruct B as (r & Nr & Ep). subst T. rewrite <- app_assoc in Ep. rewrite <- (app_nil_r p) in Ep at 1. apply app_inv_head in Ep.
    destruct b; [destruct r; [congruence|discriminate]|discriminate].
  - intros q t Bq. cbn [touch files]. unfold upd. destruct (loc_eq_dec q p); [intros E; apply N; exact E|apply L; exact Bq].
  - intros q [<-|Hq]; [exact B|apply W; exact Hq].
Qed.
Lemma inv_dir : forall T s, inv T s -> files s T = Some NDir.
Proof. intros T s (P & _). apply (P T []). now rewrite app_nil_r. Qed.

Lemma mkdir_inv : forall T s k ps, temp_ok T -> inv T s -> ~ In dotdot ps -> inv T (fst (mkdir k s (T ++ ps))).
Proof.
  intros T s k ps HT I D. unfold mkdir. destruct (parent k (files s) (T ++ ps)) as [p|] eqn:E; [|exact I].
  destruct (parent_temp T s k ps p HT I D E) as [B| ->].
  - destruct (files s p); [exact I|]. apply touch_inv; [exact I|exact B|discriminate].
  - rewrite (inv_dir T s I). exact I.
Qed.
Lemma makedirs_inv : forall T k rest s ps, temp_ok T -> inv T s -> ~ In dotdot ps -> ~ In dotdot rest -> inv T (fst (makedirs k s (T ++ ps) rest)).
Proof.
  intros T k rest. induction rest as [|c r IH]; intros s ps HT I D Dr; [exact I|]. cbn [makedirs]. rewrite <- app_assoc.
  assert (D' : ~ In dotdot (ps ++ [c])) by (intros X; apply in_app_or in X as [X|[X|[]]]; [exact (D X)|apply Dr; left; exact X]).
  assert (Dr' : ~ In dotdot r) by (intros X; apply Dr; now right).
  destruct (exists_at k (files s) (T ++ ps ++ [c])).
  - apply IH; assumption.
  - pose proof (mkdir_inv T s k (ps ++ [c]) HT I D') as I1. destruct (mkdir k s (T ++ ps ++ [c])) as [s1 [|]]; cbn [fst] in *.
    + apply IH; assumption.
    + exact I1.
Qed.
Lemma extract_one_inv : forall T k s m, temp_ok T -> inv T s -> ~ In dotdot (parts (m_name m)) -> harmless m -> inv T (fst (extract_one k T s m)).
Proof.
  intros T k s m HT I D Hm. unfold extract_one.
  assert (Dr : ~ In dotdot (removelast (parts (m_name m)))).
  { intros X. apply D. destruct (parts (m_name m)) as [|c l] eqn:E; [exact X|]. rewrite (app_removelast_last [] (l := c :: l)) by discriminate. apply in_or_app. now left. }
  pose proof (makedirs_inv T k (removelast (parts (m_name m))) s [] HT I (fun x => x) Dr) as I1. rewrite app_nil_r in I1.
  destruct (makedirs k s T (removelast (parts (m_name m)))) as [s1 [|]]; cbn [fst] in *; [|exact I1].
  unfold harmless in Hm. destruct (m_kind m) as [| |t].
  - unfold write_file. destruct (walk k (files s1) [] (T ++ parts (m_name m))) as [p|] eqn:W; [|exact I1].
    pose proof (walk_temp T s1 k _ p HT I1 D W) as (r & Ep).
    destruct r as [|c r]; [rewrite app_nil_r in Ep; subst p; rewrite (inv_dir T s1 I1); exact I1|].
    assert (B : below T p) by (exists (c :: r); split; [discriminate|exact Ep]).
    destruct (files s1 p) as [[| |u]|]; try exact I1; apply touch_inv; try exact I1; try exact B; discriminate.
  - unfold make_dir. destruct (exists_at k (files s1) (T ++ parts (m_name m))); [exact I1|]. apply mkdir_inv; assumption.
  - unfold symlink. destruct (parent k (files s1) (T ++ parts (m_name m))) as [p|] eqn:E; [|exact I1].
    destruct (parent_temp T s1 k _ p HT I1 D E) as [B| ->]; [|rewrite (inv_dir T s1 I1); exact I1].
    assert (Ht : forall t0, Some (NLink t) = Some (NLink t0) -> inner_target t0) by (intros t0 [= <-]; exact Hm).
    destruct (files s1 p) as [[| |u]|]; try exact I1; cbn [fst].
    + apply touch_inv; [apply touch_inv; [exact I1|exact B|discriminate]|exact B|exact Ht].
    + apply touch_inv; [apply touch_inv; [exact I1|exact B|discriminate]|exact B|exact Ht].
    + apply touch_inv; [exact I1|exact B|exact Ht].
Qed.
Lemma extract_all_inv : forall T k ms s, temp_ok T -> inv T s -> (forall m, In m ms -> ~ In dotdot (parts (m_name m)) /\ harmless m) -> inv T (fst (extract_all k T s ms)).
Proof.
  intros T k ms. induction ms as [|m ms IH]; intros s HT I H; [exact I|]. cbn [extract_all].
  destruct (H m (or_introl eq_refl)) as (D & Hm). pose proof (extract_one_inv T k s m HT I D Hm) as I1.
  destruct (extract_one k T s m) as [s1 [|]]; cbn [fst] in *; [|exact I1]. apply IH; [exact HT|exact I1|]. intros x Hx. apply H. now right.
Qed.
Lemma fresh_inv : forall T f, fresh_dir f T -> inv T {| files := f; touched := [] |}.
Proof. intros T f (P & N). split; [exact P|split]; cbn. - intros p t B E. rewrite (N p B) in E. discriminate. - intros p []. Qed.

Lemma parts_dd : forall n, ~ occurs dotdot n -> ~ In dotdot (parts n).
Proof. intros n D H. unfold parts in H. apply filter_In in H as (H & _). now apply (no_dd n D) in H. Qed.

Lemma tar_inside : forall k cwd T f ms, temp_ok T -> fresh_dir f T -> (forall m, In m ms -> harmless m) ->
  forall p, In p (touched (fst (extract_tar k cwd T f ms))) -> below T p.
Proof.
  intros k cwd T f ms HT F H. unfold extract_tar. apply extract_all_inv; [exact HT|apply fresh_inv; exact F|].
  intros m Hm. apply filter_In in Hm as (Hm & A). split; [|apply H; exact Hm]. apply (accepted_exact cwd T _ HT) in A as (_ & A). apply parts_dd. exact A.
Qed.
Lemma zip_parts : forall n, ~ In dotdot (parts (zip_name n)).
Proof.
  intros n H. unfold parts in H. apply filter_In in H as (H & _). unfold zip_name in H.
  set (l := filter _ (split_char c_slash n)) in H.
  assert (Hl : forall c, In c l -> c <> dotdot /\ ~ In c_slash c).
  { intros c Hc. apply filter_In in Hc as (Hc & E). apply negb_true_iff, orb_false_iff in E as [_ E]. split; [intros ->; discriminate|eapply split_char_nosep; exact Hc]. }
  clearbody l. destruct l as [|c l]; [destruct H as [H|[]]; discriminate|].
  rewrite split_join in H; [|discriminate|intros k Hk; apply Hl; exact Hk]. now apply Hl in H as (H & _).
Qed.
Lemma zip_inside : forall k cwd T f names, temp_ok T -> fresh_dir f T ->
  forall p, In p (touched (fst (extract_zip k cwd T f names))) -> below T p.
Proof.
  intros k cwd T f names HT F. unfold extract_zip. apply extract_all_inv; [exact HT|apply fresh_inv; exact F|].
  intros m Hm. apply in_map_iff in Hm as (n & <- & _). split; [apply zip_parts|]. unfold harmless, zip_member. cbn [m_kind]. destruct (endswith n [c_slash]); exact I.
Qed.

(** ** The main file *)
Lemma endswith_tex : forall f, endswith f (lit ".tex") = true <-> exists base, f = base ++ lit ".tex".
Proof.
  intros f. unfold endswith. rewrite startswith_spec. split.
  - intros (r & E). exists (rev r). apply (f_equal (@rev ch)) in E. rewrite rev_involutive, rev_app_distr, rev_involutive in E. exact E.
  - intros (b & ->). exists (rev b). now rewrite rev_app_distr.
Qed.
Definition main_text (c : str) : Prop := is_main_tex_file c = true.
Lemma main_in_some : forall fl f, main_in fl = Some f -> exists fl1 c fl2, fl = fl1 ++ (f, Some c) :: fl2 /\ (exists base, f = base ++ lit ".tex") /\ main_text c /\
  (forall g t, In (g, Some t) fl1 -> (exists base, g = base ++ lit ".tex") -> ~ main_text t).
Proof.
  induction fl as [|[g o] fl IH]; intros f H; [discriminate|]. cbn [main_in] in H.
  assert (Rec : main_in fl = Some f -> (forall t, o = Some t -> (exists base, g = base ++ lit ".tex") -> ~ main_text t) ->
    exists fl1 c fl2, (g, o) :: fl = fl1 ++ (f, Some c) :: fl2 /\ (exists base, f = base ++ lit ".tex") /\ main_text c /\
    (forall g t, In (g, Some t) fl1 -> (exists base, g = base ++ lit ".tex") -> ~ main_text t)).
  { intros H' Ho. destruct (IH f H') as (fl1 & c & fl2 & -> & A & B & C). exists ((g, o) :: fl1), c, fl2. split; [reflexivity|]. split; [exact A|]. split; [exact B|].
    intros g' t [E|Hin]; [injection E as -> ->; apply Ho; reflexivity|apply C; exact Hin]. }
  destruct (endswith g (lit ".tex")) eqn:E.
  - destruct o as [c|]; [|apply Rec; [exact H|discriminate]].
    destruct (is_main_tex_file c) eqn:M.
    + injection H as <-. exists [], c, fl. split; [reflexivity|]. split; [apply endswith_tex; exact E|]. split; [exact M|]. intros g' t [].
    + apply Rec; [exact H|]. intros t [= <-] _ X. unfold main_text in X. congruence.
  - apply Rec; [exact H|]. intros t _ X. apply endswith_tex in X. congruence.
Qed.
Lemma main_in_none : forall fl, main_in fl = None <-> forall g t, In (g, Some t) fl -> (exists base, g = base ++ lit ".tex") -> ~ main_text t.
Proof.
  induction fl as [|[g o] fl IH]; [split; [intros _ g t []|reflexivity]|]. cbn [main_in]. split.
  - intros H g' t [E|Hin] X.
    + injection E as -> ->. apply endswith_tex in X. rewrite X in H. unfold main_text. destruct (is_main_tex_file t); congruence.
    + apply (proj1 IH) in Hin; try assumption. destruct (endswith g (lit ".tex")); [|exact H]. destruct o as [c|]; [|exact H]. destruct (is_main_tex_file c); [discriminate|exact H].
  - intros H. assert (H' : main_in fl = None) by (apply IH; intros g' t Hin; apply H; now right).
    destruct (endswith g (lit ".tex")) eqn:E; [|exact H']. destruct o as [c|]; [|exact H']. destruct (is_main_tex_file c) eqn:M; [|exact H'].
    exfalso. eapply (H g c); [now left|apply endswith_tex; exact E|exact M].
Qed.
Lemma find_main_some : forall w root f, find_main_tex_file w = Some (root, f) -> first_main main_text w root f.
Proof.
  induction w as [|[d fl] w IH]; intros root f H; [discriminate|]. cbn [find_main_tex_file] in H. destruct (main_in fl) as [g|] eqn:E.
  - injection H as <- <-. destruct (main_in_some fl g E) as (fl1 & c & fl2 & -> & A & B & C). exists [], fl1, c, fl2, w. split; [reflexivity|]. split; [exact A|]. split; [exact B|].
    intros d' g' t [X|([] & _)]. apply C. exact X.
  - destruct (IH root f H) as (d1 & fl1 & c & fl2 & d2 & -> & A & B & C). exists ((d, fl) :: d1), fl1, c, fl2, d2. split; [reflexivity|]. split; [exact A|]. split; [exact B|].
    intros d' g t [X|([<-|X] & Y)].
    + apply (C d'). left. exact X.
    + cbn [snd] in Y. apply (proj1 (main_in_none fl)); assumption.
    + apply (C d'). right. split; assumption.
Qed.
Lemma find_main_none : forall w, find_main_tex_file w = None <-> no_main main_text w.
Proof.
  unfold no_main. induction w as [|[d fl] w IH]; [split; [intros _ d f t []|reflexivity]|]. cbn [find_main_tex_file]. split.
  - intros H d' f t [<-|Hd] Hin X.
    + destruct (main_in fl) eqn:E; [discriminate|]. cbn [snd] in Hin. apply (proj1 (main_in_none fl) E f t Hin X).
    + destruct (main_in fl) eqn:E; [discriminate|]. apply (proj1 IH H d' f t Hd Hin X).
  - intros H. replace (main_in fl) with (@None str); [apply IH; intros d' f t Hd; apply H; now right|]. symmetry. apply main_in_none. intros g t Hin. apply (H (d, fl)); [now left|exact Hin].
Qed.
