(** Proofs for C80. *)
From Coq Require Import List NArith PeanoNat Lia Bool String.
From Verif Require Import PyStr Json BuilderModel TokensModel AliasModel AliasSpec.
Import ListNotations. Notation length := List.length. Notation concat := List.concat. Open Scope list_scope.

Lemma hset_len : forall h a d, length (hset h a d) = length h.
Proof. induction h as [|x h IH]; intros [|a] d; cbn; auto. Qed.
Lemma hset_same : forall h a d, a < length h -> hget (hset h a d) a = d.
Proof. induction h as [|x h IH]; intros [|a] d L; cbn in *; try lia; [reflexivity|]. apply IH. lia. Qed.
Lemma hset_other : forall h a b d, a <> b -> hget (hset h a d) b = hget h b.
Proof. induction h as [|x h IH]; intros [|a] [|b] d N; cbn; try reflexivity; try lia. apply (IH a b d). lia. Qed.
Lemma hset_id : forall h a, hset h a (hget h a) = h.
Proof. induction h as [|x h IH]; intros [|a]; cbn; try reflexivity. f_equal. apply IH. Qed.
Lemma hset_firstn : forall h a d k, k <= a -> firstn k (hset h a d) = firstn k h.
Proof. induction h as [|x h IH]; intros [|a] d [|k] L; cbn; try reflexivity; try lia. f_equal. apply IH. lia. Qed.
Lemma hget_app : forall h d a, a < length h -> hget (h ++ d) a = hget h a.
Proof. intros h d a L. unfold hget. apply app_nth1. exact L. Qed.
Lemma hget_new : forall h d, hget (h ++ [d]) (length h) = d.
Proof. intros h d. unfold hget. rewrite app_nth2, Nat.sub_diag by lia. reflexivity. Qed.
Lemma last_addr_app : forall l a, last_addr (l ++ [a]) = Some a.
Proof. induction l as [|x l IH]; intros a; [reflexivity|]. cbn. rewrite IH. destruct (l ++ [a]) eqn:E; [destruct l; discriminate|reflexivity]. Qed.
Lemma last_of_app : forall l d, last_of (l ++ [d]) = Some (l, d).
Proof. induction l as [|x l IH]; intros d; [reflexivity|]. cbn. rewrite IH. reflexivity. Qed.
Lemma list_last : forall (l : list nat), l = [] \/ exists p a, l = p ++ [a].
Proof. intros l. destruct l as [|x l]; [left; reflexivity|right]. destruct (exists_last (l := x :: l)) as (p & a & E); [discriminate|]. eauto. Qed.

Lemma add_object_cases : forall h toks a sp ts', add_dict (hget h a) (map (hget h) toks) sp = Ok ts' ->
  (add_object h toks a sp = Ok (h, toks ++ [a]) /\ ts' = map (hget h) toks ++ [hget h a]) \/
  (add_object h toks a sp = Ok (h, toks) /\ ts' = map (hget h) toks) \/
  (exists pre b m, toks = pre ++ [b] /\ add_object h toks a sp = Ok (hset h b m, toks) /\ ts' = map (hget h) pre ++ [m]).
Proof.
  intros h toks a sp ts' H. unfold add_dict in H. unfold add_object.
  destruct (is_str (get k_type (hget h a)) "text").
  - destruct (list_last toks) as [->|(pre & b & ->)].
    + cbn [map last_of] in H. injection H as <-. left. split; reflexivity.
    + rewrite last_addr_app. rewrite map_app in H. cbn [map] in H. rewrite last_of_app in H.
      destruct (is_str (get k_type (hget h b)) "text" && negb (has_key k_styles (hget h a)) && negb (has_key k_styles (hget h b))).
      * destruct (merge_text (hget h b) (hget h a) sp) as [m|]; [|discriminate]. cbn [bind] in H |- *. injection H as <-. right. right. exists pre, b, m. auto.
      * injection H as <-. left. split; [reflexivity|]. rewrite map_app. reflexivity.
  - destruct (existsb (is_str (get k_type (hget h a))) ["group"; "environment"; "list"]%string).
    + destruct (getitem k_content (hget h a)) as [c|]; [|discriminate]. cbn [bind] in H |- *. destruct (py_len c) as [n|]; [|discriminate]. cbn [bind] in H |- *.
      destruct (n <? 1); injection H as <-; [right; left|left]; split; reflexivity.
    + injection H as <-. left. split; reflexivity.
Qed.

(** The last token belongs to the list alone, and is not older than [k]. *)
Definition owned (k : nat) (toks : list nat) (others : list nat) : Prop :=
  toks = [] \/ exists pre a, toks = pre ++ [a] /\ ~ In a pre /\ ~ In a others /\ k <= a.
Lemma owned_weaken : forall k toks o o', owned k toks o -> (forall x, In x o' -> In x o \/ forall pre a, toks = pre ++ [a] -> x <> a) -> owned k toks o'.
Proof.
  intros k toks o o' [->|(pre & a & E & H1 & H2 & H3)] W; [left; reflexivity|right]. exists pre, a. repeat split; auto.
  intros I. destruct (W a I) as [I'|N]; [exact (H2 I')|apply (N pre a E eq_refl)].
Qed.
Lemma pushed_inv : forall boxed d sp ts f ts' f', pushed boxed d sp (ts, f) (ts', f') ->
  add_dict d ts sp = Ok ts' /\ ((ts' = ts ++ [d] /\ f' = boxed) \/ (ts' = ts /\ f' = f) \/ (length ts' = length ts /\ f = false /\ f' = false)).
Proof. intros boxed d sp ts f ts' f' P. inversion P; subst; auto 6. Qed.
Lemma push_ok : forall k boxed d sp ts f ts' f' h toks others a,
  pushed boxed d sp (ts, f) (ts', f') -> map (hget h) toks = ts -> hget h a = d -> a < length h -> (forall x, In x toks -> x < length h) ->
  (f = false -> owned k toks others) -> (boxed = false -> ~ In a toks /\ ~ In a others /\ k <= a) ->
  exists h' toks', add_object h toks a sp = Ok (h', toks') /\ map (hget h') toks' = ts' /\ length h' = length h /\ firstn k h' = firstn k h /\
    (forall x, In x others -> hget h' x = hget h x) /\ (f' = false -> owned k toks' others) /\ (forall x, In x toks' -> In x toks \/ x = a).
Proof.
  intros k boxed d sp ts f ts' f' h toks others a P Et Ed La Lt Own New.
  destruct (pushed_inv _ _ _ _ _ _ _ P) as [AD PI]. rewrite <- Ed, <- Et in AD.
  destruct (add_object_cases h toks a sp ts' AD) as [[E1 E2]|[[E1 E2]|(pre & b & m & E0 & E1 & E2)]].
  - exists h, (toks ++ [a]). rewrite map_app. repeat split; auto.
    + intros Ef. right. exists toks, a. split; [reflexivity|]. apply New. rewrite Et, Ed in E2. destruct PI as [[_ PI]|[[PI _]|[PI _]]]; [congruence| |].
      * exfalso. rewrite E2 in PI. apply (f_equal (@List.length _)) in PI. rewrite app_length in PI. cbn in PI. lia.
      * exfalso. rewrite E2, app_length in PI. cbn in PI. lia.
    + intros x I. apply in_app_or in I as [I|[<-|[]]]; auto.
  - exists h, toks. repeat split; auto.
    intros Ef. apply Own. rewrite Et in E2. destruct PI as [[PI _]|[[_ PI]|[_ [PI _]]]]; try congruence.
    exfalso. rewrite E2 in PI. apply (f_equal (@List.length _)) in PI. rewrite app_length in PI. cbn in PI. lia.
  - destruct f eqn:Ef.
    + (* nothing changes *)
      assert (Es : ts' = ts /\ f' = true).
      { destruct PI as [[PI _]|[PI|[_ [PI _]]]]; [|exact PI|discriminate]. exfalso. rewrite E2, <- Et, E0, map_app in PI. apply (f_equal (@List.length _)) in PI. rewrite !app_length in PI. cbn in PI. lia. }
      destruct Es as [Es1 Es2]. assert (Em : m = hget h b).
      { rewrite Es1 in E2. rewrite <- Et, E0, map_app in E2. cbn [map] in E2. apply app_inj_tail in E2 as [_ E2]. congruence. }
      rewrite Em, hset_id in E1. exists h, toks. repeat split; auto; [congruence|]. intros C. congruence.
    + destruct (Own eq_refl) as [C|(pre' & b' & E' & N1 & N2 & Nk)]; [rewrite E0 in C; destruct pre; discriminate|].
      rewrite E0 in E'. apply app_inj_tail in E' as [E' E'']. subst pre' b'.
      assert (Lb : b < length h) by (apply Lt; rewrite E0; apply in_or_app; right; left; reflexivity).
      exists (hset h b m), toks. split; [exact E1|]. split; [|split; [apply hset_len|split; [apply hset_firstn; exact Nk|split; [|split; [|auto]]]]].
      * rewrite E0, map_app, E2. cbn [map]. rewrite hset_same by exact Lb. f_equal. apply map_ext_in. intros x I. apply hset_other. intros <-. exact (N1 I).
      * intros x I. apply hset_other. intros <-. exact (N2 I).
      * intros _. right. exists pre, b. auto.
Qed.

(** ** Boxes *)
Definition addrs (bx : tables nat) : list nat := concat (map (fun e => match snd e with Some l => l | None => [] end) bx).
Definition denote (h : heap) (bx : tables nat) : tables dict := map (fun e => (fst e, option_map (map (hget h)) (snd e))) bx.
Lemma tget_denote : forall h bx x, tget x (denote h bx) = option_map (map (hget h)) (tget x bx).
Proof. intros h bx x. induction bx as [|[y v] bx IH]; [reflexivity|]. cbn. destruct (str_eqb x y); [reflexivity|exact IH]. Qed.
Lemma tget_addrs : forall bx x l, tget x bx = Some l -> forall a, In a l -> In a (addrs bx).
Proof.
  induction bx as [|[y v] bx IH]; intros x l H a I; [discriminate|]. cbn in H. unfold addrs. cbn [map concat snd]. apply in_or_app.
  destruct (str_eqb x y); [subst v; left; exact I|right; eapply IH; eassumption].
Qed.
Lemma denote_ext : forall h h' bx, (forall a, In a (addrs bx) -> hget h' a = hget h a) -> denote h' bx = denote h bx.
Proof.
  intros h h' bx H. unfold denote. apply map_ext_in. intros [y v] I. cbn [fst snd]. f_equal. destruct v as [l|]; [|reflexivity]. cbn. f_equal. apply map_ext_in. intros a Ia. apply H.
  unfold addrs. apply in_concat. exists l. split; [|exact Ia]. apply in_map_iff. exists (y, Some l). split; [reflexivity|exact I].
Qed.

Lemma objects_ok : forall l ts f ts' f' k h toks others,
  pushed_all (map (hget h) l) (ts, f) (ts', f') -> map (hget h) toks = ts -> (forall x, In x l -> x < length h) -> (forall x, In x toks -> x < length h) ->
  (forall x, In x l -> In x others) -> (f = false -> owned k toks others) ->
  exists h' toks', add_objects h toks l = Ok (h', toks') /\ map (hget h') toks' = ts' /\ length h' = length h /\ firstn k h' = firstn k h /\
    (forall x, In x others -> hget h' x = hget h x) /\ (f' = false -> owned k toks' others) /\ (forall x, In x toks' -> In x toks \/ In x others).
Proof.
  induction l as [|a l IH]; intros ts f ts' f' k h toks others P Et Ll Lt Lo Own.
  - inversion P; subst. exists h, toks. repeat split; auto.
  - cbn [map] in P. inversion P as [|d r s0 s1 s2 P1 P2]; subst. destruct s1 as [ts1 f1].
    destruct (push_ok k true _ _ _ _ _ _ h toks others a P1 eq_refl eq_refl (Ll a (or_introl eq_refl)) Lt Own) as (h1 & toks1 & E1 & M1 & N1 & K1 & O1 & W1 & I1); [discriminate|].
    assert (Em : map (hget h) l = map (hget h1) l). { apply map_ext_in. intros x I. symmetry. apply O1. apply Lo. right. exact I. }
    rewrite Em in P2.
    destruct (IH ts1 f1 ts' f' k h1 toks1 others P2 M1) as (h2 & toks2 & E2 & M2 & N2 & K2 & O2 & W2 & I2); try assumption.
    { intros x I. rewrite N1. apply Ll. right. exact I. }
    { intros x I. rewrite N1. destruct (I1 x I) as [I'| ->]; [apply Lt; exact I'|apply Ll; left; reflexivity]. }
    { intros x I. apply Lo. right. exact I. }
    exists h2, toks2. split; [cbn [add_objects]; rewrite E1; exact E2|]. split; [exact M2|]. split; [lia|]. split; [congruence|]. split; [|split; [exact W2|]].
    + intros x I. rewrite O2, O1; auto.
    + intros x I. destruct (I2 x I) as [I'|I']; [|right; exact I']. destruct (I1 x I') as [I''| ->]; [left; exact I''|right; apply Lo; left; reflexivity].
Qed.
Lemma new_ok : forall d sp ts f ts' f' k h toks others,
  pushed false d sp (ts, f) (ts', f') -> map (hget h) toks = ts -> (forall x, In x toks -> x < length h) -> (forall x, In x others -> x < length h) -> k <= length h ->
  (f = false -> owned k toks others) ->
  exists h' toks', add_new h toks d sp = Ok (h', toks') /\ map (hget h') toks' = ts' /\ length h' = S (length h) /\ firstn k h' = firstn k h /\
    (forall x, In x others -> hget h' x = hget h x) /\ (f' = false -> owned k toks' others) /\ (forall x, In x toks' -> In x toks \/ x = length h).
Proof.
  intros d sp ts f ts' f' k h toks others P Et Lt Lo Lk Own. unfold add_new.
  destruct (push_ok k false d sp ts f ts' f' (h ++ [d]) toks others (length h) P) as (h1 & toks1 & E1 & M1 & N1 & K1 & O1 & W1 & I1); try assumption.
  - rewrite <- Et. apply map_ext_in. intros x I. apply hget_app. apply Lt. exact I.
  - apply hget_new.
  - rewrite app_length. cbn. lia.
  - intros x I. rewrite app_length. apply Lt in I. lia.
  - intros _. split; [|split; [|exact Lk]]; intros I; [apply Lt in I|apply Lo in I]; lia.
  - exists h1, toks1. split; [exact E1|]. split; [exact M1|]. split; [rewrite N1, app_length; cbn; lia|]. split; [|split; [|split; [exact W1|exact I1]]].
    + rewrite K1, firstn_app. replace (k - length h) with 0 by lia. cbn [firstn]. apply app_nil_r.
    + intros x I. rewrite O1 by exact I. apply hget_app. apply Lo. exact I.
Qed.

(** ** The refinement *)
Lemma exec_save : forall x body h bx toks, exec (ASave x body) h bx toks = do s <- exec_all body h bx []; Ok (fst (fst s), (x, Some (snd s)) :: snd (fst s), toks).
Proof.
  reflexivity.
Qed.
Lemma firstn_get : forall (h h' : heap) n, firstn n h' = firstn n h -> forall a, a < n -> hget h' a = hget h a.
Proof.
  intros h h' n. revert h h'. induction n as [|n IH]; intros h h' E a L; [lia|]. destruct h as [|x h], h' as [|y h']; cbn in E; try discriminate; [reflexivity|].
  injection E as -> E. destruct a as [|a]; [reflexivity|]. cbn. apply IH; [exact E|lia].
Qed.
Theorem refines : forall vbx l s vbx' s', means vbx l s vbx' s' -> forall k h bx toks,
  k <= length h -> denote h bx = vbx -> map (hget h) toks = fst s -> (forall a, In a (addrs bx) -> a < length h) -> (forall a, In a toks -> a < length h) ->
  (snd s = false -> owned k toks (addrs bx)) ->
  exists h' bx' toks', exec_all l h bx toks = Ok (h', bx', toks') /\ denote h' bx' = vbx' /\ map (hget h') toks' = fst s' /\
    length h <= length h' /\ firstn k h' = firstn k h /\
    (forall a, In a (addrs bx') -> a < length h' /\ (In a (addrs bx) \/ In a toks \/ length h <= a)) /\
    (forall a, In a toks' -> a < length h' /\ (In a (addrs bx) \/ In a toks \/ length h <= a)) /\
    (snd s' = false -> owned k toks' (addrs bx')).
Proof.
  intros vbx l s vbx' s' M. induction M as [bx0 s|bx0 d sp l [ts f] [ts1 f1] bx' s' P M IH|bx0 y l s s1 bx' s' La M IH|bx0 y body l s bx1 content f bx' s' Mb IHb M IH|bx0 y l s bx' s' M IH|bx0 y content l [ts f] [ts1 f1] bx' s' T P M IH|bx0 y l s bx' s' T M IH];
    intros k h bx toks Lk Eb Et Lb Lt Own; cbn [fst snd] in *.
  - exists h, bx, toks. repeat split; auto.
  - destruct (new_ok d sp ts f ts1 f1 k h toks (addrs bx) P Et Lt Lb Lk Own) as (h1 & toks1 & E1 & M1 & N1 & K1 & O1 & W1 & I1).
    destruct (IH k h1 bx toks1) as (h' & bx2 & toks' & E2 & Eb2 & Et2 & L2 & K2 & A2 & T2 & W2); cbn [fst snd]; try assumption; try lia.
    { rewrite <- Eb. apply denote_ext. exact O1. } { intros a I. apply Lb in I. lia. } { intros a I. destruct (I1 a I) as [I'| ->]; [apply Lt in I'|]; lia. }
    exists h', bx2, toks'. split; [cbn [exec_all exec]; rewrite E1; cbn [bind fst snd]; exact E2|]. repeat split; auto; try lia; try congruence.
    + apply (A2 a H).
    + destruct (A2 a H) as [_ [Q|[Q|Q]]]; auto; [|right; right; lia]. destruct (I1 a Q) as [Q'| ->]; auto.
    + apply (T2 a H).
    + destruct (T2 a H) as [_ [Q|[Q|Q]]]; auto; [|right; right; lia]. destruct (I1 a Q) as [Q'| ->]; auto.
  - inversion La as [ts d d' Nd Wl E1 E2|E1 E2]; subst s s1; cbn [fst snd] in *.
    + destruct (Own eq_refl) as [->|(pre & b & -> & Np & No & Kb)]; [destruct ts; discriminate|]. rewrite map_app in Et. cbn [map] in Et. apply app_inj_tail in Et as [Et Ed].
      assert (Lb2 : b < length h) by (apply Lt; apply in_or_app; right; left; reflexivity).
      destruct (IH k (hset h b d') bx (pre ++ [b])) as (h' & bx2 & toks' & E2 & Eb2 & Et2 & L2 & K2 & A2 & T2 & W2); cbn [fst snd]; rewrite ?hset_len; auto.
      { rewrite <- Eb. apply denote_ext. intros a I. apply hset_other. intros <-. exact (No I). }
      { rewrite map_app, <- Et. cbn [map]. rewrite hset_same by exact Lb2. f_equal. apply map_ext_in. intros a I. apply hset_other. intros <-. exact (Np I). }
      exists h', bx2, toks'. split.
      { cbn [exec_all exec]. unfold add_label. rewrite last_addr_app. rewrite Ed. destruct d as [|e d]; [congruence|]. rewrite Wl. cbn [bind fst snd]. exact E2. }
      rewrite hset_len in *. repeat split; auto; try (apply (A2 a H)); try (apply (T2 a H)). rewrite K2. apply hset_firstn. exact Kb.
    + destruct toks; [|discriminate].
      destruct (new_ok (label_token y) false [] false [label_token y] false k h [] (addrs bx)) as (h1 & toks1 & E1 & M1 & N1 & K1 & O1 & W1 & I1); auto.
      { apply (pu_append false (label_token y) false [] false). reflexivity. }
      destruct (IH k h1 bx toks1) as (h' & bx2 & toks' & E2 & Eb2 & Et2 & L2 & K2 & A2 & T2 & W2); cbn [fst snd]; try assumption; try lia.
      { rewrite <- Eb. apply denote_ext. exact O1. } { intros a I. apply Lb in I. lia. } { intros a I. destruct (I1 a I) as [[]| ->]. lia. }
      exists h', bx2, toks'. split; [cbn [exec_all exec add_label last_addr]; rewrite E1; cbn [bind fst snd]; exact E2|]. repeat split; auto; try lia; try congruence.
      * apply (A2 a H).
      * destruct (A2 a H) as [_ [Q|[Q|Q]]]; auto; [|right; right; lia]. destruct (I1 a Q) as [[]| ->]; auto.
      * apply (T2 a H).
      * destruct (T2 a H) as [_ [Q|[Q|Q]]]; auto; [|right; right; lia]. destruct (I1 a Q) as [[]| ->]; auto.
  - destruct (IHb (length h) h bx []) as (h1 & bx1' & toks1 & E1 & Eb1 & Et1 & L1 & K1 & A1 & T1 & W1); auto.
    { intros a []. } { intros _. left. reflexivity. }
    assert (Same : forall a, a < length h -> hget h1 a = hget h a) by (apply firstn_get; exact K1).
    destruct (IH k h1 ((y, Some toks1) :: bx1') toks) as (h' & bx2 & toks' & E2 & Eb2 & Et2 & L2 & K2 & A2 & T2 & W2); try lia.
    { cbn [denote map fst snd option_map]. rewrite Et1. cbn [fst]. f_equal. exact Eb1. }
    { rewrite <- Et. apply map_ext_in. intros a I. apply Same. apply Lt. exact I. }
    { intros a I. unfold addrs in I. cbn [map concat snd] in I. apply in_app_or in I as [I|I]; [apply (T1 a I)|apply (A1 a I)]. }
    { intros a I. apply Lt in I. lia. }
    { intros Ef. apply (owned_weaken k toks (addrs bx)); [apply Own; exact Ef|]. intros a I. unfold addrs in I. cbn [map concat snd] in I.
      assert (Q : In a (addrs bx) \/ length h <= a). { apply in_app_or in I as [I|I]; [destruct (T1 a I) as [_ [Q|[[]|Q]]]|destruct (A1 a I) as [_ [Q|[[]|Q]]]]; auto. }
      destruct Q as [Q|Q]; [left; exact Q|right]. intros pre b Ep <-. assert (a < length h) by (apply Lt; rewrite Ep; apply in_or_app; right; left; reflexivity). lia. }
    assert (Fk : firstn k h1 = firstn k h). { apply (f_equal (firstn k)) in K1. rewrite !firstn_firstn in K1. replace (Nat.min k (length h)) with k in K1 by lia. exact K1. }
    exists h', bx2, toks'. split; [cbn [exec_all]; rewrite exec_save, E1; cbn [bind fst snd]; exact E2|].
    assert (Src : forall a, In a (addrs ((y, Some toks1) :: bx1')) \/ In a toks \/ length h1 <= a -> In a (addrs bx) \/ In a toks \/ length h <= a).
    { intros a [I|[I|I]]; [|auto|right; right; lia]. unfold addrs in I. cbn [map concat snd] in I. apply in_app_or in I as [I|I]; [destruct (T1 a I) as [_ [Q|[[]|Q]]]|destruct (A1 a I) as [_ [Q|[[]|Q]]]]; auto. }
    repeat split; auto; try lia; try congruence.
    + apply (A2 a H).
    + apply Src. apply (A2 a H).
    + apply (T2 a H).
    + apply Src. apply (T2 a H).
  - destruct (IH k h ((y, None) :: bx) toks) as (h' & bx2 & toks' & E2 & Eb2 & Et2 & L2 & K2 & A2 & T2 & W2); auto.
    { cbn [denote map fst snd option_map]. f_equal. exact Eb. }
    exists h', bx2, toks'. split; [cbn [exec_all exec bind fst snd]; exact E2|]. repeat split; auto; try (apply (A2 a H)); try (apply (T2 a H)).
  - assert (exists l', tget y bx = Some l' /\ content = map (hget h) l') as (l' & Tl & ->).
    { rewrite <- Eb, tget_denote in T. destruct (tget y bx) as [l'|]; [|discriminate]. cbn in T. injection T as <-. eauto. }
    destruct (objects_ok l' ts f ts1 f1 k h toks (addrs bx) P Et) as (h1 & toks1 & E1 & M1 & N1 & K1 & O1 & W1 & I1); auto.
    { intros x I. apply Lb. eapply tget_addrs; eassumption. } { intros x I. eapply tget_addrs; eassumption. }
    destruct (IH k h1 bx toks1) as (h' & bx2 & toks' & E2 & Eb2 & Et2 & L2 & K2 & A2 & T2 & W2); cbn [fst snd]; try assumption; try lia.
    { rewrite <- Eb. apply denote_ext. exact O1. } { intros a I. apply Lb in I. lia. } { intros a I. destruct (I1 a I) as [I'|I']; [apply Lt in I'|apply Lb in I']; lia. }
    exists h', bx2, toks'. split; [cbn [exec_all exec]; rewrite Tl, E1; cbn [bind fst snd]; exact E2|]. repeat split; auto; try lia; try congruence.
    + apply (A2 a H).
    + destruct (A2 a H) as [_ [Q|[Q|Q]]]; auto; [|right; right; lia]. destruct (I1 a Q) as [Q'|Q']; auto.
    + apply (T2 a H).
    + destruct (T2 a H) as [_ [Q|[Q|Q]]]; auto; [|right; right; lia]. destruct (I1 a Q) as [Q'|Q']; auto.
  - assert (tget y bx = None) as Tl. { rewrite <- Eb, tget_denote in T. destruct (tget y bx); [discriminate|reflexivity]. }
    destruct (IH k h bx toks) as (h' & bx2 & toks' & E2 & R); auto. exists h', bx2, toks'. split; [cbn [exec_all exec]; rewrite Tl; cbn [bind fst snd]; exact E2|exact R].
Qed.
Lemma parse_refines : forall l vbx ts f, means [] l ([], false) vbx (ts, f) -> parse_acts l = Ok ts.
Proof.
  intros l vbx ts f M. destruct (refines _ _ _ _ _ M 0 [] [] []) as (h & bx & toks & E & _ & Et & _); auto; try (intros a []); [left; reflexivity|].
  unfold parse_acts. rewrite E. cbn [bind fst snd] in *. rewrite Et. reflexivity.
Qed.
