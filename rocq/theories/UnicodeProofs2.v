(** C110-C112: which keys of the table can match where. *)
From Coq Require Import List NArith ZArith PeanoNat Lia Bool String.
From Verif Require Import PyStr Regex RegexLemmas RegexHead UnicodeTable UnicodeModel UnicodeSpec UnicodeProofs.
Import ListNotations.
Notation length := List.length.
Notation concat := List.concat.
Open Scope list_scope.

(** * The characters *)
Lemma alpha_iff : forall x, alpha x = true <-> a_letter x.
Proof. intros x. unfold alpha, in_range, a_letter. rewrite Bool.orb_true_iff, !Bool.andb_true_iff, !N.leb_le. lia. Qed.
Lemma alpha_no : forall x, ~ a_letter x -> alpha x = false.
Proof. intros x H. apply Bool.not_true_is_false. rewrite alpha_iff. exact H. Qed.
Lemma hexa_iff : forall x, hexa x = true <-> a_hex x.
Proof. intros x. unfold hexa, in_range, a_hex. rewrite !Bool.orb_true_iff, !Bool.andb_true_iff, !N.leb_le. lia. Qed.

Lemma begins_iff : forall s p, startswith s p = true <-> begins s p.
Proof. intros s p. apply startswith_spec. Qed.
Lemma contains_iff : forall p s, contains p s = true <-> within p s.
Proof.
  intros p s. induction s as [|x s IH]; cbn [contains].
  - rewrite Bool.orb_false_r, begins_iff. split.
    + intros (r & H). exists [], r. exact H.
    + intros (a & b & H). destruct a; [exists b; exact H|discriminate].
  - rewrite Bool.orb_true_iff, begins_iff, IH. split.
    + intros [(r & H)|(a & b & H)]; [exists [], r; exact H|]. exists (x :: a), b. rewrite H. reflexivity.
    + intros (a & b & H). destruct a as [|y a]; [left; exists b; exact H|right]. injection H as _ H. exists a, b. exact H.
Qed.

(** * What holds of every key, by inspection of the table *)
Definition key_ok (e : str * str) : bool :=
  let k := fst e in
  listed k && negb (startswith k (lit "\ensuremath")) && Nat.leb 2 (length k) &&
  (startswith k (lit "\") ||
   (startswith k (lit "{[") || startswith k (lit "{]") || startswith k (lit "{^") || startswith k (lit "{'") ||
    startswith k (lit "{_") || startswith k (lit "{{/") || startswith k (lit "{\fontencoding{") || startswith k (lit "{\small\"))) &&
  (negb (word_like k) || alpha (last k 0%N) || str_eqb (snd e) []) &&
  match snd e with x :: _ => negb (alpha x) | [] => true end &&
  match assoc k unicode_table with Some v => str_eqb v (snd e) | None => false end.
Lemma table_ok : forallb key_ok unicode_table = true.
Proof. vm_compute. reflexivity. Qed.
Lemma no_ensuremath : keys_of Kensuremath = [].
Proof. vm_compute. reflexivity. Qed.

Local Opaque unicode_table.
Lemma entry_ok : forall k v, In (k, v) unicode_table -> key_ok (k, v) = true.
Proof. intros k v H. apply (proj1 (forallb_forall _ _) table_ok). exact H. Qed.
Lemma key_in : forall k, In k (map fst unicode_table) -> exists v, In (k, v) unicode_table.
Proof. intros k H. apply in_map_iff in H as ((k', v) & <- & H). eauto. Qed.

Ltac parts H := unfold key_ok in H; cbn [fst snd] in H; cbv zeta in H; apply andb_prop in H as [H Eassoc]; apply andb_prop in H as [H Ehead]; apply andb_prop in H as [H Eword];
  apply andb_prop in H as [H Eopen]; apply andb_prop in H as [H Elen]; apply andb_prop in H as [Elist Eens].

Lemma entry_assoc : forall k v, In (k, v) unicode_table -> assoc k unicode_table = Some v.
Proof.
  intros k v H. apply entry_ok in H. parts H. destruct (assoc k unicode_table) as [w|]; [|discriminate].
  f_equal. apply str_eqb_spec. exact Eassoc.
Qed.
Lemma entry_len : forall k, In k (map fst unicode_table) -> 2 <= length k.
Proof. intros k H. apply key_in in H as (v & H). apply entry_ok in H. parts H. apply Nat.leb_le. exact Elen. Qed.
Lemma entry_word : forall k v, In (k, v) unicode_table -> v <> [] -> word_like k = true -> alpha (last k 0%N) = true.
Proof.
  intros k v H Hv W. apply entry_ok in H. parts H. rewrite W in Eword. cbn [negb orb] in Eword. apply Bool.orb_true_iff in Eword as [E|E]; [exact E|].
  destruct v; [congruence|discriminate].
Qed.
Lemma entry_value : forall k x v, In (k, x :: v) unicode_table -> ~ a_letter x.
Proof. intros k x v H. apply entry_ok in H. parts H. rewrite <- alpha_iff. destruct (alpha x); [discriminate|discriminate]. Qed.

(** the beginnings of the keys that begin with a brace *)
Definition openings : list str := [lit "["; lit "]"; lit "^"; lit "'"; lit "_"; lit "{/"; lit "\fontencoding{"; lit "\small\"].
Definition brace_safe (s : str) : Prop := forall p, In p openings -> startswith s p = false.
Lemma entry_open : forall k, In k (map fst unicode_table) -> (exists m, k = c_bs :: m) \/ exists p, In p openings /\ begins k (c_lb :: p).
Proof.
  intros k H. apply key_in in H as (v & H). apply entry_ok in H. parts H. apply Bool.orb_true_iff in Eopen as [E|E].
  - left. apply begins_iff in E as (r & ->). eexists. reflexivity.
  - right. repeat (apply Bool.orb_true_iff in E as [E|E]); apply begins_iff in E.
    + exists (lit "["). split; [left; reflexivity|exact E].
    + exists (lit "]"). split; [right; left; reflexivity|exact E].
    + exists (lit "^"). split; [do 2 right; left; reflexivity|exact E].
    + exists (lit "'"). split; [do 3 right; left; reflexivity|exact E].
    + exists (lit "_"). split; [do 4 right; left; reflexivity|exact E].
    + exists (lit "{/"). split; [do 5 right; left; reflexivity|exact E].
    + exists (lit "\fontencoding{"). split; [do 6 right; left; reflexivity|exact E].
    + exists (lit "\small\"). split; [do 7 right; left; reflexivity|exact E].
Qed.

(** * Rounds and turns *)
Definition round_no (c : kind) : nat := match c with Kensuremath => 0 | Ktext => 1 | Kmath => 2 | Kfont => 3 | Kother => 4 end.
Definition rank (k : str) : nat := round_no (kind_of k).
Lemma turn_rank : forall k, In k (map fst unicode_table) -> turn k (rank k) /\ 1 <= rank k <= 4.
Proof.
  intros k H. apply key_in in H as (v & H). apply entry_ok in H. parts H. unfold rank, kind_of.
  destruct (startswith k (lit "\ensuremath")); [discriminate|]. unfold turn. rewrite <- !begins_iff, <- contains_iff.
  destruct (startswith k (lit "\text")) eqn:E1; [cbn [round_no]; split; [left; auto|lia]|].
  destruct (startswith k (lit "\math")) eqn:E2; [cbn [round_no]; split; [right; left; repeat split; auto; discriminate|lia]|].
  destruct (contains (lit "font") k) eqn:E3; cbn [round_no]; (split; [|lia]); right; right; [left|right]; repeat split; auto; discriminate.
Qed.
Lemma turn_one : forall k n m, turn k n -> turn k m -> n = m.
Proof.
  intros k n m. unfold turn. intuition congruence.
Qed.
Lemma kind_eqb_iff : forall a b, kind_eqb a b = true <-> a = b.
Proof. intros a b. destruct a, b; cbn; split; intros H; congruence. Qed.
Lemma keys_in : forall c k, In k (keys_of c) -> In k (map fst unicode_table) /\ kind_of k = c.
Proof. intros c k H. unfold keys_of in H. apply filter_In in H as [H1 H2]. split; [exact H1|]. apply andb_prop in H2 as [_ H2]. apply kind_eqb_iff. exact H2. Qed.

Lemma sooner_rank : forall k' k, In k' (map fst unicode_table) -> In k (map fst unicode_table) -> rank k' < rank k -> sooner k' k.
Proof.
  intros k' k H' H L. exists (rank k'), (rank k). split; [exact (proj1 (turn_rank k' H'))|]. split; [exact (proj1 (turn_rank k H))|]. left. exact L.
Qed.

(** the keys of the round of [k], split at [k] *)
Lemma keys_split : forall k v, In (k, v) unicode_table -> exists a b, keys_of (kind_of k) = a ++ k :: b /\
  forall q, In q a -> In q (map fst unicode_table) /\ sooner q k.
Proof.
  intros k v H. pose proof (in_map fst _ _ H) as Hk. cbn [fst] in Hk. pose proof (entry_ok k v H) as K. parts K.
  apply in_split in H as (a & b & E). unfold keys_of.
  exists (filter (fun q => listed q && kind_eqb (kind_of q) (kind_of k)) (map fst a)), (filter (fun q => listed q && kind_eqb (kind_of q) (kind_of k)) (map fst b)).
  split. { rewrite E, map_app, filter_app. cbn [map fst filter].
  replace (listed k && kind_eqb (kind_of k) (kind_of k)) with true by (symmetry; apply andb_true_intro; split; [exact Elist|apply kind_eqb_iff; reflexivity]). reflexivity. }
  intros q Q. apply filter_In in Q as [Q1 Q2]. apply andb_prop in Q2 as [_ Q2]. apply kind_eqb_iff in Q2.
  assert (Hq : In q (map fst unicode_table)) by (rewrite E, map_app; apply in_app_iff; left; exact Q1).
  split; [exact Hq|]. exists (rank q), (rank k). split; [exact (proj1 (turn_rank q Hq))|]. split; [exact (proj1 (turn_rank k Hk))|].
  right. split; [unfold rank; rewrite Q2; reflexivity|]. exists v, a, b. split; [exact E|exact Q1].
Qed.

(** * Where no key matches *)
Lemma kmatch_begins : forall k s n, kmatch k s = Some n -> begins s k.
Proof.
  intros k s n H. unfold kmatch in H. destruct (word_like k).
  - destruct (startswith s (k ++ lit "{}")) eqn:E.
    + apply begins_iff in E as (r & ->). rewrite <- app_assoc. eexists. reflexivity.
    + destruct (startswith s k) eqn:F; [|discriminate]. apply begins_iff. exact F.
  - destruct (startswith s k) eqn:F; [|discriminate]. apply begins_iff. exact F.
Qed.
Lemma kmatch_no : forall k s, ~ begins s k -> kmatch k s = None.
Proof. intros k s H. destruct (kmatch k s) as [n|] eqn:E; [|reflexivity]. apply kmatch_begins in E. contradiction. Qed.

Lemma char_none : forall k x s, In k (map fst unicode_table) -> x <> c_bs -> x <> c_lb -> kmatch k (x :: s) = None.
Proof.
  intros k x s H H1 H2. apply kmatch_no. intros (r & E). apply entry_open in H as [(m & ->)|(p & _ & q & ->)]; injection E as E _; congruence.
Qed.
Lemma brace_none : forall k s, In k (map fst unicode_table) -> brace_safe s -> kmatch k (c_lb :: s) = None.
Proof.
  intros k s H B. apply kmatch_no. intros (r & E). apply entry_open in H as [(m & ->)|(p & P & q & ->)]; [discriminate|].
  injection E as E. specialize (B p P). rewrite <- Bool.not_true_iff_false in B. apply B. apply begins_iff. exists (q ++ r). rewrite E, app_assoc. reflexivity.
Qed.

Lemma two_prefixes : forall (a b s : str), begins s a -> begins s b -> begins a b \/ begins b a.
Proof.
  induction a as [|x a IH]; intros b s (r & Ha) (q & Hb); [right; exists b; reflexivity|].
  destruct b as [|y b]; [left; exists (x :: a); reflexivity|]. subst s. injection Hb as Hx Hb. subst y.
  destruct (IH b (a ++ r)) as [(z & E)|(z & E)]; [exists r; reflexivity|exists q; exact Hb| |]; [left|right]; exists z; rewrite E; reflexivity.
Qed.
Lemma word_last : forall s x, word_like (s ++ [x]) = alpha x || N.eqb x 64.
Proof. intros s x. unfold word_like. rewrite rev_app_distr. reflexivity. Qed.

(** [k] is written, what follows does not begin with a letter when [k] ends in one *)
Lemma apart_none : forall q k w, apart q k -> (ends_in_letter k -> alpha_head w = false) -> kmatch q (k ++ w) = None.
Proof.
  intros q k w [A1 A2] W. destruct (kmatch q (k ++ w)) as [n|] eqn:E; [|reflexivity]. exfalso.
  assert (B : begins (k ++ w) q) by (eapply kmatch_begins; exact E).
  destruct (two_prefixes q k (k ++ w) B) as [P|P]; [exists w; reflexivity| |].
  - destruct (A2 P) as (s & x & y & r & -> & Eq & Lx & Ly). assert (Hw : alpha_head w = false) by (apply W; exists s, x; auto).
    destruct B as (z & B). rewrite Eq in B. rewrite <- !app_assoc in B. apply app_inv_head in B. cbn [List.app] in B. injection B as B. subst w.
    cbn [alpha_head] in Hw. apply alpha_iff in Ly. congruence.
  - destruct (A1 P) as (s & x & y & r & -> & Eq & Lx & Ly). unfold kmatch in E. rewrite word_last in E.
    replace (alpha x) with true in E by (symmetry; apply alpha_iff; exact Lx). cbn [orb] in E.
    assert (Ek : k ++ w = (s ++ [x]) ++ y :: (r ++ w)) by (rewrite Eq, <- !app_assoc; reflexivity).
    rewrite Ek in E. destruct (startswith ((s ++ [x]) ++ y :: r ++ w) ((s ++ [x]) ++ lit "{}")) eqn:F.
    + apply startswith_spec in F as (z & F). rewrite <- (app_assoc (s ++ [x])) in F. apply app_inv_head in F. injection F as F _. subst y. destruct Ly; lia.
    + rewrite startswith_app in E.
      rewrite skipn_app, skipn_all, Nat.sub_diag in E. cbn [skipn List.app alpha_head] in E. apply alpha_iff in Ly. rewrite Ly in E. discriminate.
Qed.

(** after a brace *)
Lemma apart_begins : forall q k w z y, apart k q -> (ends_in_letter k -> alpha_head w = false) -> alpha y = false -> startswith (k ++ w) (q ++ y :: z) = false.
Proof.
  intros q k w z y [A1 A2] W Y. apply Bool.not_true_is_false. intros E. apply startswith_spec in E as (r & E). rewrite <- app_assoc in E. cbn [List.app] in E.
  destruct (two_prefixes q k (k ++ w)) as [P|P]; [exists (y :: z ++ r); exact E|exists w; reflexivity| |].
  - destruct (A1 P) as (s & x & y' & r' & -> & Eq & Lx & Ly). assert (Hw : alpha_head w = false) by (apply W; exists s, x; auto).
    rewrite Eq, <- !app_assoc in E. apply app_inv_head in E. cbn [List.app] in E. injection E as E. subst w. cbn [alpha_head] in Hw. apply alpha_iff in Ly. congruence.
  - destruct (A2 P) as (s & x & y' & r' & -> & Eq & Lx & Ly). rewrite Eq, <- !app_assoc in E. apply app_inv_head in E. injection E as E _. subst y'. apply alpha_iff in Ly. congruence.
Qed.
