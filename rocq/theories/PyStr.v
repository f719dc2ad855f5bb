(** Python strings and the string methods that latex2json uses.

    A Python [str] is a sequence of Unicode code points; here it is a list of
    [N].  Every definition below models a built-in of the Python runtime that
    the code in /repo calls (the runtime itself is trusted, see DESIGN.md). *)
From Coq Require DecimalNat Decimal.
From Coq Require Import List NArith PeanoNat Lia Bool String Ascii.
Import ListNotations.
Local Open Scope list_scope.
Notation length := List.length.
#[global] Arguments N.eqb : simpl never.
#[global] Arguments N.leb : simpl never.


Definition ch := N.
Definition str := list ch.

(** Coq string literals (ASCII) as Python strings. *)
Definition lit (s : string) : str := map N_of_ascii (list_ascii_of_string s).

Fixpoint str_eqb (a b : str) : bool :=
  match a, b with
  | [], [] => true
  | x :: a', y :: b' => N.eqb x y && str_eqb a' b'
  | _, _ => false
  end.

Lemma str_eqb_spec : forall a b, str_eqb a b = true <-> a = b.
Proof.
  induction a as [|x a IH]; destruct b as [|y b]; cbn; split; intros H; try discriminate; auto.
  - apply andb_true_iff in H. destruct H as [H1 H2].
    apply N.eqb_eq in H1. apply IH in H2. congruence.
  - injection H as -> ->. rewrite N.eqb_refl. cbn. apply IH. reflexivity.
Qed.

Lemma str_eqb_refl : forall a, str_eqb a a = true.
Proof. intros. apply str_eqb_spec. reflexivity. Qed.

Lemma str_eq_dec : forall a b : str, {a = b} + {a <> b}.
Proof. apply list_eq_dec. apply N.eq_dec. Defined.

(** Characters used by the code. *)
Definition c_bs : ch := 92%N.   (* \ *)
Definition c_lb : ch := 123%N.  (* { *)
Definition c_rb : ch := 125%N.  (* } *)
Definition c_lk : ch := 91%N.   (* [ *)
Definition c_rk : ch := 93%N.   (* ] *)
Definition c_pct : ch := 37%N.  (* % *)
Definition c_nl : ch := 10%N.
Definition c_cr : ch := 13%N.
Definition c_sp : ch := 32%N.
Definition c_tab : ch := 9%N.
Definition c_hash : ch := 35%N.
Definition c_comma : ch := 44%N.
Definition c_dollar : ch := 36%N.
Definition c_amp : ch := 38%N.

Definition in_range (lo hi c : N) : bool := N.leb lo c && N.leb c hi.

(** [str.isspace] on one character / [\s] of [re] on str patterns / the set
    removed by [str.strip()]. *)
Definition isspace (c : ch) : bool :=
  in_range 9 13 c || in_range 28 32 c || N.eqb c 133 || N.eqb c 160
  || N.eqb c 5760 || in_range 8192 8202 c || N.eqb c 8232 || N.eqb c 8233
  || N.eqb c 8239 || N.eqb c 8287 || N.eqb c 12288.

(** Line boundaries of [str.splitlines] (other than the pair CR LF). *)
Definition isbreak (c : ch) : bool :=
  in_range 10 13 c || in_range 28 30 c || N.eqb c 133 || N.eqb c 8232 || N.eqb c 8233.

Definition isdigit (c : ch) : bool := in_range 48 57 c.

Lemma isbreak_isspace : forall c, isbreak c = true -> isspace c = true.
Proof.
  intros c H. unfold isbreak, isspace, in_range in *.
  repeat match goal with
  | H : _ || _ = true |- _ => apply orb_true_iff in H; destruct H as [H|H]
  end;
  repeat rewrite orb_true_iff; rewrite ?andb_true_iff in *; rewrite ?N.leb_le, ?N.eqb_eq in *; lia.
Qed.

(** [str.lstrip()], [str.rstrip()], [str.strip()] *)
Fixpoint lstrip (s : str) : str :=
  match s with
  | [] => []
  | c :: r => if isspace c then lstrip r else s
  end.

Definition rstrip (s : str) : str := rev (lstrip (rev s)).
Definition strip (s : str) : str := rstrip (lstrip s).

(** number of leading whitespace characters *)
Fixpoint nlead (s : str) : nat :=
  match s with
  | [] => 0
  | c :: r => if isspace c then S (nlead r) else 0
  end.

(** [s[i:j]] for 0 <= i, j *)
Definition slice (i j : nat) (s : str) : str := firstn (j - i) (skipn i s).

(** [s.startswith(p)], [s.endswith(p)] *)
Fixpoint startswith (s p : str) {struct p} : bool :=
  match p, s with
  | [], _ => true
  | x :: p', y :: s' => N.eqb x y && startswith s' p'
  | _, [] => false
  end.

Definition endswith (s p : str) : bool := startswith (rev s) (rev p).

(** [s.find(p)] *)
Fixpoint find_sub (p s : str) : option nat :=
  if startswith s p then Some 0
  else match s with
       | [] => None
       | _ :: r => option_map S (find_sub p r)
       end.

Definition contains (p s : str) : bool :=
  match find_sub p s with Some _ => true | None => false end.

(** [s.split(c)] for a one-character separator *)
Fixpoint split_char (c : ch) (s : str) : list str :=
  match s with
  | [] => [[]]
  | x :: r =>
      if N.eqb x c then [] :: split_char c r
      else match split_char c r with
           | [] => [[x]]
           | w :: ws => (x :: w) :: ws
           end
  end.

(** [sep.join(parts)] *)
Fixpoint join (sep : str) (parts : list str) : str :=
  match parts with
  | [] => []
  | [p] => p
  | p :: ps => p ++ sep ++ join sep ps
  end.

(** [s.replace(p, q)] for non-empty [p]: leftmost, non-overlapping.  [skip]
    counts the characters of the current occurrence still to be dropped. *)
Fixpoint replace_go (p q : str) (skip : nat) (s : str) : str :=
  match s with
  | [] => []
  | x :: r =>
      match skip with
      | S k => replace_go p q k r
      | O => if startswith s p then q ++ replace_go p q (length p - 1) r
             else x :: replace_go p q 0 r
      end
  end.
Definition replace (p q s : str) : str := replace_go p q 0 s.

(** [str.splitlines()] *)
Fixpoint splitlines_go (cur : str) (s : str) : list str :=
  match s with
  | [] => match cur with [] => [] | _ => [rev cur] end
  | x :: r =>
      if isbreak x then
        rev cur ::
        match r with
        | y :: r' => if N.eqb x c_cr && N.eqb y c_nl then splitlines_go [] r' else splitlines_go [] r
        | [] => []
        end
      else splitlines_go (x :: cur) r
  end.
Definition splitlines (s : str) : list str := splitlines_go [] s.

(** [str(n)] for a natural number *)
Fixpoint uint_str (d : Decimal.uint) : str :=
  match d with
  | Decimal.Nil => []
  | Decimal.D0 d => 48%N :: uint_str d
  | Decimal.D1 d => 49%N :: uint_str d
  | Decimal.D2 d => 50%N :: uint_str d
  | Decimal.D3 d => 51%N :: uint_str d
  | Decimal.D4 d => 52%N :: uint_str d
  | Decimal.D5 d => 53%N :: uint_str d
  | Decimal.D6 d => 54%N :: uint_str d
  | Decimal.D7 d => 55%N :: uint_str d
  | Decimal.D8 d => 56%N :: uint_str d
  | Decimal.D9 d => 57%N :: uint_str d
  end.
Definition str_of_nat (n : nat) : str := uint_str (Nat.to_uint n).

(** [int(s)] on a non-empty digit string *)
Fixpoint nat_of_digits (acc : nat) (s : str) : option nat :=
  match s with
  | [] => Some acc
  | c :: r => if isdigit c then nat_of_digits (10 * acc + N.to_nat (c - 48)) r else None
  end.
Definition int_of_str (s : str) : option nat :=
  match s with [] => None | _ => nat_of_digits 0 s end.

(* ---------------------------------------------------------------------- *)
(** * Basic lemmas *)

Lemma uint_str_inj : forall a b, uint_str a = uint_str b -> a = b.
Proof.
  induction a as [|a IH|a IH|a IH|a IH|a IH|a IH|a IH|a IH|a IH|a IH]; destruct b; cbn; intros H;
    try discriminate; auto; injection H as H; f_equal; auto.
Qed.

Lemma str_of_nat_inj : forall a b, str_of_nat a = str_of_nat b -> a = b.
Proof.
  intros a b H. unfold str_of_nat in H. apply uint_str_inj in H.
  apply DecimalNat.Unsigned.to_uint_inj in H. exact H.
Qed.

Lemma uint_str_digits : forall d, forallb isdigit (uint_str d) = true.
Proof. induction d; cbn; auto. Qed.

Lemma str_of_nat_digits : forall n, forallb isdigit (str_of_nat n) = true.
Proof. intros. apply uint_str_digits. Qed.

Lemma nat_of_digits_uint : forall d acc,
  nat_of_digits acc (uint_str d) = Some (Nat.of_uint_acc d acc).
Proof.
  induction d as [|d IH|d IH|d IH|d IH|d IH|d IH|d IH|d IH|d IH|d IH]; intros acc;
   [reflexivity|..];
   cbn [uint_str nat_of_digits]; cbv [isdigit in_range N.leb N.compare Pos.compare Pos.compare_cont andb];
   rewrite IH; cbn [Nat.of_uint_acc]; f_equal; f_equal;
   rewrite ?Nat.tail_mul_spec; change (N.to_nat (_ - _)) with (N.to_nat 0) || idtac; cbn; lia.
Qed.

Lemma str_of_nat_nonempty : forall n, str_of_nat n <> [].
Proof.
  intros n H.
  assert (Hd : Nat.to_uint n = Decimal.Nil).
  { unfold str_of_nat in H. destruct (Nat.to_uint n); cbn in H; congruence. }
  pose proof (DecimalNat.Unsigned.of_to n) as Hn. rewrite Hd in Hn. cbn in Hn. subst n.
  discriminate Hd.
Qed.

Lemma int_of_str_of_nat : forall n, int_of_str (str_of_nat n) = Some n.
Proof.
  intros n. unfold int_of_str.
  pose proof (str_of_nat_nonempty n) as Hne.
  assert (H : nat_of_digits 0 (str_of_nat n) = Some n).
  { unfold str_of_nat. rewrite nat_of_digits_uint. f_equal.
    change (Nat.of_uint (Nat.to_uint n) = n). apply DecimalNat.Unsigned.of_to. }
  destruct (str_of_nat n); [congruence|exact H].
Qed.

Lemma lstrip_skipn : forall s, lstrip s = skipn (nlead s) s.
Proof. induction s as [|c r IH]; cbn; auto. destruct (isspace c); cbn; auto. Qed.

Lemma lead_split : forall s, exists ws, s = ws ++ lstrip s /\ forallb isspace ws = true /\ length ws = nlead s.
Proof.
  induction s as [|c r IH]; cbn.
  - exists []. auto.
  - destruct (isspace c) eqn:E.
    + destruct IH as (ws & H1 & H2 & H3). exists (c :: ws). cbn. rewrite E, H2. repeat split; cbn; congruence.
    + exists []. auto.
Qed.

Lemma lstrip_head : forall s c r, lstrip s = c :: r -> isspace c = false.
Proof.
  induction s as [|x s IH]; cbn; intros c r H; [discriminate|].
  destruct (isspace x) eqn:E; [eauto|]. injection H as -> ->. exact E.
Qed.

Lemma lstrip_ws_app : forall ws s, forallb isspace ws = true -> lstrip (ws ++ s) = lstrip s.
Proof.
  induction ws as [|c ws IH]; cbn; intros s H; auto.
  apply andb_true_iff in H. destruct H as [H1 H2]. rewrite H1. auto.
Qed.

Lemma lstrip_id : forall c r, isspace c = false -> lstrip (c :: r) = c :: r.
Proof. intros c r H. cbn. rewrite H. reflexivity. Qed.

Lemma nlead_ws_app : forall ws s, forallb isspace ws = true -> nlead (ws ++ s) = length ws + nlead s.
Proof.
  induction ws as [|c ws IH]; cbn; intros s H; auto.
  apply andb_true_iff in H. destruct H as [H1 H2]. rewrite H1, IH; auto.
Qed.

Lemma lstrip_idem : forall s, lstrip (lstrip s) = lstrip s.
Proof.
  intros s. destruct (lstrip s) as [|c r] eqn:E; auto.
  apply lstrip_id. eapply lstrip_head; eauto.
Qed.

Lemma rstrip_idem : forall s, rstrip (rstrip s) = rstrip s.
Proof. intros s. unfold rstrip. rewrite rev_involutive, lstrip_idem. reflexivity. Qed.

Lemma trail_split : forall s, exists ws, s = rstrip s ++ ws /\ forallb isspace ws = true.
Proof.
  intros s. destruct (lead_split (rev s)) as (ws & H1 & H2 & _).
  exists (rev ws). split.
  - unfold rstrip. rewrite <- rev_app_distr, <- H1, rev_involutive. reflexivity.
  - apply forallb_forall. intros x Hx. apply in_rev in Hx. eapply forallb_forall in H2; eauto.
Qed.

Lemma rstrip_last : forall s p c, rstrip s = p ++ [c] -> isspace c = false.
Proof.
  intros s p c H. unfold rstrip in H. apply (f_equal (@rev ch)) in H.
  rewrite rev_involutive, rev_app_distr in H. cbn in H. eapply lstrip_head; eauto.
Qed.

Lemma startswith_app : forall p s, startswith (p ++ s) p = true.
Proof. induction p as [|x p IH]; cbn; intros; auto. rewrite N.eqb_refl. cbn. auto. Qed.

Lemma startswith_spec : forall p s, startswith s p = true <-> exists r, s = p ++ r.
Proof.
  induction p as [|x p IH]; intros s; cbn.
  - split; eauto.
  - destruct s as [|y s]; [split; [discriminate | intros (r & H); discriminate]|].
    rewrite andb_true_iff, IH, N.eqb_eq. split.
    + intros (-> & r & ->). exists r. reflexivity.
    + intros (r & H). injection H as -> ->. eauto.
Qed.

Lemma firstn_slice_split : forall (s : str) i, s = firstn i s ++ skipn i s.
Proof. intros. symmetry. apply firstn_skipn. Qed.

Lemma join_cons : forall sep p ps, ps <> [] -> join sep (p :: ps) = p ++ sep ++ join sep ps.
Proof. intros sep p [|q ps] H; [congruence|reflexivity]. Qed.

Lemma split_char_nonempty : forall c s, split_char c s <> [].
Proof.
  induction s as [|x r IH]; cbn; [discriminate|].
  destruct (N.eqb x c); [discriminate|]. destruct (split_char c r); discriminate.
Qed.

Lemma join_split_char : forall c s, join [c] (split_char c s) = s.
Proof.
  induction s as [|x r IH]; [reflexivity|]. cbn [split_char].
  destruct (N.eqb x c) eqn:E.
  - apply N.eqb_eq in E. subst. rewrite join_cons by apply split_char_nonempty.
    rewrite IH. reflexivity.
  - destruct (split_char c r) as [|w ws] eqn:E2.
    + exfalso. eapply split_char_nonempty; eauto.
    + destruct ws; cbn in *; rewrite <- IH; reflexivity.
Qed.

Lemma split_char_nosep : forall c s w, In w (split_char c s) -> ~ In c w.
Proof.
  induction s as [|x r IH]; cbn; intros w H.
  - destruct H as [<-|[]]. auto.
  - destruct (N.eqb x c) eqn:E.
    + destruct H as [<-|H]; auto.
    + apply N.eqb_neq in E. destruct (split_char c r) as [|w0 ws] eqn:E2.
      * destruct H as [<-|[]]. cbn. intuition.
      * destruct H as [<-|H].
        -- cbn. intros [H|H]; [congruence|]. eapply IH; [left; reflexivity|exact H].
        -- apply IH. right. exact H.
Qed.

(** splitting a join of separator-free parts gives the parts back *)
Lemma split_join_char : forall c ps, ps <> [] -> (forall p, In p ps -> ~ In c p) ->
  split_char c (join [c] ps) = ps.
Proof.
  assert (Hw : forall c w s, ~ In c w -> split_char c (w ++ c :: s) = w :: split_char c s).
  { induction w as [|x w IH]; intros s Hn; cbn.
    - rewrite N.eqb_refl. reflexivity.
    - destruct (N.eqb x c) eqn:E.
      + apply N.eqb_eq in E. subst. exfalso. apply Hn. left. reflexivity.
      + rewrite IH; auto. intros Hx. apply Hn. right. exact Hx. }
  assert (Hl : forall c w, ~ In c w -> split_char c w = [w]).
  { induction w as [|x w IH]; intros Hn; cbn; auto.
    destruct (N.eqb x c) eqn:E.
    - apply N.eqb_eq in E. subst. exfalso. apply Hn. left. reflexivity.
    - rewrite IH; auto. intros Hx. apply Hn. right. exact Hx. }
  intros c. induction ps as [|p ps IH]; intros Hne Hall; [congruence|].
  destruct ps as [|q ps].
  - cbn. apply Hl. apply Hall. left. reflexivity.
  - rewrite join_cons by discriminate. cbn [app]. rewrite Hw by (apply Hall; left; reflexivity).
    rewrite IH; auto; [discriminate|]. intros p' Hp. apply Hall. right. exact Hp.
Qed.

Lemma skipn_add : forall (A : Type) a b (l : list A), skipn a (skipn b l) = skipn (b + a) l.
Proof.
  intros A a b. induction b as [|b IH]; intros l; [reflexivity|].
  destruct l; cbn; [destruct a; reflexivity|apply IH].
Qed.
