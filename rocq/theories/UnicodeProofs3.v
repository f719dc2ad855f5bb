(** C110-C112: one round after the other. *)
From Coq Require Import List NArith ZArith PeanoNat Lia Bool String.
From Verif Require Import PyStr Regex RegexLemmas RegexHead UnicodeTable UnicodeModel UnicodeSpec UnicodeProofs UnicodeProofs2.
From Verif Require CommandProofs6.
Import ListNotations.
Notation length := List.length.
Notation concat := List.concat.
Open Scope list_scope.

Local Opaque unicode_table.
(** The text before round [n]: rounds 0 (the \uXXXX sequences), 1, 2, 3, 4. *)
Definition stage1 (n : nat) (i : item) : str :=
  match i with
  | Ch x => [x]
  | Hx ds => if Nat.ltb 0 n then [number ds] else lit "\u" ++ ds
  | Co k v b => if Nat.ltb (rank k) n then v else k ++ (if b then lit "{}" else [])
  | Un k => k
  end.
Definition stage (n : nat) (l : list item) : str := concat (map (stage1 n) l).

Lemma stage_cons : forall n i l, stage n (i :: l) = stage1 n i ++ stage n l.
Proof. reflexivity. Qed.

Lemma recog_key : forall k v, recognised k v -> In k (map fst unicode_table).
Proof. intros k v (H & _). apply (in_map fst _ _ H). Qed.

Lemma stage_first : forall l, stage 0 l = written l.
Proof.
  induction l as [|i l IH]; [reflexivity|]. rewrite stage_cons. unfold written in *. cbn [map concat]. rewrite IH. f_equal.
Qed.
Lemma stage_last : forall l, well l -> stage 5 l = meant l.
Proof.
  induction l as [|i l IH]; intros H; [reflexivity|]. destruct H as [Hi Hl]. rewrite stage_cons. unfold meant in *. cbn [map concat]. rewrite (IH Hl). f_equal.
  destruct i as [x|ds|k v b|k]; try reflexivity. cbn [stage1 meant1]. destruct Hi as [Hk _]. apply recog_key in Hk. apply turn_rank in Hk as [_ Hk].
  replace (Nat.ltb (rank k) 5) with true by (symmetry; apply Nat.ltb_lt; lia). reflexivity.
Qed.

(** * The head of what follows *)
Lemma stage_head : forall n l, 1 <= n -> well l -> match stage n l with [] => True | y :: _ => In y (firsts l) end.
Proof.
  intros n l Hn H. destruct l as [|i l]; [exact I|]. destruct H as [Hi Hl]. rewrite stage_cons.
  destruct i as [x|ds|k v b|k]; cbn [stage1 firsts begun].
  - left. reflexivity.
  - destruct n; [lia|]. left. reflexivity.
  - destruct Hi as [(_ & Hv & (m & Hk) & _) _]. destruct (Nat.ltb (rank k) n).
    + destruct v as [|y v]; [congruence|]. right. left. reflexivity.
    + rewrite Hk. left. reflexivity.
  - destruct Hi as [((m & Hk) & _) _]. rewrite Hk. left. reflexivity.
Qed.
Lemma stage_no_letter : forall n l, 1 <= n -> well l -> no_letter_next l -> alpha_head (stage n l) = false.
Proof.
  intros n l Hn H K. pose proof (stage_head n l Hn H) as P. destruct (stage n l) as [|y s]; [reflexivity|]. cbn [alpha_head]. apply alpha_no. apply K. exact P.
Qed.

Lemma starts1 : forall (x y : ch) p s, x <> y -> startswith (y :: s) (x :: p) = false.
Proof. intros x y p s H. cbn [startswith]. replace (N.eqb x y) with false by (symmetry; apply N.eqb_neq; exact H). reflexivity. Qed.

(** heads that are not an opening of a key *)
Lemma safe_head : forall y s, y <> c_bs -> y <> c_lb -> ~ In y (lit "[]^'_") -> brace_safe (y :: s).
Proof.
  intros y s H1 H2 H3 p P. assert (L : forall x, In x (lit "[]^'_") -> x <> y) by (intros x X ->; contradiction).
  destruct P as [<-|[<-|[<-|[<-|[<-|[<-|[<-|[<-|[]]]]]]]]]; apply starts1; [apply L|apply L|apply L|apply L|apply L|intros K; apply H2; symmetry; exact K|intros K; apply H1; symmetry; exact K|intros K; apply H1; symmetry; exact K].
  - left; reflexivity.
  - right; left; reflexivity.
  - do 2 right; left; reflexivity.
  - do 3 right; left; reflexivity.
  - do 4 right; left; reflexivity.
Qed.
Lemma safe_nil : brace_safe [].
Proof. intros p P. destruct P as [<-|[<-|[<-|[<-|[<-|[<-|[<-|[<-|[]]]]]]]]]; reflexivity. Qed.
Lemma safe_brace : forall s, (match s with y :: _ => y <> 47%N | [] => True end) -> brace_safe (c_lb :: s).
Proof.
  intros s H p P. destruct P as [<-|[<-|[<-|[<-|[<-|[<-|[<-|[<-|[]]]]]]]]]; try reflexivity.
  change (startswith (c_lb :: s) (lit "{/")) with (startswith s [47%N]). destruct s as [|y s]; [reflexivity|]. apply starts1. congruence.
Qed.
Lemma safe_command : forall k w, begins k (lit "\") -> apart k (lit "\fontencoding") -> apart k (lit "\small") ->
  (ends_in_letter k -> alpha_head w = false) -> brace_safe (k ++ w).
Proof.
  intros k w B A1 A2 W p P.
  assert (F : startswith (k ++ w) (lit "\fontencoding{") = false) by (apply (apart_begins (lit "\fontencoding") k w [] c_lb A1 W); reflexivity).
  assert (S : startswith (k ++ w) (lit "\small\") = false) by (apply (apart_begins (lit "\small") k w [] c_bs A2 W); reflexivity).
  destruct P as [<-|[<-|[<-|[<-|[<-|[<-|[<-|[<-|[]]]]]]]]]; try exact F; try exact S; destruct B as (m & ->); reflexivity.
Qed.

Definition tail_of (b : bool) : str := if b then lit "{}" else [].
Lemma tail_head : forall n b k l v, 1 <= n -> well l -> good_item (Co k v b) l -> ends_in_letter k -> alpha_head (tail_of b ++ stage n l) = false.
Proof.
  intros n b k l v Hn Hl (_ & _ & _ & H) E. destruct b; [reflexivity|]. cbn [tail_of List.app]. apply stage_no_letter; [exact Hn|exact Hl|]. apply H; [reflexivity|exact E].
Qed.

Lemma open_safe : forall n l, 1 <= n <= 4 -> well l -> good_open l -> brace_safe (stage n l).
Proof.
  intros n l Hn H [G1 G2]. destruct l as [|i l]; [exact safe_nil|]. destruct H as [Hi Hl]. rewrite stage_cons.
  destruct i as [x|ds|k v b|k]; cbn [stage1].
  - destruct Hi as [H1 _]. destruct (N.eq_dec x c_lb) as [->|D].
    + apply safe_brace. pose proof (stage_head n l ltac:(lia) Hl) as P. destruct (stage n l) as [|y s]; [exact I|]. apply G2; [reflexivity|exact P].
    + apply safe_head; [exact H1|exact D|]. intros X. apply (G1 x); [left; reflexivity|exact X].
  - replace (Nat.ltb 0 n) with true by (symmetry; apply Nat.ltb_lt; lia). destruct Hi as (_ & _ & _ & P & _).
    destruct (P (number ds)) as (P1 & P2 & _); [left; reflexivity|]. apply safe_head; [exact P1|exact P2|]. intros X. apply (G1 (number ds)); [left; reflexivity|exact X].
  - destruct (Nat.ltb (rank k) n) eqn:R.
    + apply Nat.ltb_lt in R. destruct Hi as [(Ht & Hv & _ & _ & _ & _ & _ & Hp & _) _].
      destruct Hp as [Hp|Hp].
      { exfalso. destruct (turn_rank k) as [T _]; [apply (in_map fst _ _ Ht)|]. pose proof (turn_one _ _ _ Hp T). lia. }
      destruct v as [|y v]; [congruence|]. destruct (Hp y) as (P1 & P2 & _); [left; reflexivity|].
      apply safe_head; [exact P1|exact P2|]. intros X. apply (G1 y); [right; left; reflexivity|exact X].
    + rewrite <- app_assoc. apply safe_command; try tauto; [destruct Hi as [(_ & _ & Hb & _) _]; exact Hb|].
      intros E. apply (tail_head n b k l v ltac:(lia) Hl Hi E).
  - destruct G2 as [A1 A2]. apply safe_command; [apply Hi|exact A1|exact A2|]. intros E. apply stage_no_letter; [lia|exact Hl|]. apply Hi. exact E.
Qed.

(** * Text that a round leaves alone *)
Definition quiet (ks : list str) (s : str) : Prop := forall q, In q ks -> kmatch q s = None.

Lemma quiet_char : forall c x s, x <> c_bs -> x <> c_lb -> quiet (keys_of c) (x :: s).
Proof. intros c x s H1 H2 q Q. apply keys_in in Q as [Q _]. apply char_none; assumption. Qed.
Lemma quiet_brace : forall c s, brace_safe s -> quiet (keys_of c) (c_lb :: s).
Proof. intros c s H q Q. apply keys_in in Q as [Q _]. apply brace_none; assumption. Qed.

(** inside a command, and in the braces behind it *)
Lemma quiet_inside : forall c k a x r w, clear k -> k = a ++ x :: r -> a <> [] -> (ends_in_brace k -> brace_safe w) -> quiet (keys_of c) (x :: r ++ w).
Proof.
  intros c k a x r w Hc E Ha W. destruct (Hc a x r E Ha) as [H1 H2]. destruct (N.eq_dec x c_lb) as [->|D]; [|apply quiet_char; assumption].
  apply quiet_brace. destruct r as [|y r]; [cbn [List.app]; apply W; exists a; exact E|].
  specialize (H2 eq_refl y r eq_refl). cbn [List.app]. apply safe_head.
  - intros ->. apply H2. do 2 right. left. reflexivity.
  - intros ->. apply H2. do 3 right. left. reflexivity.
  - intros X. apply H2. destruct X as [<-|[<-|[<-|[<-|[<-|[]]]]]]; [left; reflexivity|right; left; reflexivity|do 4 right; left; reflexivity|do 5 right; left; reflexivity|do 6 right; left; reflexivity].
Qed.
Lemma quiet_tail : forall c b a x r w, tail_of b = a ++ x :: r -> quiet (keys_of c) (x :: r ++ w).
Proof.
  intros c b a x r w E. destruct b; [|destruct a; discriminate].
  destruct a as [|y a].
  - injection E as <- <-. apply quiet_brace. apply safe_head; [discriminate|discriminate|]. intros X. destruct X as [X|[X|[X|[X|[X|[]]]]]]; discriminate X.
  - destruct a as [|z a]; [|destruct a; discriminate]. injection E as _ <- <-. apply quiet_char; discriminate.
Qed.
