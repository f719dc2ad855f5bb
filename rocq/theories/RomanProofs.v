(** int_to_roman (conversions.py): specification and proof. *)
From Coq Require Import List NArith ZArith PeanoNat Lia Bool String.
From Verif Require Import PyStr TextModel.
Import ListNotations.
Notation length := List.length.
Notation concat := List.concat.
Open Scope list_scope.

(** * Specification: the value of a numeral *)
Definition roman_digit (c : ch) : option N :=
  if N.eqb c 105 then Some 1%N else          (* i *)
  if N.eqb c 118 then Some 5%N else          (* v *)
  if N.eqb c 120 then Some 10%N else         (* x *)
  if N.eqb c 108 then Some 50%N else         (* l *)
  if N.eqb c 99 then Some 100%N else         (* c *)
  if N.eqb c 100 then Some 500%N else        (* d *)
  if N.eqb c 109 then Some 1000%N else None. (* m *)

(** The subtractive reading: a digit counts negatively when a larger digit
    follows it.  [None]: not made of Roman digits. *)
Fixpoint roman_value (s : str) : option Z :=
  match s with
  | [] => Some 0%Z
  | c :: r =>
      match roman_digit c, roman_value r with
      | Some d, Some v =>
          match r with
          | c' :: _ => match roman_digit c' with
                       | Some d' => if N.ltb d d' then Some (v - Z.of_N d)%Z else Some (v + Z.of_N d)%Z
                       | None => None
                       end
          | [] => Some (Z.of_N d)
          end
      | _, _ => None
      end
  end.

(** * Proof *)
Lemma while_more : forall f f' sym v num res x, f <= f' -> roman_while f sym v num res = Some x -> roman_while f' sym v num res = Some x.
Proof.
  induction f as [|f IH]; intros [|f'] sym v num res x Hf H; try discriminate; try lia.
  cbn in *. destruct (N.leb v num); [apply IH; [lia|exact H]|exact H].
Qed.
Lemma for_more : forall f f' syms num res x, f <= f' -> roman_for f syms num res = Some x -> roman_for f' syms num res = Some x.
Proof.
  intros f f' syms. induction syms as [|[sym v] r IH]; intros num res x Hf H; cbn in *; [exact H|].
  destruct (roman_while f sym v num res) as [[res' num']|] eqn:E; [|discriminate].
  rewrite (while_more _ _ _ _ _ _ _ Hf E). apply IH; assumption.
Qed.
Lemma while_res : forall f sym v num res, roman_while f sym v num res = option_map (fun p => (res ++ fst p, snd p)) (roman_while f sym v num []).
Proof.
  induction f as [|f IH]; intros sym v num res; [reflexivity|]. cbn. destruct (N.leb v num).
  - rewrite IH, (IH _ _ _ sym). destruct (roman_while f sym v (num - v)%N []) as [[a b]|]; cbn; [rewrite app_assoc|]; reflexivity.
  - cbn. rewrite app_nil_r. reflexivity.
Qed.
Lemma for_res : forall f syms num res, roman_for f syms num res = option_map (app res) (roman_for f syms num []).
Proof.
  intros f syms. induction syms as [|[sym v] r IH]; intros num res; cbn; [rewrite app_nil_r; reflexivity|].
  rewrite while_res. destruct (roman_while f sym v num []) as [[a b]|]; [|reflexivity]. cbn.
  rewrite IH, (IH _ a). destruct (roman_for f r b []); cbn; [rewrite app_assoc|]; reflexivity.
Qed.
Lemma while_div : forall k f sym v m, (0 < v)%N -> (m < v)%N -> k < f ->
  roman_while f sym v (N.of_nat k * v + m)%N [] = Some (concat (repeat sym k), m).
Proof.
  induction k as [|k IH]; intros [|f] sym v m Hv Hm Hf; try lia.
  - cbn. destruct (N.leb_spec v m); [lia|reflexivity].
  - cbn [roman_while]. destruct (N.leb_spec v (N.of_nat (S k) * v + m)); [|lia].
    replace (N.of_nat (S k) * v + m - v)%N with (N.of_nat k * v + m)%N by lia.
    rewrite while_res, IH by lia. reflexivity.
Qed.

Definition rest_symbols := tl roman_symbols.
Definition small_ok (m : nat) : bool :=
  match roman_for 1001 rest_symbols (N.of_nat m) [] with
  | Some s => match roman_value (lower s) with Some v => Z.eqb v (Z.of_nat m) | None => false end
  | None => false
  end.
Lemma small_all : forallb small_ok (seq 0 1000) = true.
Proof. vm_compute. reflexivity. Qed.
Lemma small_each : forall m, m < 1000 -> exists s, roman_for 1001 rest_symbols (N.of_nat m) [] = Some s /\ roman_value (lower s) = Some (Z.of_nat m).
Proof.
  intros m Hm. pose proof small_all as H. rewrite forallb_forall in H. specialize (H m). rewrite in_seq in H.
  specialize (H ltac:(lia)). unfold small_ok in H. destruct (roman_for 1001 rest_symbols (N.of_nat m) []) as [s|]; [|discriminate].
  destruct (roman_value (lower s)) as [v|] eqn:E; [|discriminate]. apply Z.eqb_eq in H. subst v. eauto.
Qed.
(** enough fuel: the small part never needs more than its value *)
Definition small_fuel (m : nat) : bool := match roman_for (S m) rest_symbols (N.of_nat m) [] with Some _ => true | None => false end.
Lemma small_fuel_all : forallb small_fuel (seq 0 1000) = true.
Proof. vm_compute. reflexivity. Qed.

Lemma digit_m_max : forall c d, roman_digit c = Some d -> (d <= 1000)%N.
Proof.
  intros c d. unfold roman_digit. repeat (match goal with |- (if ?b then _ else _) = _ -> _ => destruct b end; [intros [= <-]; lia|]). discriminate.
Qed.
Lemma value_m : forall s v, roman_value s = Some v -> roman_value (109%N :: s) = Some (v + 1000)%Z.
Proof.
  intros s v H. change (roman_value (109%N :: s)) with
   (match roman_digit 109%N, roman_value s with
      | Some d, Some v =>
          match s with
          | c' :: _ => match roman_digit c' with
                       | Some d' => if N.ltb d d' then Some (v - Z.of_N d)%Z else Some (v + Z.of_N d)%Z
                       | None => None
                       end
          | [] => Some (Z.of_N d)
          end
      | _, _ => None
      end). rewrite H. cbn [roman_digit N.eqb Pos.eqb]. destruct s as [|c r].
  - cbn in H. injection H as <-. reflexivity.
  - change (match roman_digit c with Some d' => if N.ltb 1000%N d' then Some (v - 1000)%Z else Some (v + 1000)%Z | None => None end = Some (v + 1000)%Z).
    cbn [roman_value] in H. destruct (roman_digit c) as [d|] eqn:E; [|discriminate].
    apply digit_m_max in E. destruct (N.ltb_spec 1000 d); [lia|reflexivity].
Qed.

Lemma roman_main : forall n, exists s, int_to_roman n = Some s /\ roman_value s = Some (Z.of_N n).
Proof.
  intros n. set (k := N.to_nat (n / 1000)). set (m := N.to_nat (n mod 1000)).
  assert (Hn : n = (N.of_nat k * 1000 + N.of_nat m)%N).
  { unfold k, m. rewrite !N2Nat.id. rewrite (N.div_mod n 1000) at 1 by lia. lia. }
  assert (Hm : m < 1000) by (unfold m; pose proof (N.mod_lt n 1000 ltac:(lia)); lia).
  destruct (small_each m Hm) as (s & Hs & Hv).
  assert (Hf : roman_for (S (N.to_nat n)) rest_symbols (N.of_nat m) [] = Some s).
  { pose proof small_fuel_all as H. rewrite forallb_forall in H. specialize (H m). rewrite in_seq in H. specialize (H ltac:(lia)).
    unfold small_fuel in H. destruct (roman_for (S m) rest_symbols (N.of_nat m) []) as [s'|] eqn:E; [|discriminate].
    assert (s' = s). { apply (for_more _ 1001) in E; [|lia]. congruence. } subst s'.
    eapply for_more; [|exact E]. lia. }
  exists (repeat 109%N k ++ lower s). unfold int_to_roman.
  change roman_symbols with ((lit "M", 1000%N) :: rest_symbols).
  assert (Hw : roman_while (S (N.to_nat n)) (lit "M") 1000 n [] = Some (concat (repeat (lit "M") k), N.of_nat m)).
  { rewrite Hn at 2. apply while_div; lia. }
  split.
  - assert (E : roman_for (S (N.to_nat n)) ((lit "M", 1000%N) :: rest_symbols) n [] =
       roman_for (S (N.to_nat n)) rest_symbols (N.of_nat m) (concat (repeat (lit "M") k))).
    { change (roman_for (S (N.to_nat n)) ((lit "M", 1000%N) :: rest_symbols) n []) with
       (match roman_while (S (N.to_nat n)) (lit "M") 1000 n [] with
        | None => None | Some (result, num) => roman_for (S (N.to_nat n)) rest_symbols num result end). rewrite Hw. reflexivity. }
    rewrite E, for_res, Hf. cbn [option_map]. f_equal. unfold lower. rewrite map_app. f_equal.
    clear. induction k; [reflexivity|]. cbn [repeat concat]. rewrite map_app, IHk. reflexivity.
  - replace (Z.of_N n) with (Z.of_nat k * 1000 + Z.of_nat m)%Z by lia. clear Hw Hf Hn. clearbody k.
    induction k as [|k IH]; [exact Hv|]. change (repeat 109%N (S k) ++ lower s) with (109%N :: repeat 109%N k ++ lower s).
    rewrite (value_m _ _ IH). f_equal. lia.
Qed.

Lemma roman_inj : forall n n' s, int_to_roman n = Some s -> int_to_roman n' = Some s -> n = n'.
Proof.
  intros n n' s H H'. destruct (roman_main n) as (t & E & V). destruct (roman_main n') as (t' & E' & V'). 
  assert (t = t') by congruence. subst t'. rewrite V in V'. injection V' as V'. lia.
Qed.

(** * Specification: the numeral TeX prints (\romannumeral): the thousands as
    m's, then the hundreds, tens and units digit by digit *)
Definition roman_place (one five ten : ch) (d : nat) : str :=
  match d with
  | 4 => [one; five]
  | 9 => [one; ten]
  | _ => if Nat.ltb d 5 then repeat one d else five :: repeat one (d - 5)
  end.
Definition roman_below_1000 (m : nat) : str :=
  roman_place 99%N 100%N 109%N (m / 100) ++ roman_place 120%N 108%N 99%N (m / 10 mod 10) ++ roman_place 105%N 118%N 120%N (m mod 10).
Definition roman_numeral (n : nat) : str := repeat 109%N (n / 1000) ++ roman_below_1000 (n mod 1000).

Definition small_std (m : nat) : bool :=
  match roman_for (S m) rest_symbols (N.of_nat m) [] with Some s => str_eqb (lower s) (roman_below_1000 m) | None => false end.
Lemma small_std_all : forallb small_std (seq 0 1000) = true.
Proof. vm_compute. reflexivity. Qed.
Lemma roman_std : forall n, int_to_roman (N.of_nat n) = Some (roman_numeral n).
Proof.
  intros n. unfold roman_numeral. set (k := n / 1000). set (m := n mod 1000).
  assert (Hn : n = k * 1000 + m) by (unfold k, m; rewrite (Nat.div_mod_eq n 1000) at 1; lia).
  assert (Hm : m < 1000) by (apply Nat.mod_upper_bound; lia).
  pose proof small_std_all as H. rewrite forallb_forall in H. specialize (H m). rewrite in_seq in H. specialize (H ltac:(lia)).
  unfold small_std in H. destruct (roman_for (S m) rest_symbols (N.of_nat m) []) as [s|] eqn:E; [|discriminate]. apply str_eqb_spec in H.
  unfold int_to_roman. rewrite Nat2N.id. change roman_symbols with ((lit "M", 1000%N) :: rest_symbols).
  assert (Hw : roman_while (S n) (lit "M") 1000 (N.of_nat n) [] = Some (concat (repeat (lit "M") k), N.of_nat m)).
  { replace (N.of_nat n) with (N.of_nat k * 1000 + N.of_nat m)%N by lia. apply while_div; lia. }
  assert (E2 : roman_for (S n) ((lit "M", 1000%N) :: rest_symbols) (N.of_nat n) [] = roman_for (S n) rest_symbols (N.of_nat m) (concat (repeat (lit "M") k))).
  { change (roman_for (S n) ((lit "M", 1000%N) :: rest_symbols) (N.of_nat n) []) with
       (match roman_while (S n) (lit "M") 1000 (N.of_nat n) [] with
        | None => None | Some (result, num) => roman_for (S n) rest_symbols num result end). rewrite Hw. reflexivity. }
  rewrite E2, for_res, (for_more (S m) (S n) _ _ _ _ ltac:(lia) E). cbn [option_map]. rewrite <- H. f_equal. unfold lower. rewrite map_app. f_equal.
  clear. induction k; [reflexivity|]. cbn [repeat concat]. rewrite map_app, IHk. reflexivity.
Qed.
