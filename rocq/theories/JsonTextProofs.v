From Coq Require Import List NArith ZArith PeanoNat Lia Bool String.
From Verif Require Import PyStr Json JsonTextModel JsonTextSpec.
From Verif Require ContentProofs6.
Import ListNotations. Notation length := List.length. Notation concat := List.concat. Open Scope list_scope.

(** * The writer writes JSON *)
Lemma digit_iff : forall x, digit x = true <-> (48 <= x <= 57)%N.
Proof. intros x. unfold digit. rewrite andb_true_iff, !N.leb_le. tauto. Qed.
Lemma value_str : forall n, digits_value (str_of_nat n) = n.
Proof.
  intros n. pose proof (int_of_str_of_nat n) as H. unfold int_of_str in H. pose proof (str_of_nat_nonempty n) as Ne. pose proof (str_of_nat_digits n) as D.
  destruct (str_of_nat n) as [|x r] eqn:E; [congruence|]. rewrite ContentProofs6.digits_value in H; [unfold digits_value; congruence|].
  intros y Hy. rewrite forallb_forall in D. apply ContentProofs6.digit_iff, D, Hy.
Qed.
Lemma no_leading_zero : forall n r, str_of_nat n = 48%N :: r -> r = [].
Proof.
  intros n r H. unfold str_of_nat in H.
  assert (U : Decimal.unorm (Nat.to_uint n) = Nat.to_uint n) by (rewrite <- DecimalNat.Unsigned.to_of, DecimalNat.Unsigned.of_to; reflexivity).
  destruct (Nat.to_uint n) as [|d|d|d|d|d|d|d|d|d|d]; cbn in H; try discriminate. injection H as <-. 
  unfold Decimal.unorm in U. cbn [Decimal.nzhead] in U.
  assert (Z : forall e, Decimal.nzhead e <> Decimal.D0 d). { induction e; cbn; try discriminate; auto. }
  destruct (Decimal.nzhead d) eqn:Q; try (injection U as U; subst; reflexivity); try discriminate U.
  exfalso. injection U as U. subst u. exact (Z d Q).
Qed.
Lemma number_str : forall n, number (str_of_nat n).
Proof. intros n. split; [apply str_of_nat_nonempty|]. split; [|apply no_leading_zero]. pose proof (str_of_nat_digits n) as D. rewrite forallb_forall in *. intros x Hx. apply digit_iff, ContentProofs6.digit_iff, D, Hx. Qed.
Lemma write_int_ok : forall z, denotes (write_int z) (VInt z).
Proof.
  intros [|p|p].
  - exact (d_int _ (number_str 0)).
  - cbn [write_int]. replace (Z.pos p) with (Z.of_nat (digits_value (str_of_nat (Z.to_nat (Z.pos p))))) at 2; [apply d_int, number_str|]. rewrite value_str. lia.
  - cbn [write_int]. change (45%N :: str_of_nat (Pos.to_nat p)) with (lit "-" ++ str_of_nat (Pos.to_nat p)).
    replace (Z.neg p) with (- Z.of_nat (digits_value (str_of_nat (Pos.to_nat p))))%Z; [apply d_negative, number_str|]. rewrite value_str. lia.
Qed.
Lemma hex_back : forall n, (n < 16)%N -> hex_value (hex_char n) = Some n.
Proof.
  intros n H. unfold hex_char, hex_value. destruct (n <? 10)%N eqn:E; [apply N.ltb_lt in E|apply N.ltb_ge in E].
  - replace (48 <=? 48 + n)%N with true by (symmetry; apply N.leb_le; lia). replace (48 + n <=? 57)%N with true by (symmetry; apply N.leb_le; lia). cbn [andb]. f_equal. lia.
  - replace (87 + n <=? 57)%N with false by (symmetry; apply N.leb_gt; lia). rewrite andb_false_r.
    replace (97 <=? 87 + n)%N with true by (symmetry; apply N.leb_le; lia). replace (87 + n <=? 102)%N with true by (symmetry; apply N.leb_le; lia). cbn [andb]. f_equal. lia.
Qed.
Lemma escape_ok : forall x t s, chars t s -> chars (escape_char x ++ t) (x :: s).
Proof.
  intros x t s H. unfold escape_char.
  destruct (x =? 34)%N eqn:E1; [apply N.eqb_eq in E1; subst x; apply chars_short; [unfold short_escapes; cbn [In]; tauto|exact H]|].
  destruct (x =? 92)%N eqn:E2; [apply N.eqb_eq in E2; subst x; apply chars_short; [unfold short_escapes; cbn [In]; tauto|exact H]|].
  destruct (x =? 10)%N eqn:E3; [apply N.eqb_eq in E3; subst x; apply chars_short; [unfold short_escapes; cbn [In]; tauto|exact H]|].
  destruct (x =? 13)%N eqn:E4; [apply N.eqb_eq in E4; subst x; apply chars_short; [unfold short_escapes; cbn [In]; tauto|exact H]|].
  destruct (x =? 9)%N eqn:E5; [apply N.eqb_eq in E5; subst x; apply chars_short; [unfold short_escapes; cbn [In]; tauto|exact H]|].
  destruct (x =? 12)%N eqn:E6; [apply N.eqb_eq in E6; subst x; apply chars_short; [unfold short_escapes; cbn [In]; tauto|exact H]|].
  destruct (x =? 8)%N eqn:E7; [apply N.eqb_eq in E7; subst x; apply chars_short; [unfold short_escapes; cbn [In]; tauto|exact H]|].
  apply N.eqb_neq in E1, E2. destruct (x <? 32)%N eqn:E8; [apply N.ltb_lt in E8|apply N.ltb_ge in E8].
  - assert (Q : (x / 16 < 16)%N) by (apply N.div_lt_upper_bound; lia). assert (R : (x mod 16 < 16)%N) by (apply N.mod_lt; lia).
    pose proof (N.div_mod x 16 ltac:(discriminate)) as DM. assert (Ex : x = (4096 * 0 + 256 * 0 + 16 * (x / 16) + x mod 16)%N) by lia.
    set (a := (x / 16)%N) in *. set (b := (x mod 16)%N) in *. rewrite Ex. cbn [List.app]. apply chars_code; [reflexivity|reflexivity|apply hex_back; exact Q|apply hex_back; exact R|exact H].
  - cbn [List.app]. apply chars_plain; assumption.
Qed.
Lemma escapes_ok : forall s, chars (concat (map escape_char s)) s.
Proof. induction s as [|x s IH]; [constructor|]. cbn [map List.concat]. apply escape_ok, IH. Qed.
Lemma write_str_ok : forall s, denotes (write_str s) (VStr s).
Proof. intros s. apply d_string, escapes_ok. Qed.
Lemma white_app : forall a b, white a -> white b -> white (a ++ b).
Proof. intros a b H1 H2 x I. apply in_app_iff in I as [I|I]; auto. Qed.
Lemma white_nil : white [].
Proof. intros x []. Qed.
Lemma white_sp : white (lit " ").
Proof. intros x [<-|[]]. left. reflexivity. Qed.
Lemma elements_lead : forall w t l, white w -> elements t l -> elements (w ++ t) l.
Proof. intros w t l W H. destruct H as [w1 t w2 v H1 H2 H3|w1 t w2 v r l H1 H2 H3 H4]; rewrite app_assoc; [apply e_last|apply e_more]; auto using white_app. Qed.
Lemma members_lead : forall w t l, white w -> members t l -> members (w ++ t) l.
Proof. intros w t l W H. destruct H; rewrite app_assoc; [apply m_last|apply m_more]; auto using white_app. Qed.
Lemma elements_ok : forall l, l <> [] -> (forall v, In v l -> denotes (write v) v) -> elements (join (lit ", ") (map write l)) l.
Proof.
  induction l as [|v l IH]; [congruence|]. intros _ H. destruct l as [|v2 l].
  - cbn [map join]. replace (write v) with ([] ++ write v ++ []) by (cbn [List.app]; rewrite app_nil_r; reflexivity).
    apply e_last; [apply white_nil|apply white_nil|apply H; left; reflexivity].
  - cbn [map] in *. rewrite join_cons by discriminate. change (lit ", ") with (lit "," ++ lit " ") at 1. rewrite <- app_assoc.
    apply (e_more [] (write v) []); [apply white_nil|apply white_nil|apply H; left; reflexivity|]. apply elements_lead; [apply white_sp|]. apply IH; [discriminate|]. intros w I. apply H. right. exact I.
Qed.
Definition write_member (kv : str * val) : str := match kv with (k, x) => write_str k ++ lit ": " ++ write x end.
Lemma as_member : forall t t' d, members t d -> t = t' -> members t' d.
Proof. intros t t' d H <-. exact H. Qed.
Lemma members_ok : forall d, d <> [] -> (forall k v, In (k, v) d -> denotes (write v) v) -> members (join (lit ", ") (map write_member d)) d.
Proof.
  induction d as [|[k v] d IH]; [congruence|]. intros _ H. destruct d as [|kv2 d].
  - cbn [map join write_member]. eapply (as_member ([] ++ [34%N] ++ concat (map escape_char k) ++ [34%N] ++ [] ++ lit ":" ++ lit " " ++ write v ++ [])).
    + apply m_last; auto using white_nil, white_sp, escapes_ok. apply (H k v). left. reflexivity.
    + unfold write_str. rewrite app_nil_r, <- !app_assoc. reflexivity.
  - cbn [map] in *. rewrite join_cons by discriminate.
    match goal with |- members (_ ++ _ ++ ?j) _ => set (rest := j) in * end.
    eapply (as_member ([] ++ [34%N] ++ concat (map escape_char k) ++ [34%N] ++ [] ++ lit ":" ++ lit " " ++ write v ++ [] ++ lit "," ++ lit " " ++ rest)).
    + apply m_more; auto using white_nil, white_sp, escapes_ok; [apply (H k v); left; reflexivity|].
      apply members_lead; [apply white_sp|]. apply IH; [discriminate|]. intros k' v' I. apply (H k' v'). right. exact I.
    + unfold write_member, write_str. rewrite <- !app_assoc. reflexivity.
Qed.
Lemma in_lsize : forall v l, In v l -> vsize v <= lsize l.
Proof. intros v l. induction l as [|x l IH]; [intros []|]. intros [<-|I]; cbn [lsize]; [lia|]. specialize (IH I). lia. Qed.
Lemma in_dsize : forall k v (d : dict), In (k, v) d -> vsize v <= dsize d.
Proof. intros k v d. induction d as [|[k' x] d IH]; [intros []|]. intros [E|I]; cbn [dsize]; [injection E as -> ->; lia|]. specialize (IH I). lia. Qed.
Lemma write_ok : forall v, denotes (write v) v.
Proof.
  intros v. remember (vsize v) as n eqn:En. assert (L : vsize v <= n) by lia. clear En. revert v L.
  induction n as [|n IH]; intros v L; [destruct v; cbn in L; lia|]. destruct v as [|b|z|s|l|d].
  - exact d_null.
  - destruct b; [exact d_true|exact d_false].
  - apply write_int_ok.
  - apply write_str_ok.
  - cbn [write]. destruct l as [|x l]; [exact (d_empty_array [] white_nil)|]. apply d_array, elements_ok; [discriminate|].
    intros v I. apply IH. rewrite vsize_list in L. pose proof (in_lsize _ _ I). lia.
  - cbn [write]. destruct d as [|x d]; [exact (d_empty_object [] white_nil)|]. apply d_object, (members_ok (x :: d)); [discriminate|].
    intros k v I. apply IH. rewrite vsize_dict in L. pose proof (in_dsize _ _ _ I). lia.
Qed.
