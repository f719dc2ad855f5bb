From Coq Require Import List NArith ZArith PeanoNat Lia Bool String.
From Verif Require Import PyStr Json JsonTextModel JsonTextSpec JsonTextProofs.
Import ListNotations. Notation length := List.length. Notation concat := List.concat. Open Scope list_scope.

(** * A JSON text denotes one value *)
Definition stop (p : ch -> bool) (r : str) : Prop := match r with x :: _ => p x = false | [] => True end.
Lemma split_run : forall p (a b r r' : str), forallb p a = true -> forallb p b = true -> stop p r -> stop p r' -> a ++ r = b ++ r' -> a = b /\ r = r'.
Proof.
  induction a as [|x a IH]; intros [|y b] r r' Ha Hb S1 S2 E; cbn in *.
  - auto.
  - subst r. cbn in S1. apply andb_prop in Hb as [Hb _]. congruence.
  - subst r'. cbn in S2. apply andb_prop in Ha as [Ha _]. congruence.
  - injection E as <- E. apply andb_prop in Ha as [_ Ha]. apply andb_prop in Hb as [_ Hb]. destruct (IH b r r' Ha Hb S1 S2 E) as [<- <-]. auto.
Qed.
Definition is_white (x : ch) : bool := ((x =? 32) || (x =? 9) || (x =? 10) || (x =? 13))%N.
Lemma white_run : forall w, white w -> forallb is_white w = true.
Proof. intros w H. apply forallb_forall. intros x I. destruct (H x I) as [<-|[<-|[<-|[<-|[]]]]]; reflexivity. Qed.
Lemma split_white : forall (w w' r r' : str), white w -> white w' -> stop is_white r -> stop is_white r' -> w ++ r = w' ++ r' -> w = w' /\ r = r'.
Proof. intros. apply (split_run is_white); auto using white_run. Qed.

(** The closing quote of a string is found in one way. *)
Lemma chars_one : forall t s, chars t s -> forall t' s' r r', chars t' s' -> t ++ 34%N :: r = t' ++ 34%N :: r' -> t = t' /\ s = s' /\ r = r'.
Proof.
  induction 1 as [|x t s L N1 N2 H IH|e x t s I H IH|a b c d va vb vc vd t s Ha Hb Hc Hd H IH]; intros t' s' r r' H' E.
  - destruct H' as [|y t2 s2 L' M1 M2 H2|e' y t2 s2 I' H2|a' b' c' d' va' vb' vc' vd' t2 s2 Ha' Hb' Hc' Hd' H2]; cbn in E.
    + injection E as <-. auto.
    + injection E as E _. congruence.
    + discriminate.
    + discriminate.
  - destruct H' as [|y t2 s2 L' M1 M2 H2|e' y t2 s2 I' H2|a' b' c' d' va' vb' vc' vd' t2 s2 Ha' Hb' Hc' Hd' H2]; cbn in E.
    + injection E as E _. congruence.
    + injection E as <- E. destruct (IH _ _ _ _ H2 E) as (-> & -> & ->). auto.
    + injection E as E _. congruence.
    + injection E as E _. congruence.
  - destruct H' as [|y t2 s2 L' M1 M2 H2|e' y t2 s2 I' H2|a' b' c' d' va' vb' vc' vd' t2 s2 Ha' Hb' Hc' Hd' H2]; cbn in E.
    + discriminate.
    + injection E as E _. congruence.
    + injection E as <- E. destruct (IH _ _ _ _ H2 E) as (-> & -> & ->). split; [reflexivity|]. split; [|reflexivity]. f_equal.
      unfold short_escapes in I, I'. cbn [In] in I, I'. 
      repeat (destruct I as [I|I]; [injection I as <- <-; repeat (destruct I' as [I'|I']; [first [discriminate I'|injection I' as <-; reflexivity]|]); destruct I'|]). destruct I.
    + injection E as -> E. unfold short_escapes in I. cbn [In] in I. repeat (destruct I as [I|I]; [discriminate I|]). destruct I.
  - destruct H' as [|y t2 s2 L' M1 M2 H2|e' y t2 s2 I' H2|a' b' c' d' va' vb' vc' vd' t2 s2 Ha' Hb' Hc' Hd' H2]; cbn in E.
    + discriminate.
    + injection E as E _. congruence.
    + injection E as <- E. unfold short_escapes in I'. cbn [In] in I'. repeat (destruct I' as [I'|I']; [discriminate I'|]). destruct I'.
    + injection E as <- <- <- <- E. destruct (IH _ _ _ _ H2 E) as (-> & -> & ->). split; [reflexivity|]. split; [|reflexivity].
      rewrite Ha in Ha'; rewrite Hb in Hb'; rewrite Hc in Hc'; rewrite Hd in Hd'. injection Ha' as <-; injection Hb' as <-; injection Hc' as <-; injection Hd' as <-. reflexivity.
Qed.
(** How a value begins: its first character tells its kind. *)
Inductive kind := KNull | KTrue | KFalse | KInt | KNeg | KStr | KArr | KObj.
Definition kind_of (x : ch) : option kind :=
  (if x =? 110 then Some KNull else if x =? 116 then Some KTrue else if x =? 102 then Some KFalse else if x =? 45 then Some KNeg
   else if x =? 34 then Some KStr else if x =? 91 then Some KArr else if x =? 123 then Some KObj else if digit x then Some KInt else None)%N.
Lemma digit_kind : forall x, digit x = true -> kind_of x = Some KInt.
Proof.
  intros x H. apply digit_iff in H. unfold kind_of.
  repeat match goal with |- context [(x =? ?n)%N] => replace (x =? n)%N with false by (symmetry; apply N.eqb_neq; lia) end.
  replace (digit x) with true; [reflexivity|]. symmetry. apply digit_iff, H.
Qed.
Lemma head_number : forall ds, number ds -> exists x r, ds = x :: r /\ kind_of x = Some KInt.
Proof. intros [|x r] (N0 & D & _); [congruence|]. exists x, r. split; [reflexivity|]. apply digit_kind. cbn in D. apply andb_prop in D. tauto. Qed.
Lemma kind_not_white : forall x k, kind_of x = Some k -> is_white x = false /\ x <> 93%N /\ x <> 125%N /\ x <> 44%N.
Proof.
  intros x k H. destruct (is_white x) eqn:W.
  - unfold is_white in W. rewrite !orb_true_iff, !N.eqb_eq in W. destruct W as [[[->| ->]| ->]| ->]; discriminate H.
  - split; [reflexivity|]. repeat split; intros ->; discriminate H.
Qed.
Definition begins (t : str) : Prop := exists x r k, t = x :: r /\ kind_of x = Some k.
Lemma denotes_begins : forall t v, denotes t v -> begins t.
Proof.
  intros t v H. destruct H as [| | |ds H|ds H|t s H|w H|t l H|w H|t d H].
  - exists 110%N, (lit "ull"), KNull. auto.
  - exists 116%N, (lit "rue"), KTrue. auto.
  - exists 102%N, (lit "alse"), KFalse. auto.
  - destruct (head_number ds H) as (x & r & -> & K). exists x, r, KInt. auto.
  - exists 45%N, ds, KNeg. auto.
  - exists 34%N, (t ++ [34%N]), KStr. auto.
  - exists 91%N, (w ++ lit "]"), KArr. auto.
  - exists 91%N, (t ++ lit "]"), KArr. auto.
  - exists 123%N, (w ++ lit "}"), KObj. auto.
  - exists 123%N, (t ++ lit "}"), KObj. auto.
Qed.
Lemma begins_stop : forall t r, begins t -> stop is_white (t ++ r).
Proof. intros t r (x & r' & k & -> & K). cbn. apply (kind_not_white x k K). Qed.

Definition one_value (t : str) (v : val) : Prop := forall t' v' r r', denotes t' v' -> stop digit r -> stop digit r' -> t ++ r = t' ++ r' -> t = t' /\ v = v' /\ r = r'.
Definition one_list (t : str) (l : list val) : Prop := forall t' l' r r', elements t' l' -> t ++ 93%N :: r = t' ++ 93%N :: r' -> t = t' /\ l = l' /\ r = r'.
Definition one_dict (t : str) (d : dict) : Prop := forall t' d' r r', members t' d' -> t ++ 125%N :: r = t' ++ 125%N :: r' -> t = t' /\ d = d' /\ r = r'.
Lemma inv_denotes : forall t v, denotes t v -> forall x r0, t = x :: r0 ->
  match kind_of x with
  | Some KNull => t = lit "null" /\ v = VNone
  | Some KTrue => t = lit "true" /\ v = VBool true
  | Some KFalse => t = lit "false" /\ v = VBool false
  | Some KInt => number t /\ v = VInt (Z.of_nat (digits_value t))
  | Some KNeg => exists ds, number ds /\ t = lit "-" ++ ds /\ v = VInt (- Z.of_nat (digits_value ds))
  | Some KStr => exists u s, chars u s /\ t = [34%N] ++ u ++ [34%N] /\ v = VStr s
  | Some KArr => (exists w, white w /\ t = lit "[" ++ w ++ lit "]" /\ v = VList []) \/ (exists u l, elements u l /\ t = lit "[" ++ u ++ lit "]" /\ v = VList l)
  | Some KObj => (exists w, white w /\ t = lit "{" ++ w ++ lit "}" /\ v = VDict []) \/ (exists u d, members u d /\ t = lit "{" ++ u ++ lit "}" /\ v = VDict d)
  | None => False
  end.
Proof.
  intros t v H. destruct H as [| | |ds H|ds H|t s H|w H|t l H|w H|t d H]; intros x r0 E.
  - injection E as <- _. hnf. split; reflexivity.
  - injection E as <- _. hnf. split; reflexivity.
  - injection E as <- _. hnf. split; reflexivity.
  - destruct (head_number ds H) as (y & r & -> & K). injection E as <- _. rewrite K. auto.
  - injection E as <- _. hnf. exists ds. auto.
  - injection E as <- _. hnf. exists t, s. auto.
  - injection E as <- _. hnf. left. exists w. auto.
  - injection E as <- _. hnf. right. exists t, l. auto.
  - injection E as <- _. hnf. left. exists w. auto.
  - injection E as <- _. hnf. right. exists t, d. auto.
Qed.
(** Two values in front of the same text begin alike. *)
Lemma same_kind : forall (t : str) (v : val) t' v' (r r' : str) x r0, denotes t' v' -> t = x :: r0 -> t ++ r = t' ++ r' -> exists r1, t' = x :: r1.
Proof. intros t v t' v' r r' x r0 H' -> E. destruct (denotes_begins _ _ H') as (y & r1 & k & -> & _). cbn in E. injection E as <- _. exists r1. reflexivity. Qed.
Lemma elements_shape : forall u l, elements u l -> exists w1 t w2 v, white w1 /\ white w2 /\ denotes t v /\
  ((u = w1 ++ t ++ w2 /\ l = [v]) \/ (exists r l', elements r l' /\ u = w1 ++ t ++ w2 ++ lit "," ++ r /\ l = v :: l')).
Proof. intros u l [w1 t w2 v H1 H2 H3|w1 t w2 v r l' H1 H2 H3 H4]; exists w1, t, w2, v; repeat split; auto. right. exists r, l'. auto. Qed.
Lemma members_shape : forall u d, members u d -> exists w1 kt k w2 w3 t w4 v, white w1 /\ white w2 /\ white w3 /\ white w4 /\ chars kt k /\ denotes t v /\
  ((u = w1 ++ [34%N] ++ kt ++ [34%N] ++ w2 ++ lit ":" ++ w3 ++ t ++ w4 /\ d = [(k, v)]) \/
   (exists r d', members r d' /\ u = w1 ++ [34%N] ++ kt ++ [34%N] ++ w2 ++ lit ":" ++ w3 ++ t ++ w4 ++ lit "," ++ r /\ d = (k, v) :: d')).
Proof.
  intros u d [w1 kt k w2 w3 t w4 v H1 H2 H3 H4 H5 H6|w1 kt k w2 w3 t w4 v r d' H1 H2 H3 H4 H5 H6 H7]; exists w1, kt, k, w2, w3, t, w4, v; repeat (split; [assumption|]).
  - left. auto.
  - right. exists r, d'. auto.
Qed.
Lemma elements_begin : forall u l, elements u l -> exists w x r k, white w /\ u = w ++ x :: r /\ kind_of x = Some k.
Proof.
  intros u l H. destruct (elements_shape u l H) as (w1 & t & w2 & v & W1 & _ & D & C). destruct (denotes_begins _ _ D) as (x & r & k & -> & K).
  destruct C as [[-> _]|(r' & l' & _ & -> & _)]; [exists w1, x, (r ++ w2), k|exists w1, x, (r ++ w2 ++ lit "," ++ r'), k]; auto.
Qed.
Lemma members_begin : forall u d, members u d -> exists w r, white w /\ u = w ++ 34%N :: r.
Proof. intros u d H. destruct (members_shape u d H) as (w1 & kt & k & w2 & w3 & t & w4 & v & W1 & _ & _ & _ & _ & _ & C). destruct C as [[-> _]|(r' & d' & _ & -> & _)]; exists w1; eexists; split; auto; reflexivity. Qed.
Lemma stop_digit : forall w x r, white w -> digit x = false -> stop digit (w ++ x :: r).
Proof. intros [|y w] x r W H; [exact H|]. cbn. destruct (W y (or_introl eq_refl)) as [<-|[<-|[<-|[<-|[]]]]]; reflexivity. Qed.

Lemma use_one : forall t v t0 v' R R', one_value t v -> denotes t0 v' -> t ++ R = t0 ++ R' -> stop digit R -> stop digit R' -> t = t0 /\ v = v' /\ R = R'.
Proof. intros t v t0 v' R R' H D E S1 S2. exact (H t0 v' R R' D S1 S2 E). Qed.
Lemma all_one : (forall t v, denotes t v -> one_value t v) /\ (forall t l, elements t l -> one_list t l) /\ (forall t d, members t d -> one_dict t d).
Proof.
  apply (json_ind (fun t v _ => one_value t v) (fun t l _ => one_list t l) (fun t d _ => one_dict t d)).
  - intros t' v' r r' H' S1 S2 E. destruct (same_kind _ VNone t' v' r r' _ _ H' eq_refl E) as (r1 & Et). destruct (inv_denotes _ _ H' _ _ Et) as [-> ->]. apply app_inv_head in E. repeat split; congruence.
  - intros t' v' r r' H' S1 S2 E. destruct (same_kind _ VNone t' v' r r' _ _ H' eq_refl E) as (r1 & Et). destruct (inv_denotes _ _ H' _ _ Et) as [-> ->]. apply app_inv_head in E. repeat split; congruence.
  - intros t' v' r r' H' S1 S2 E. destruct (same_kind _ VNone t' v' r r' _ _ H' eq_refl E) as (r1 & Et). destruct (inv_denotes _ _ H' _ _ Et) as [-> ->]. apply app_inv_head in E. repeat split; congruence.
  - intros ds Hn t' v' r r' H' S1 S2 E. destruct (head_number ds Hn) as (x & r0 & Ed & K). destruct (same_kind _ VNone t' v' r r' _ _ H' Ed E) as (r1 & Et).
    pose proof (inv_denotes _ _ H' _ _ Et) as I. rewrite K in I. destruct I as [N' ->]. destruct (split_run digit ds t' r r') as [<- <-]; auto; [apply Hn|apply N'].
  - intros ds Hn t' v' r r' H' S1 S2 E. destruct (same_kind _ VNone t' v' r r' _ _ H' eq_refl E) as (r1 & Et).
    destruct (inv_denotes _ _ H' _ _ Et) as (ds' & N' & -> & ->). injection E as E. destruct (split_run digit ds ds' r r') as [<- <-]; auto; [apply Hn|apply N'].
  - intros t s Hc t' v' r r' H' S1 S2 E. destruct (same_kind _ VNone t' v' r r' _ _ H' eq_refl E) as (r1 & Et).
    destruct (inv_denotes _ _ H' _ _ Et) as (u & s' & C' & -> & ->). rewrite <- !app_assoc in E. injection E as E. destruct (chars_one _ _ Hc _ _ _ _ C' E) as (-> & -> & ->). auto.
  - intros w W t' v' r r' H' S1 S2 E. destruct (same_kind _ VNone t' v' r r' _ _ H' eq_refl E) as (r1 & Et).
    destruct (inv_denotes _ _ H' _ _ Et) as [(w' & W' & -> & ->)|(u & l & L & -> & ->)]; rewrite <- !app_assoc in E; injection E as E.
    + destruct (split_white w w' (93%N :: r) (93%N :: r') W W' eq_refl eq_refl E) as [<- Q]. injection Q as <-. auto.
    + destruct (elements_begin u l L) as (w' & x & r2 & k & W' & -> & K). rewrite <- app_assoc in E. destruct (split_white w w' (93%N :: r) ((x :: r2) ++ 93%N :: r') W W' eq_refl (proj1 (kind_not_white _ _ K)) E) as [_ Q].
      injection Q as Q _. destruct (kind_not_white _ _ K) as (_ & Q1 & _). congruence.
  - intros t l L IH t' v' r r' H' S1 S2 E. destruct (same_kind _ VNone t' v' r r' _ _ H' eq_refl E) as (r1 & Et).
    destruct (inv_denotes _ _ H' _ _ Et) as [(w' & W' & -> & ->)|(u & l' & L' & -> & ->)]; rewrite <- !app_assoc in E; injection E as E.
    + destruct (elements_begin t l L) as (w & x & r2 & k & W & -> & K). rewrite <- app_assoc in E. destruct (split_white w w' ((x :: r2) ++ 93%N :: r) (93%N :: r') W W' (proj1 (kind_not_white _ _ K)) eq_refl E) as [_ Q].
      injection Q as Q _. destruct (kind_not_white _ _ K) as (_ & Q1 & _). congruence.
    + destruct (IH u l' r r' L' E) as (-> & -> & ->). auto.
  - intros w W t' v' r r' H' S1 S2 E. destruct (same_kind _ VNone t' v' r r' _ _ H' eq_refl E) as (r1 & Et).
    destruct (inv_denotes _ _ H' _ _ Et) as [(w' & W' & -> & ->)|(u & l & L & -> & ->)]; rewrite <- !app_assoc in E; injection E as E.
    + destruct (split_white w w' (125%N :: r) (125%N :: r') W W' eq_refl eq_refl E) as [<- Q]. injection Q as <-. auto.
    + destruct (members_begin u l L) as (w' & r2 & W' & ->). rewrite <- app_assoc in E. destruct (split_white w w' (125%N :: r) ((34%N :: r2) ++ 125%N :: r') W W' eq_refl eq_refl E) as [_ Q]. discriminate Q.
  - intros t l L IH t' v' r r' H' S1 S2 E. destruct (same_kind _ VNone t' v' r r' _ _ H' eq_refl E) as (r1 & Et).
    destruct (inv_denotes _ _ H' _ _ Et) as [(w' & W' & -> & ->)|(u & l' & L' & -> & ->)]; rewrite <- !app_assoc in E; injection E as E.
    + destruct (members_begin t l L) as (w & r2 & W & ->). rewrite <- app_assoc in E. destruct (split_white w w' ((34%N :: r2) ++ 125%N :: r) (125%N :: r') W W' eq_refl eq_refl E) as [_ Q]. discriminate Q.
    + destruct (IH u l' r r' L' E) as (-> & -> & ->). auto.
  - (* the last element *)
    intros w1 t w2 v W1 W2 D IH t' l' r r' H' E. destruct (elements_shape _ _ H') as (w1' & t0 & w2' & v' & W1' & W2' & D' & C).
    destruct C as [[-> ->]|(r2 & l2 & L2 & -> & ->)]; rewrite <- !app_assoc in E;
      (apply split_white in E as [?Ew E]; [|assumption|assumption|apply begins_stop; eapply denotes_begins; eassumption|apply begins_stop; eapply denotes_begins; eassumption]);
      (destruct (use_one _ _ _ _ _ _ IH D' E) as (Etv & Evv & Er0); [apply stop_digit; [assumption|reflexivity]|apply stop_digit; [assumption|reflexivity]|clear E; rename Er0 into E]);
      (apply split_white in E as [?Ew E]; [|assumption|assumption|reflexivity|reflexivity]).
    + injection E as Er. subst. auto.
    + discriminate E.
  - intros w1 t w2 v r0 l W1 W2 D IH L IHL t' l' r r' H' E. destruct (elements_shape _ _ H') as (w1' & t0 & w2' & v' & W1' & W2' & D' & C).
    destruct C as [[-> ->]|(r2 & l2 & L2 & -> & ->)]; rewrite <- !app_assoc in E;
      (apply split_white in E as [?Ew E]; [|assumption|assumption|apply begins_stop; eapply denotes_begins; eassumption|apply begins_stop; eapply denotes_begins; eassumption]);
      (destruct (use_one _ _ _ _ _ _ IH D' E) as (Etv & Evv & Er0); [apply stop_digit; [assumption|reflexivity]|apply stop_digit; [assumption|reflexivity]|clear E; rename Er0 into E]);
      (apply split_white in E as [?Ew E]; [|assumption|assumption|reflexivity|reflexivity]).
    + discriminate E.
    + injection E as E. destruct (IHL _ _ _ _ L2 E) as (Ea & Eb & Er). subst. auto.
  - intros w1 kt k w2 w3 t w4 v W1 W2 W3 W4 K D IH t' l' r r' H' E. destruct (members_shape _ _ H') as (w1' & kt' & k' & w2' & w3' & t0 & w4' & v' & W1' & W2' & W3' & W4' & K' & D' & C).
    destruct C as [[-> ->]|(r2 & l2 & L2 & -> & ->)]; rewrite <- !app_assoc in E;
      (apply split_white in E as [?Ew E]; [|assumption|assumption|reflexivity|reflexivity]);
      injection E as E; (eapply chars_one in E as (?Et & ?Ev & E); [|exact K|exact K']);
      (apply split_white in E as [?Ew E]; [|assumption|assumption|reflexivity|reflexivity]); injection E as E;
      (apply split_white in E as [?Ew E]; [|assumption|assumption|apply begins_stop; eapply denotes_begins; eassumption|apply begins_stop; eapply denotes_begins; eassumption]);
      (destruct (use_one _ _ _ _ _ _ IH D' E) as (Etv & Evv & Er0); [apply stop_digit; [assumption|reflexivity]|apply stop_digit; [assumption|reflexivity]|clear E; rename Er0 into E]);
      (apply split_white in E as [?Ew E]; [|assumption|assumption|reflexivity|reflexivity]).
    + injection E as Er. subst. auto.
    + discriminate E.
  - intros w1 kt k w2 w3 t w4 v r0 l W1 W2 W3 W4 K D IH L IHL t' l' r r' H' E. destruct (members_shape _ _ H') as (w1' & kt' & k' & w2' & w3' & t0 & w4' & v' & W1' & W2' & W3' & W4' & K' & D' & C).
    destruct C as [[-> ->]|(r2 & l2 & L2 & -> & ->)]; rewrite <- !app_assoc in E;
      (apply split_white in E as [?Ew E]; [|assumption|assumption|reflexivity|reflexivity]);
      injection E as E; (eapply chars_one in E as (?Et & ?Ev & E); [|exact K|exact K']);
      (apply split_white in E as [?Ew E]; [|assumption|assumption|reflexivity|reflexivity]); injection E as E;
      (apply split_white in E as [?Ew E]; [|assumption|assumption|apply begins_stop; eapply denotes_begins; eassumption|apply begins_stop; eapply denotes_begins; eassumption]);
      (destruct (use_one _ _ _ _ _ _ IH D' E) as (Etv & Evv & Er0); [apply stop_digit; [assumption|reflexivity]|apply stop_digit; [assumption|reflexivity]|clear E; rename Er0 into E]);
      (apply split_white in E as [?Ew E]; [|assumption|assumption|reflexivity|reflexivity]).
    + discriminate E.
    + injection E as E. destruct (IHL _ _ _ _ L2 E) as (Ea & Eb & Er). subst. auto.
Qed.
Lemma denotes_unique : forall t v v', denotes t v -> denotes t v' -> v = v'.
Proof. intros t v v' H H'. destruct (proj1 all_one t v H t v' [] [] H' I I eq_refl) as (_ & E & _). exact E. Qed.
Lemma write_unique : forall v v', denotes (write v) v' -> v' = v.
Proof. intros v v' H. eapply denotes_unique; [exact H|apply write_ok]. Qed.
